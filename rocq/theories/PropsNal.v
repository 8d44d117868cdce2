(** C19, C21-C24: NAL units, payload dispatch, the parameter set store, whole streams.
    The specification of the dispatch ([result], [payload_of], [stored], ...) is in FactsNal.v. *)
From Coq Require Import ZArith List Bool Lia ZifyBool ZifyNat.
From Verif Require Import MBase MBitBuffer Spec BitsFacts Reader ReaderFacts Rules Syntax SyntaxSe MCommon CommonFacts PropsBits PropsCommon
  MFraming FramingFacts PropsFraming MSyntaxA SpecA FactsA Api PropsA MSyntaxB SpecB FactsB FactsRps PropsB MSps SpecSps FactsSps PropsSps
  MPps SpecPps FactsPps PropsPps MSlice SpecSlice FactsSlice PropsSlice MSei SpecSei FactsSei PropsSei MNal FactsNal.
Import ListNotations.
Open Scope Z_scope.
Ltac Zify.zify_post_hook ::= Z.div_mod_to_equations.

Lemma nal_unit_unesc opts data rbsp st : UnescapeRbsp data = Done rbsp -> ParseNalUnit opts data st = ParseNalUnitUnescaped opts rbsp st.
Proof. intros E. unfold ParseNalUnit, on_data_st. rewrite E. reflexivity. Qed.
Lemma unesc_bytes data rbsp : byte_string data -> UnescapeRbsp data = Done rbsp -> byte_string rbsp.
Proof. intros D E. destruct (Unescape_byte_string data D) as (r & E' & D'). rewrite E in E'. injection E' as <-. exact D'. Qed.

(** * C21 *)
(** The payload parser that nal_unit_type selects is run right after the two header bytes and its result, or nothing if it rejects the
    payload, is the only alternative filled. *)
Theorem C21_dispatch : forall opts data rbsp st, byte_string data -> state_ok st -> UnescapeRbsp data = Done rbsp ->
  match ParseNalUnit opts data st with
  | Done (None, _) => (length rbsp < 2)%nat
  | Done (Some u, _) => (2 <= length rbsp)%nat /\ nal_header_ok (nu_header u) /\ bits_of (firstn 2 rbsp) = enc_nal_header (nu_header u) /\
      nu_payload u = payload_of (nal_unit_type (nu_header u)) st (adv (mk_bb rbsp) 16)
  | Bad _ => (2 <= length rbsp)%nat
  end.
Proof.
  intros opts data rbsp st D S E. rewrite (nal_unit_unesc _ _ _ _ E). pose proof (unesc_bytes _ _ D E) as D'. destruct (le_lt_dec 2 (length rbsp)) as [L|L].
  - destruct (nal_unit_long opts rbsp st D' S L) as (h & Hh & Eh & W & ->). destruct (payload_fault (nal_unit_type h) st (adv (mk_bb rbsp) 16)); [exact L|].
    cbn. auto.
  - rewrite (nal_unit_short opts rbsp st D' L). exact L.
Qed.
(** At most one alternative. *)
Theorem C21_one_alternative : forall opts data st u st', byte_string data -> state_ok st -> ParseNalUnit opts data st = Done (Some u, st') ->
  let p := nu_payload u in let ty := nal_unit_type (nu_header u) in
  (np_vps p <> None -> ty = 32) /\ (np_sps p <> None -> ty = 33) /\ (np_pps p <> None -> ty = 34) /\ (np_aud p <> None -> ty = 35) /\
  (np_slice p <> None -> 0 <= ty <= 9 \/ 16 <= ty <= 21) /\ (np_sei p <> None -> ty = 39 \/ ty = 40).
Proof.
  intros opts data st u st' D S E. destruct (Unescape_byte_string data D) as (rbsp & Er & D'). pose proof (C21_dispatch opts data rbsp st D S Er) as H. rewrite E in H.
  destruct H as (_ & _ & _ & ->). cbv zeta. set (ty := nal_unit_type (nu_header u)). unfold payload_of. cbn [np_vps np_sps np_pps np_aud np_slice np_sei].
  destruct (slice_nut ty) eqn:Hs; unfold slice_nut in Hs; destruct (Z.eqb_spec ty 32); destruct (Z.eqb_spec ty 33); destruct (Z.eqb_spec ty 34); destruct (Z.eqb_spec ty 35);
    destruct ((ty =? 39) || (ty =? 40)) eqn:He; repeat split; intros N; try congruence; lia.
Qed.
(** The other fields: checksum of the RBSP if asked for, number of RBSP bytes up to where the payload parser stopped (never past the end),
    no range yet. *)
Theorem C21_fields : forall opts data rbsp st u st', byte_string data -> state_ok st -> UnescapeRbsp data = Done rbsp -> ParseNalUnit opts data st = Done (Some u, st') ->
  nu_checksum u = (if add_checksum opts then Some (ones_complement_checksum rbsp) else None) /\
  nu_parsed_length u = (pos (payload_stop (nal_unit_type (nu_header u)) st (adv (mk_bb rbsp) 16)) + 7) / 8 /\
  2 <= nu_parsed_length u <= Z.of_nat (length rbsp) /\ nu_offset u = 0 /\ nu_length u = 0.
Proof.
  intros opts data rbsp st u st' D S E E1. rewrite (nal_unit_unesc _ _ _ _ E) in E1. pose proof (unesc_bytes _ _ D E) as D'. destruct (le_lt_dec 2 (length rbsp)) as [L|L].
  2:{ rewrite (nal_unit_short opts rbsp st D' L) in E1. discriminate E1. }
  destruct (nal_unit_long opts rbsp st D' S L) as (h & Hh & Eh & W & E2). rewrite E2 in E1. destruct (payload_fault (nal_unit_type h) st (adv (mk_bb rbsp) 16)) eqn:F; [discriminate|].
  injection E1 as <- <-. unfold unit_of. cbn [nu_checksum nu_parsed_length nu_offset nu_length nu_header]. unfold ceil_bytes. split; [reflexivity|]. split; [reflexivity|].
  split; [|auto]. destruct (payload_stop_steps _ _ _ W S F) as (bs & St). pose proof (steps_wf _ _ _ W St) as (_ & W1 & _ & _ & _ & W2).
  destruct St as [_ St]. rewrite St in *. clear St. rewrite pos_adv in *. rewrite pos_adv in *. change (pos (mk_bb rbsp)) with 0 in *. cbn [adv bb_count bb_bytes mk_bb] in *. lia.
Qed.
(** The only undefined behaviour is signed overflow, and with stored reference picture sets within limits it needs 24 consecutive zero bits
    in the RBSP. *)
Theorem C21_safe : forall opts data rbsp st e, byte_string data -> state_ok st -> UnescapeRbsp data = Done rbsp -> ParseNalUnit opts data st = Bad e ->
  e = SignedOverflow /\ (pocs_ok st -> zrun 24 (bits_of rbsp)).
Proof.
  intros opts data rbsp st e D S E E1. rewrite (nal_unit_unesc _ _ _ _ E) in E1. pose proof (unesc_bytes _ _ D E) as D'. destruct (le_lt_dec 2 (length rbsp)) as [L|L].
  2:{ rewrite (nal_unit_short opts rbsp st D' L) in E1. discriminate E1. }
  destruct (nal_unit_long opts rbsp st D' S L) as (h & Hh & Eh & W & E2). rewrite E2 in E1. destruct (payload_fault (nal_unit_type h) st (adv (mk_bb rbsp) 16)) eqn:F; [|discriminate].
  injection E1 as <-. destruct (payload_fault_ovf _ _ _ _ W S F) as [H1 H2]. split; [exact H1|]. intros P. apply (zrun_skipn 24 16). rewrite <- rem_adv16 by exact D'. auto.
Qed.

(** * C22 *)
(** The store afterwards, entry by entry. *)
Theorem C22_store : forall opts data st r st', byte_string data -> state_ok st -> ParseNalUnit opts data st = Done (r, st') ->
  match r with
  | None => forall k, st_vps st' k = st_vps st k /\ st_sps st' k = st_sps st k /\ st_pps st' k = st_pps st k
  | Some u => forall k,
      st_vps st' k = (match np_vps (nu_payload u) with Some v => if k =? vps_video_parameter_set_id (fst v) then Some v else st_vps st k | None => st_vps st k end) /\
      st_sps st' k = (match np_sps (nu_payload u) with Some v => if k =? sps_seq_parameter_set_id (fst v) then Some v else st_sps st k | None => st_sps st k end) /\
      st_pps st' k = (match np_pps (nu_payload u) with Some v => if k =? pps_pic_parameter_set_id (fst v) then Some v else st_pps st k | None => st_pps st k end)
  end.
Proof.
  intros opts data st r st' D S E1. destruct (Unescape_byte_string data D) as (rbsp & E & D'). rewrite (nal_unit_unesc _ _ _ _ E) in E1. destruct (le_lt_dec 2 (length rbsp)) as [L|L].
  2:{ rewrite (nal_unit_short opts rbsp st D' L) in E1. injection E1 as <- <-. auto. }
  destruct (nal_unit_long opts rbsp st D' S L) as (h & Hh & Eh & W & E2). rewrite E2 in E1. destruct (payload_fault (nal_unit_type h) st (adv (mk_bb rbsp) 16)) eqn:F; [discriminate|].
  injection E1 as <- <-. cbn [nu_payload unit_of]. destruct (stored_eq (payload_of (nal_unit_type h) st (adv (mk_bb rbsp) 16)) st) as (H1 & H2 & H3). intros k.
  rewrite H1, H2, H3. auto.
Qed.
(** After any call on a store in which every entry has its own id and valid contents, it is still such a store. *)
Theorem C22_invariant : forall opts data st r st', byte_string data -> store_ok st -> ParseNalUnit opts data st = Done (r, st') -> store_ok st'.
Proof.
  intros opts data st r st' D S E1. destruct (Unescape_byte_string data D) as (rbsp & E & D'). rewrite (nal_unit_unesc _ _ _ _ E) in E1. destruct (le_lt_dec 2 (length rbsp)) as [L|L].
  2:{ rewrite (nal_unit_short opts rbsp st D' L) in E1. injection E1 as <- <-. exact S. }
  destruct (nal_unit_long opts rbsp st D' (store_state_ok _ S) L) as (h & Hh & Eh & W & E2). rewrite E2 in E1. destruct (payload_fault (nal_unit_type h) st (adv (mk_bb rbsp) 16)) eqn:F; [discriminate|].
  injection E1 as <- <-. apply payload_store_ok; assumption.
Qed.
Lemma nal_unit_pocs opts data rbsp st r st' : byte_string data -> UnescapeRbsp data = Done rbsp -> store_ok st -> pocs_ok st ->
  ParseNalUnit opts data st = Done (r, st') -> pocs_ok st' \/ zrun 24 (bits_of rbsp).
Proof.
  intros D E S P E1. pose proof (unesc_bytes _ _ D E) as D'. rewrite (nal_unit_unesc _ _ _ _ E) in E1. destruct (le_lt_dec 2 (length rbsp)) as [L|L].
  2:{ rewrite (nal_unit_short opts rbsp st D' L) in E1. injection E1 as <- <-. left. exact P. }
  destruct (nal_unit_long opts rbsp st D' (store_state_ok _ S) L) as (h & Hh & Eh & W & E2). rewrite E2 in E1. destruct (payload_fault (nal_unit_type h) st (adv (mk_bb rbsp) 16)) eqn:F; [discriminate|].
  injection E1 as <- <-. destruct (payload_pocs_ok (nal_unit_type h) st _ W P) as [H|H]; [left; exact H|right]. apply (zrun_skipn 24 16). rewrite <- rem_adv16 by exact D'. exact H.
Qed.

(** Histories: the entry with id [k] is the one of the latest unit that carries this id, else the initial one. *)
Definition latest {A} (get : nal_payload -> option A) (id : A -> Z) (k : Z) (us : list (option nal_unit)) (initial : option A) : option A :=
  fold_left (fun entry u =>
    match u with
    | Some u => match get (nu_payload u) with Some v => if k =? id v then Some v else entry | None => entry end
    | None => entry
    end) us initial.
Theorem C22_history : forall opts ds st us st', Forall byte_string ds -> store_ok st -> parse_all opts ds st = Done (us, st') ->
  store_ok st' /\ length us = length ds /\ forall k,
  st_vps st' k = latest np_vps (fun v => vps_video_parameter_set_id (fst v)) k us (st_vps st k) /\
  st_sps st' k = latest np_sps (fun v => sps_seq_parameter_set_id (fst v)) k us (st_sps st k) /\
  st_pps st' k = latest np_pps (fun v => pps_pic_parameter_set_id (fst v)) k us (st_pps st k).
Proof.
  intros opts ds. induction ds as [|d ds IH]; intros st us st' F S E.
  - injection E as <- <-. cbn. auto.
  - inversion F as [|? ? D F']; subst. cbn [parse_all] in E. destruct (ParseNalUnit opts d st) as [[u st1]|e] eqn:E1; [|discriminate].
    destruct (parse_all opts ds st1) as [[us1 st2]|e] eqn:E2; [|discriminate]. injection E as <- <-.
    pose proof (C22_invariant _ _ _ _ _ D S E1) as S1. destruct (IH st1 us1 st2 F' S1 E2) as (S2 & L & H). split; [exact S2|]. split; [cbn; lia|]. intros k.
    destruct (H k) as (H1 & H2 & H3). pose proof (C22_store _ _ _ _ _ D (store_state_ok _ S) E1) as Q. unfold latest in *. cbn [fold_left].
    destruct u as [u|]; specialize (Q k); destruct Q as (Q1 & Q2 & Q3); rewrite Q1 in H1; rewrite Q2 in H2; rewrite Q3 in H3; auto.
Qed.

(** * C23 *)
(** The states agree on what the slice header at the front of [bits] refers to: the PPS whose id is coded after first_slice_segment_in_pic_flag
    (and no_output_of_prior_pics_flag in IRAP pictures), and the SPS this PPS refers to. *)
Definition agree_on (nut : Z) (bits : list bool) (st1 st2 : state) : Prop :=
  forall f x pid rest, bits = enc_u 1 f ++ opt ((16 <=? nut) && (nut <=? 23)) (enc_u 1 x) ++ enc_ue pid ++ rest -> 0 <= pid ->
    st_pps st1 pid = st_pps st2 pid /\
    forall p y, st_pps st1 pid = Some (p, y) -> st_sps st1 (pps_seq_parameter_set_id p) = st_sps st2 (pps_seq_parameter_set_id p).
Theorem C23_header : forall nut st1 st2 b, wf b -> agree_on nut (rem b) st1 st2 ->
  ParseSliceSegmentHeader nut st1 b = ParseSliceSegmentHeader nut st2 b.
Proof.
  intros nut st1 st2 b W A. unfold ParseSliceSegmentHeader. unfold bind at 1 4. pose proof (wp_u_ok 1 ltac:(lia) b W) as H1.
  destruct (ReadBits 1 b) as [f b1|b1|e]; [|reflexivity|reflexivity]. destruct H1 as (l1 & [R1 E1] & Hf & ->).
  assert (W1 : wf b1) by (eapply steps_wf; [exact W|split; eassumption]).
  unfold bind at 1 3. assert (H2 : wp no_err (when (irap_type nut) (ReadBits 1) 0) (fun x bs => bs = opt (irap_type nut) (enc_u 1 x))).
  { unfold when, opt. destruct (irap_type nut); [eapply wp_weaken; [apply (wp_u_ok 1); lia|]; cbv beta; tauto|apply wp_ret; reflexivity]. }
  specialize (H2 b1 W1). destruct (when (irap_type nut) (ReadBits 1) 0 b1) as [x b2|b2|e]; [|reflexivity|reflexivity]. destruct H2 as (l2 & S2 & ->).
  assert (W2 : wf b2) by (eapply steps_wf; eassumption). unfold bind. pose proof (wp_ue b2 W2) as H3.
  destruct (ReadExponentialGolomb b2) as [pid b3|b3|e]; [|reflexivity|reflexivity]. destruct H3 as (l3 & S3 & Hp & ->).
  destruct (A f x pid (rem b3)) as [A1 A2]; [|lia|].
  { rewrite R1. destruct S2 as [-> _], S3 as [-> _]. reflexivity. }
  rewrite <- A1. destruct (st_pps st1 pid) as [[p y]|]; [|reflexivity]. rewrite <- (A2 p y eq_refl). reflexivity.
Qed.
(** The whole unit. *)
Theorem C23_unit : forall opts data rbsp st1 st2, byte_string data -> state_ok st1 -> state_ok st2 -> UnescapeRbsp data = Done rbsp ->
  (forall h, bits_of (firstn 2 rbsp) = enc_nal_header h -> agree_on (nal_unit_type h) (skipn 16 (bits_of rbsp)) st1 st2) ->
  match ParseNalUnit opts data st1, ParseNalUnit opts data st2 with
  | Done (u1, _), Done (u2, _) => u1 = u2
  | Bad e1, Bad e2 => e1 = e2
  | _, _ => False
  end.
Proof.
  intros opts data rbsp st1 st2 D S1 S2 E A. rewrite !(nal_unit_unesc _ _ _ _ E). pose proof (unesc_bytes _ _ D E) as D'. destruct (le_lt_dec 2 (length rbsp)) as [L|L].
  2:{ rewrite !nal_unit_short by assumption. reflexivity. }
  destruct (nal_unit_long opts rbsp st1 D' S1 L) as (h & Hh & Eh & W & E2). destruct (nal_unit_long opts rbsp st2 D' S2 L) as (h2 & Hh2 & Eh2 & _ & E3).
  assert (h = h2) as <-.
  { rewrite Eh in Eh2. pose proof (unesc_bytes _ _ D E) as [F Lr].
    pose proof (proj2 (C20_exact (mk_bb rbsp) (wf_mk _ F Lr))) as Q.
    assert (R : rem (mk_bb rbsp) = enc_nal_header h ++ bits_of (skipn 2 rbsp)).
    { change (rem (mk_bb rbsp)) with (bits_of rbsp). rewrite <- (firstn_skipn 2 rbsp) at 1. rewrite bits_of_app, Eh. reflexivity. }
    pose proof (proj2 (Q h _) (conj Hh (conj (ex_intro _ _ R) eq_refl))) as Q1. rewrite Eh2 in R.
    pose proof (proj2 (Q h2 _) (conj Hh2 (conj (ex_intro _ _ R) eq_refl))) as Q2. congruence. }
  specialize (A h Eh). rewrite <- rem_adv16 in A by exact D'. pose proof (C23_header (nal_unit_type h) st1 st2 _ W A) as H. clear A.
  assert (Hf : payload_fault (nal_unit_type h) st1 (adv (mk_bb rbsp) 16) = payload_fault (nal_unit_type h) st2 (adv (mk_bb rbsp) 16)).
  { unfold payload_fault, fault. rewrite H. reflexivity. }
  assert (Hu : unit_of opts rbsp h st1 = unit_of opts rbsp h st2).
  { unfold unit_of, payload_of, payload_stop, result, stop. rewrite H. reflexivity. }
  rewrite E2, E3, Hf, Hu. destruct (payload_fault (nal_unit_type h) st2 (adv (mk_bb rbsp) 16)); reflexivity.
Qed.
(** Other units do not depend on the state at all. *)
Theorem C23_no_slice : forall opts data rbsp st1 st2, byte_string data -> state_ok st1 -> state_ok st2 -> UnescapeRbsp data = Done rbsp ->
  (forall h, bits_of (firstn 2 rbsp) = enc_nal_header h -> ~ (0 <= nal_unit_type h <= 9 \/ 16 <= nal_unit_type h <= 21)) ->
  match ParseNalUnit opts data st1, ParseNalUnit opts data st2 with
  | Done (u1, _), Done (u2, _) => u1 = u2
  | Bad e1, Bad e2 => e1 = e2
  | _, _ => False
  end.
Proof.
  intros opts data rbsp st1 st2 D S1 S2 E A. rewrite !(nal_unit_unesc _ _ _ _ E). pose proof (unesc_bytes _ _ D E) as D'. destruct (le_lt_dec 2 (length rbsp)) as [L|L].
  2:{ rewrite !nal_unit_short by assumption. reflexivity. }
  destruct (nal_unit_long opts rbsp st1 D' S1 L) as (h & Hh & Eh & W & E2). destruct (nal_unit_long opts rbsp st2 D' S2 L) as (h2 & Hh2 & Eh2 & _ & E3).
  assert (h = h2) as <-.
  { rewrite Eh in Eh2. pose proof (unesc_bytes _ _ D E) as [F Lr].
    pose proof (proj2 (C20_exact (mk_bb rbsp) (wf_mk _ F Lr))) as Q.
    assert (R : rem (mk_bb rbsp) = enc_nal_header h ++ bits_of (skipn 2 rbsp)).
    { change (rem (mk_bb rbsp)) with (bits_of rbsp). rewrite <- (firstn_skipn 2 rbsp) at 1. rewrite bits_of_app, Eh. reflexivity. }
    pose proof (proj2 (Q h _) (conj Hh (conj (ex_intro _ _ R) eq_refl))) as Q1. rewrite Eh2 in R.
    pose proof (proj2 (Q h2 _) (conj Hh2 (conj (ex_intro _ _ R) eq_refl))) as Q2. congruence. }
  specialize (A h Eh). assert (N : slice_nut (nal_unit_type h) = false) by (unfold slice_nut; lia).
  unfold unit_of, payload_of, payload_stop, payload_fault in *. rewrite N in *. rewrite E2, E3.
  match goal with |- context [match ?x with Some _ => _ | None => _ end] => destruct x; reflexivity end.
Qed.
(** A slice header is only returned if its PPS and the SPS this refers to are stored. *)
Theorem C23_needs_parameter_sets : forall opts data st u st' h, byte_string data -> state_ok st -> ParseNalUnit opts data st = Done (Some u, st') ->
  np_slice (nu_payload u) = Some h ->
  exists p x s y, st_pps st (slice_pic_parameter_set_id h) = Some (p, x) /\ st_sps st (pps_seq_parameter_set_id p) = Some (s, y).
Proof.
  intros opts data st u st' h D S E Hh. destruct (Unescape_byte_string data D) as (rbsp & Er & D'). rewrite (nal_unit_unesc _ _ _ _ Er) in E.
  destruct (le_lt_dec 2 (length rbsp)) as [L|L]; [|rewrite nal_unit_short in E by assumption; discriminate].
  destruct (nal_unit_long opts rbsp st D' S L) as (hd & _ & _ & W & E2). rewrite E2 in E. destruct (payload_fault (nal_unit_type hd) st (adv (mk_bb rbsp) 16)); [discriminate|].
  injection E as <- _. cbn [unit_of nu_payload payload_of np_slice] in Hh. destruct (slice_nut (nal_unit_type hd)); [|discriminate].
  unfold result in Hh. destruct (ParseSliceSegmentHeader (nal_unit_type hd) st (adv (mk_bb rbsp) 16)) eqn:E3; try discriminate. injection Hh as ->.
  eapply C37_missing_parameter_sets; eassumption.
Qed.

(** * C24 *)
(** ParseBitstream is the NAL unit parser folded over the units of the stream ([annexb_units], C15) with one state. *)
Theorem C24_fold : forall opts data st, Z.of_nat (length data) < 2 ^ 64 -> ParseBitstream opts data st =
  match parse_all opts (map (payload data) (annexb_units data)) st with
  | Bad e => Bad e
  | Done (us, st') => Done (mkBS default_options (placed (annexb_units data) us), st')
  end.
Proof. exact ParseBitstream_spec. Qed.
(** Same units, same state, in one call or in two with the cut in front of a start code.  (The unit in front of the cut must not be empty:
    [C24_empty_unit].) *)
Theorem C24_cut : forall opts d1 d2 st, Z.of_nat (length (d1 ++ d2)) < 2 ^ 64 -> cut_at_start_code d1 d2 -> (forall l, d1 <> l ++ [0; 0; 1]) ->
  ParseBitstream opts (d1 ++ d2) st =
  match ParseBitstream opts d1 st with
  | Bad e => Bad e
  | Done (b1, st1) =>
    match ParseBitstream opts d2 st1 with
    | Bad e => Bad e
    | Done (b2, st2) => Done (mkBS default_options (bs_units b1 ++ map (shift_unit (length d1)) (bs_units b2)), st2)
    end
  end.
Proof.
  intros opts d1 d2 st L C N. rewrite C24_fold by exact L. rewrite app_length in L. rewrite (C24_fold opts d1) by lia.
  pose proof (annexb_in_bounds d1 ltac:(lia)) as B1. pose proof (annexb_in_bounds d2 ltac:(lia)) as B2.
  rewrite annexb_app by assumption. rewrite map_app, parse_all_app, map_map.
  rewrite (map_ext_in _ (payload d1) (annexb_units d1)) by (intros ix Hi; apply payload_left; rewrite Forall_forall in B1; auto).
  rewrite (map_ext_in _ (payload d2) (annexb_units d2)) by (intros ix Hi; apply payload_right; rewrite Forall_forall in B2; apply (B2 ix Hi)).
  destruct (parse_all opts (map (payload d1) (annexb_units d1)) st) as [[us1 st1]|e] eqn:E1; [|reflexivity].
  rewrite (C24_fold opts d2) by lia. destruct (parse_all opts (map (payload d2) (annexb_units d2)) st1) as [[us2 st2]|e]; [|reflexivity].
  cbn [bs_units]. apply parse_all_length in E1. rewrite map_length in E1. rewrite placed_app by exact E1. rewrite placed_shift. reflexivity.
Qed.
(** With a start code at the very end of the first part, that part's last unit swallows it. *)
Theorem C24_empty_unit : let d1 := [0; 0; 1; 0x46; 1; 0x50; 0; 0; 1] in let d2 := [0; 0; 1; 0x46; 1; 0x50] in
  cut_at_start_code d1 d2 /\
  (exists b1 s1, ParseBitstream default_options d1 empty_state = Done (b1, s1) /\ map nu_length (bs_units b1) = [6]) /\
  (exists b s, ParseBitstream default_options (d1 ++ d2) empty_state = Done (b, s) /\ map nu_length (bs_units b) = [3; 3]).
Proof.
  split; [exists 9%nat; split; [vm_compute; right; right; left; reflexivity|vm_compute; reflexivity]|].
  split; vm_compute; eexists; eexists; split; reflexivity.
Qed.
(** The variant without state argument starts from the empty store. *)
Theorem C24_no_state : forall opts data, ParseBitstreamNoState opts data =
  match ParseBitstream opts data empty_state with
  | Bad e => Bad e
  | Done (bs, _) => Done (mkBS opts (bs_units bs))
  end.
Proof. reflexivity. Qed.
(** Length-prefixed streams, lengths of 1 to 7 bytes: every buffer is a sequence of units and an incomplete rest, and the call is the fold
    over these units. *)
Theorem C24_length_prefixed : forall opts data n st, Forall is_byte data -> Z.of_nat (length data) < 2 ^ 63 -> (0 < n <= 7)%nat ->
  exists nals tail, data = framed n nals ++ tail /\ Forall (unit_ok false n) nals /\ incomplete false n tail /\
  ParseBitstreamNALULength opts data (Z.of_nat n) st =
  match parse_all opts nals st with
  | Bad e => Bad e
  | Done (us, st') => Done (mkBS default_options (placed_nl (Z.of_nat n) (framed_ranges n 0 nals) us), st')
  end.
Proof.
  intros opts data n st B L Hn. destruct (C18_ranges data n B L Hn) as (nals & tail & E & F & I & _ & R). exists nals, tail.
  split; [exact E|]. split; [exact F|]. split; [exact I|]. unfold ParseBitstreamNALULength.
  pose proof (nalulength_loop_spec (nalulength_step opts data (Z.of_nat n)) n ltac:(lia) nals (S (length data)) [] tail ([], st)) as H.
  cbn [app length] in H. rewrite <- E in H. change (Z.of_nat 0) with 0 in H. rewrite H; [|exact L|lia|exact F|right; split; [exact I|lia]| |].
  - rewrite (nalulength_fold opts data (Z.of_nat n) _ nals _ st R). destruct (parse_all opts nals st) as [[us st']|e]; [|reflexivity].
    rewrite app_nil_r, rev_involutive. reflexivity.
  - rewrite E in B. apply Forall_app in B. tauto.
  - rewrite E, app_length. pose proof (framed_length n nals ltac:(lia)). lia.
Qed.

(** * C19 *)
Lemma placed_in opts data : forall ixs st us st' u, parse_all opts (map (payload data) ixs) st = Done (us, st') -> In u (placed ixs us) ->
  exists ix st0 st1 u0, In ix ixs /\ ParseNalUnit opts (payload data ix) st0 = Done (Some u0, st1) /\
    u = set_range (payload_start_offset ix) (MFraming.payload_size ix) u0.
Proof.
  induction ixs as [|ix ixs IH]; intros st us st' u E H; [destruct us; destruct H|]. cbn [map parse_all] in E.
  destruct (ParseNalUnit opts (payload data ix) st) as [[o st1]|e] eqn:E1; [|discriminate].
  destruct (parse_all opts (map (payload data) ixs) st1) as [[us1 st2]|e] eqn:E2; [|discriminate]. injection E as <- <-. cbn [placed] in H. apply in_app_or in H.
  destruct H as [H|H].
  - destruct o as [u0|]; [|destruct H]. destruct H as [<-|[]]. exists ix, st, st1, u0. split; [left; reflexivity|]. auto.
  - destruct (IH _ _ _ _ E2 H) as (ix' & st0 & st3 & u0 & Hi & Hu). exists ix', st0, st3, u0. split; [right; exact Hi|exact Hu].
Qed.
(** The reported range of every unit of ParseBitstream is inside the buffer and is what ParseNalUnit was given for this unit. *)
Theorem C19_ranges_annexb : forall opts data st bs st' u, Z.of_nat (length data) < 2 ^ 64 -> ParseBitstream opts data st = Done (bs, st') -> In u (bs_units bs) ->
  0 <= nu_offset u /\ 0 <= nu_length u /\ nu_offset u + nu_length u <= Z.of_nat (length data) /\
  exists st0 st1 u0, ParseNalUnit opts (firstn (Z.to_nat (nu_length u)) (skipn (Z.to_nat (nu_offset u)) data)) st0 = Done (Some u0, st1) /\
    u = set_range (nu_offset u) (nu_length u) u0.
Proof.
  intros opts data st bs st' u L E H. rewrite C24_fold in E by exact L.
  destruct (parse_all opts (map (payload data) (annexb_units data)) st) as [[us st1]|e] eqn:E1; [|discriminate]. injection E as <- <-. cbn [bs_units] in H.
  destruct (placed_in _ _ _ _ _ _ _ E1 H) as (ix & st0 & st2 & u0 & Hi & Hu & ->). pose proof (annexb_in_bounds data L) as B. rewrite Forall_forall in B.
  destruct (B ix Hi) as (B1 & B2 & B3). cbn [nu_offset nu_length set_range]. split; [exact B1|]. split; [exact B2|]. split; [exact B3|].
  exists st0, st2, u0. split; [exact Hu|reflexivity].
Qed.
Lemma placed_nl_in opts data n : forall rs nals st us st' u, map (fun r => sub data (fst r) (snd r)) rs = map Done nals -> parse_all opts nals st = Done (us, st') ->
  In u (placed_nl n rs us) ->
  exists r x st0 st1 u0, sub data (fst r) (snd r) = Done x /\ ParseNalUnit opts x st0 = Done (Some u0, st1) /\ u = set_range (fst r) n u0.
Proof.
  induction rs as [|r rs IH]; intros [|x nals] st us st' u R E H; try discriminate; [destruct us; destruct H|]. cbn [map parse_all] in *. injection R as R1 R2.
  destruct (ParseNalUnit opts x st) as [[o st1]|e] eqn:E1; [|discriminate].
  destruct (parse_all opts nals st1) as [[us1 st2]|e] eqn:E2; [|discriminate]. injection E as <- <-. cbn [placed_nl] in H. apply in_app_or in H.
  destruct H as [H|H].
  - destruct o as [u0|]; [|destruct H]. destruct H as [<-|[]]. exists r, x, st, st1, u0. auto.
  - eapply IH; eassumption.
Qed.
(** Length-prefixed streams: the offset is right (for some length inside the buffer).  The length: C19_length_prefixed. *)
Theorem C19_offset_length_prefixed : forall opts data n st bs st' u, Forall is_byte data -> Z.of_nat (length data) < 2 ^ 63 -> (0 < n <= 7)%nat ->
  ParseBitstreamNALULength opts data (Z.of_nat n) st = Done (bs, st') -> In u (bs_units bs) ->
  nu_length u = Z.of_nat n /\ exists len st0 st1 u0, 0 <= nu_offset u /\ 0 <= len /\ nu_offset u + len <= Z.of_nat (length data) /\
    ParseNalUnit opts (firstn (Z.to_nat len) (skipn (Z.to_nat (nu_offset u)) data)) st0 = Done (Some u0, st1) /\ u = set_range (nu_offset u) (Z.of_nat n) u0.
Proof.
  intros opts data n st bs st' u B L Hn E H. destruct (C18_ranges data n B L Hn) as (nals & tail & Ed & F & I & _ & R).
  assert (E' : ParseBitstreamNALULength opts data (Z.of_nat n) st = match parse_all opts nals st with
    | Bad e => Bad e | Done (us, st') => Done (mkBS default_options (placed_nl (Z.of_nat n) (framed_ranges n 0 nals) us), st') end).
  { unfold ParseBitstreamNALULength.
    pose proof (nalulength_loop_spec (nalulength_step opts data (Z.of_nat n)) n ltac:(lia) nals (S (length data)) [] tail ([], st)) as Hl.
    cbn [app length] in Hl. rewrite <- Ed in Hl. change (Z.of_nat 0) with 0 in Hl. rewrite Hl; [|exact L|lia|exact F|right; split; [exact I|lia]| |].
    - rewrite (nalulength_fold opts data (Z.of_nat n) _ nals _ st R). destruct (parse_all opts nals st) as [[us st1]|e]; [|reflexivity].
      rewrite app_nil_r, rev_involutive. reflexivity.
    - rewrite Ed in B. apply Forall_app in B. tauto.
    - rewrite Ed, app_length. pose proof (framed_length n nals ltac:(lia)). lia. }
  rewrite E' in E. destruct (parse_all opts nals st) as [[us st1]|e] eqn:E1; [|discriminate]. injection E as <- <-. cbn [bs_units] in H.
  destruct (placed_nl_in _ _ _ _ _ _ _ _ _ R E1 H) as (r & x & st0 & st2 & u0 & Hs & Hu & ->). split; [reflexivity|]. unfold sub in Hs.
  destruct ((fst r <? 0) || (snd r <? 0) || (Z.of_nat (length data) <? fst r + snd r)) eqn:G; [discriminate|]. injection Hs as <-.
  exists (snd r), st0, st2, u0. cbn [nu_offset set_range]. split; [lia|]. split; [lia|]. split; [lia|]. split; [exact Hu|reflexivity].
Qed.
(** A three-byte unit is reported with length 2, the size of the length field. *)
Theorem C19_length_refuted : exists bs st u, ParseBitstreamNALULength default_options [0; 3; 0x46; 1; 0x50] 2 empty_state = Done (bs, st) /\
  bs_units bs = [u] /\ nu_offset u = 2 /\ nu_length u = 2 /\ np_aud (nu_payload u) = Some 2.
Proof. vm_compute. eexists _, _, _. split; [reflexivity|]. auto. Qed.

(** * A concrete stream: VPS, SPS, PPS (with emulation prevention), a B slice that refers to them, AUD, then a second PPS with the same id *)
Definition C24_nal (ty : Z) (body : list bool) : list Z := escape true 0 (pack (enc_nal_header (mkNH 0 ty 0 1) ++ body ++ [true])).
Definition C24_nals : list (bool * list Z) :=
  [(true, C24_nal 32 (enc_vps false (C29_vps 0 []))); (true, C24_nal 33 (enc_sps false C31_sps)); (false, C24_nal 34 (enc_pps false C37_pps));
   (false, C24_nal 1 (enc_slice false 1 C31_sps C37_pps C37_header)); (true, C24_nal 34 (enc_pps false C37_pps1)); (false, C24_nal 35 (enc_u 3 2))].
Example C24_case : byte_string (annexb_stream C24_nals) /\
  exists bs st, ParseBitstream default_options (annexb_stream C24_nals) empty_state = Done (bs, st) /\
  map (fun u => np_slice (nu_payload u)) (bs_units bs) = [None; None; None; Some C37_header; None; None] /\
  map (fun u => (nu_offset u, nu_length u)) (bs_units bs) = map (fun ix => (payload_start_offset ix, MFraming.payload_size ix)) (annexb_units (annexb_stream C24_nals)) /\
  length (bs_units bs) = 6%nat /\ st_vps st 0 <> None /\ st_sps st 0 = Some (C31_sps, 0) /\ st_pps st 3 = Some (C37_pps1, 0) /\ st_pps st 0 = None.
Proof.
  split; [split; [|vm_compute; reflexivity]|].
  - change (annexb_stream C24_nals) with (annexb_stream C24_nals). apply Forall_forall. intros x Hx.
    assert (G : forallb (fun x => (0 <=? x) && (x <? 256)) (annexb_stream C24_nals) = true) by (vm_compute; reflexivity).
    rewrite forallb_forall in G. specialize (G x Hx). unfold is_byte. lia.
  - destruct (ParseBitstream default_options (annexb_stream C24_nals) empty_state) as [[bs st]|e] eqn:E; [|vm_compute in E; discriminate E].
    exists bs, st. vm_compute in E. injection E as <- <-. split; [reflexivity|]. repeat split; try (vm_compute; reflexivity). vm_compute. discriminate.
Qed.
(** The cut of C24 in front of the fourth unit, and of the states of C23 that agree on what the slice refers to. *)
Example C24_cut_case : let d1 := annexb_stream (firstn 3 C24_nals) in let d2 := annexb_stream (skipn 3 C24_nals) in
  cut_at_start_code d1 d2 /\ (forall l, d1 <> l ++ [0; 0; 1]).
Proof.
  cbv zeta. split.
  - exists (length (annexb_stream (firstn 3 C24_nals))). split; [apply start_codes_In; vm_compute; reflexivity|vm_compute; reflexivity].
  - intros l E. apply (f_equal (@rev Z)) in E. rewrite rev_app_distr in E. cbn [rev app] in E.
    assert (H : hd 0 (rev (annexb_stream (firstn 3 C24_nals))) = 1) by (rewrite E; reflexivity). vm_compute in H. discriminate H.
Qed.
Lemma enc_ue_prefix a b r1 r2 : 0 <= a -> 0 <= b -> enc_ue a ++ r1 = enc_ue b ++ r2 -> a = b.
Proof.
  intros Ha Hb E. pose proof (f_equal lead0 E) as L. rewrite !lead0_enc_ue in L by assumption.
  apply app_inv_length in E; [|rewrite !length_enc_ue, L; reflexivity]. destruct E as [E _]. unfold enc_ue in E. rewrite L in E. apply app_inv_head in E.
  apply (f_equal bval) in E. rewrite !bval_enc_u in E. pose proof (ue_zeros_spec a Ha) as Za. pose proof (ue_zeros_spec b Hb) as Zb. rewrite L in Za.
  rewrite !Z.mod_small in E by lia. lia.
Qed.
Definition C23_other : state :=
  mkState (fun _ => None) (fun k => if k =? 0 then Some (C31_sps, 0) else if k =? 1 then Some (C31_sps, 1) else None)
    (fun k => if k =? 3 then Some (C37_pps, 0) else if k =? 4 then Some (C37_pps1, 0) else None).
Example C23_case : state_ok C37_state /\ agree_on 1 (enc_slice false 1 C31_sps C37_pps C37_header) C37_state C23_other /\
  st_pps C37_state 4 <> st_pps C23_other 4 /\ st_sps C37_state 1 <> st_sps C23_other 1.
Proof.
  split; [|split; [|split; discriminate]].
  { split; intros k s x E; cbn in E.
    - destruct (k =? 0); [|discriminate]. injection E as <- <-. apply sps_in_out, C31_sps_ok.
    - destruct (k =? 3); [|discriminate]. injection E as <- <-. apply C37_pps_ok. }
  intros f x pid rest E Hp. change (opt ((16 <=? 1) && (1 <=? 23)) (enc_u 1 x)) with (@nil bool) in E. cbn [app] in E.
  assert (E' : enc_u 1 0 ++ enc_ue 3 ++ skipn 6 (enc_slice false 1 C31_sps C37_pps C37_header) = enc_u 1 f ++ enc_ue pid ++ rest) by (rewrite <- E; vm_compute; reflexivity).
  apply app_inv_length in E'; [|rewrite !length_enc_u; reflexivity]. destruct E' as [_ E']. apply enc_ue_prefix in E'; [|lia|exact Hp]. subst pid. split; [reflexivity|].
  intros p y Ep. injection Ep as <- <-. reflexivity.
Qed.
