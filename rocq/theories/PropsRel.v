(** Relations between calls: the same NAL units in different framings, with different options, with or without units that carry no
    parameter sets, sent twice, sent in a configuration box or in RTP packets.  Properties C57 to C63. *)
From Coq Require Import ZArith List Bool Lia ZifyBool ZifyNat.
From Verif Require Import MBase MBitBuffer Spec BitsFacts Reader ReaderFacts Rules Syntax SyntaxSe MCommon CommonFacts PropsBits PropsCommon
  MFraming FramingFacts PropsFraming MSyntaxA SpecA FactsA Api PropsA MSyntaxB SpecB FactsB FactsRps PropsB MSps SpecSps FactsSps PropsSps
  MPps SpecPps FactsPps PropsPps MSlice SpecSlice FactsSlice PropsSlice MSei SpecSei FactsSei PropsSei MNal FactsNal PropsNal MRtp FactsRtp PropsRtp PropsQp.
Import ListNotations.
Open Scope Z_scope.
Ltac Zify.zify_post_hook ::= Z.div_mod_to_equations.

(** What a NAL unit contains: everything but where it was found. *)
Definition contents (u : nal_unit) : nal_header * nal_payload * Z * option Z := (nu_header u, nu_payload u, nu_parsed_length u, nu_checksum u).
(** Two calls with the same effect up to the places of the units. *)
Definition same_stream (r1 r2 : outcome (bitstream * state)) : Prop :=
  match r1, r2 with
  | Done (b1, s1), Done (b2, s2) => map contents (bs_units b1) = map contents (bs_units b2) /\ s1 = s2
  | Bad e1, Bad e2 => e1 = e2
  | _, _ => False
  end.

Definition found (us : list (option nal_unit)) : list (nal_header * nal_payload * Z * option Z) :=
  flat_map (fun o => match o with Some u => [contents u] | None => [] end) us.
Lemma found_cons o us : found (o :: us) = (match o with Some u => [contents u] | None => [] end) ++ found us.
Proof. reflexivity. Qed.
Lemma placed_contents ixs : forall us, length us = length ixs -> map contents (placed ixs us) = found us.
Proof.
  induction ixs as [|ix ixs IH]; intros [|o us] L; try discriminate; [reflexivity|]. cbn [placed]. rewrite found_cons, map_app. f_equal.
  - destruct o; reflexivity.
  - apply IH. cbn in L. lia.
Qed.
Lemma placed_nl_contents n rs : forall us, length us = length rs -> map contents (placed_nl n rs us) = found us.
Proof.
  induction rs as [|ix ixs IH]; intros [|o us] L; try discriminate; [reflexivity|]. cbn [placed_nl]. rewrite found_cons, map_app. f_equal.
  - destruct o; reflexivity.
  - apply IH. cbn in L. lia.
Qed.
Lemma framed_ranges_length n nals : forall off, length (framed_ranges n off nals) = length nals.
Proof. induction nals; intros off; cbn; [reflexivity|]. f_equal. auto. Qed.

Lemma annexb_stream_app a b : annexb_stream (a ++ b) = annexb_stream a ++ annexb_stream b.
Proof. apply flat_map_app. Qed.
Lemma annexb_stream_cons x b : annexb_stream (x :: b) = (start_code (fst x) ++ snd x) ++ annexb_stream b.
Proof. reflexivity. Qed.
(** Both kinds of stream are the fold of ParseNalUnit over their units. *)
Definition as_fold (r : outcome (bitstream * state)) (q : outcome (list (option nal_unit) * state)) : Prop :=
  match r, q with
  | Done (bs, s1), Done (l, s2) => map contents (bs_units bs) = found l /\ s1 = s2
  | Bad e1, Bad e2 => e1 = e2
  | _, _ => False
  end.
Lemma annexb_fold opts us st : Z.of_nat (length (annexb_stream us)) < 2 ^ 64 -> Forall (fun u => nal_ok (snd u)) us ->
  as_fold (ParseBitstream opts (annexb_stream us) st) (parse_all opts (map snd us) st).
Proof.
  intros L H. rewrite C24_fold by exact L. destruct (C16_round_trip us L H) as (l & El & Ep).
  assert (l = annexb_units (annexb_stream us)) as ->. { rewrite C15_exact in El by exact L. injection El as <-. reflexivity. }
  rewrite Ep. destruct (parse_all opts (map snd us) st) as [[os st']|e] eqn:E; [|reflexivity]. cbn. split; [|reflexivity].
  apply placed_contents. rewrite (parse_all_length _ _ _ _ _ E), <- Ep, map_length. reflexivity.
Qed.
Lemma framed_fold opts n nals st : (0 < n)%nat -> Z.of_nat n < 2 ^ 63 -> Z.of_nat (length (framed n nals)) < 2 ^ 63 -> Forall (unit_ok false n) nals ->
  as_fold (ParseBitstreamNALULength opts (framed n nals) (Z.of_nat n) st) (parse_all opts nals st).
Proof.
  intros Hn Hn' L H. unfold ParseBitstreamNALULength. rewrite C18_any_step by assumption.
  assert (R : forall pre tail off, Z.of_nat (length pre) = off -> 
     map (fun r => sub (pre ++ framed n nals ++ tail) (fst r) (snd r)) (framed_ranges n off nals) = map Done nals).
  { clear L H. induction nals as [|x nals IH]; intros pre tail off Eo; [reflexivity|]. cbn [framed_ranges map]. rewrite framed_cons. f_equal.
    - cbn [fst snd]. unfold sub. rewrite !app_length, be_bytes_length.
      destruct ((off + Z.of_nat n <? 0) || (Z.of_nat (length x) <? 0) || (Z.of_nat (length pre + (n + (length x + length (framed n nals)) + length tail)) <? off + Z.of_nat n + Z.of_nat (length x))) eqn:G; [lia|].
      f_equal. rewrite Nat2Z.id. replace (Z.to_nat (off + Z.of_nat n)) with (length (pre ++ be_bytes n (Z.of_nat (length x))))
        by (rewrite app_length, be_bytes_length; lia).
      replace (pre ++ (be_bytes n (Z.of_nat (length x)) ++ x ++ framed n nals) ++ tail) with ((pre ++ be_bytes n (Z.of_nat (length x))) ++ x ++ framed n nals ++ tail)
        by (rewrite <- !app_assoc; reflexivity).
      rewrite skipn_app, skipn_all, Nat.sub_diag. cbn [skipn app]. rewrite firstn_app, Nat.sub_diag, firstn_all. cbn [firstn]. apply app_nil_r.
    - replace (pre ++ (be_bytes n (Z.of_nat (length x)) ++ x ++ framed n nals) ++ tail) with ((pre ++ be_bytes n (Z.of_nat (length x)) ++ x) ++ framed n nals ++ tail)
        by (rewrite <- !app_assoc; reflexivity).
      apply IH. rewrite !app_length, be_bytes_length. lia. }
  specialize (R [] [] 0 eq_refl). rewrite app_nil_r in R. cbn [app] in R.
  rewrite (nalulength_fold opts _ _ _ nals _ st R). destruct (parse_all opts nals st) as [[us st']|e] eqn:E; [|reflexivity]. cbn.
  rewrite app_nil_r, rev_involutive. split; [|reflexivity]. apply placed_nl_contents. rewrite framed_ranges_length. eapply parse_all_length, E.
Qed.
Lemma as_fold_same r1 r2 q : as_fold r1 q -> as_fold r2 q -> same_stream r1 r2.
Proof.
  unfold as_fold, same_stream. destruct r1 as [[b1 s1]|e1], r2 as [[b2 s2]|e2], q as [[l s]|e]; try tauto; try congruence.
  intros [-> ->] [-> ->]. auto.
Qed.

(** * C57: the framing does not matter *)
Theorem C57_start_code_lengths : forall opts us us' st, map snd us = map snd us' -> Forall (fun u => nal_ok (snd u)) us ->
  Z.of_nat (length (annexb_stream us)) < 2 ^ 64 -> Z.of_nat (length (annexb_stream us')) < 2 ^ 64 ->
  same_stream (ParseBitstream opts (annexb_stream us) st) (ParseBitstream opts (annexb_stream us') st).
Proof.
  intros opts us us' st E H L L'. eapply as_fold_same; [apply annexb_fold; assumption|]. rewrite E. apply annexb_fold; [assumption|].
  rewrite <- Forall_map with (P := nal_ok) in *. rewrite <- E. exact H.
Qed.
Theorem C57_annexb_is_length_prefixed : forall opts us n st, Forall (fun u => nal_ok (snd u) /\ Z.of_nat (length (snd u)) < 256 ^ Z.of_nat n) us ->
  (0 < n)%nat -> Z.of_nat n < 2 ^ 63 -> Z.of_nat (length (annexb_stream us)) < 2 ^ 64 -> Z.of_nat (length (framed n (map snd us))) < 2 ^ 63 ->
  same_stream (ParseBitstream opts (annexb_stream us) st) (ParseBitstreamNALULength opts (framed n (map snd us)) (Z.of_nat n) st).
Proof.
  intros opts us n st H Hn Hn' L L'. eapply as_fold_same; [apply annexb_fold; [exact L|]|apply framed_fold; try assumption].
  - eapply Forall_impl; [|exact H]. cbn. tauto.
  - rewrite Forall_map. eapply Forall_impl; [|exact H]. cbn. intros u [(Hu & _) Hl]. split; [exact Hl|right; exact Hu].
Qed.
Theorem C57_length_sizes : forall opts nals n m st, Forall (fun x => x <> [] /\ Z.of_nat (length x) < 256 ^ Z.of_nat n /\ Z.of_nat (length x) < 256 ^ Z.of_nat m) nals ->
  (0 < n)%nat -> Z.of_nat n < 2 ^ 63 -> (0 < m)%nat -> Z.of_nat m < 2 ^ 63 ->
  Z.of_nat (length (framed n nals)) < 2 ^ 63 -> Z.of_nat (length (framed m nals)) < 2 ^ 63 ->
  same_stream (ParseBitstreamNALULength opts (framed n nals) (Z.of_nat n) st) (ParseBitstreamNALULength opts (framed m nals) (Z.of_nat m) st).
Proof.
  intros opts nals n m st H ? ? ? ? ? ?. eapply as_fold_same; apply framed_fold; try assumption; eapply Forall_impl; try exact H; cbn; intros x (? & ? & ?); split; auto.
Qed.

(** * The type of a NAL unit, from its first byte (7.3.1.2) *)
Definition unit_type (d : list Z) : Z := (hd 0 d / 2) mod 64.
Definition parameter_set_type (ty : Z) : Prop := 32 <= ty <= 34.
Lemma bits_of_cons x l : bits_of (x :: l) = enc_u 8 x ++ bits_of l.
Proof. reflexivity. Qed.
Lemma header_type a b h : is_byte a -> is_byte b -> nal_header_ok h -> bits_of [a; b] = enc_nal_header h -> nal_unit_type h = (a / 2) mod 64.
Proof.
  intros Ha Hb (H1 & H2 & H3 & H4) E. apply (f_equal bval) in E. unfold enc_nal_header, concat in E. rewrite !bits_of_cons in E. change (bits_of []) with (@nil bool) in E.
  rewrite !bval_app, !app_length, !length_enc_u, !bval_enc_u in E. unfold u_ok, is_byte in *. cbn [length bval fold_left] in E.
  change (Z.of_nat 8) with 8 in *. change (Z.of_nat 1) with 1 in *. change (Z.of_nat 6) with 6 in *. change (Z.of_nat 3) with 3 in *.
  change (Z.of_nat (6 + (6 + (3 + 0)))) with 15 in E. change (Z.of_nat (6 + (3 + 0))) with 9 in E. change (Z.of_nat (3 + 0)) with 3 in E. change (Z.of_nat (8 + 0)) with 8 in E.
  change (Z.of_nat 0) with 0 in E. change (bval []) with 0 in E.
  change (2 ^ 15) with 32768 in E. change (2 ^ 9) with 512 in E. change (2 ^ 8) with 256 in *. change (2 ^ 6) with 64 in *. change (2 ^ 3) with 8 in *. change (2 ^ 1) with 2 in *. change (2 ^ 0) with 1 in *.
  lia.
Qed.
(** The two outcomes of ParseNalUnit, with the type of the payload. *)
Lemma nal_cases opts d st : byte_string d -> state_ok st ->
  (forall o s, ParseNalUnit o d s = Done (None, s)) \/
  exists rbsp h, UnescapeRbsp d = Done rbsp /\ (2 <= length rbsp)%nat /\ byte_string rbsp /\ nal_unit_type h = unit_type d /\ wf (adv (mk_bb rbsp) 16) /\
    ParseNalUnit opts d st = match payload_fault (unit_type d) st (adv (mk_bb rbsp) 16) with
    | Some e => Bad e
    | None => Done (Some (unit_of opts rbsp h st), stored' (payload_of (unit_type d) st (adv (mk_bb rbsp) 16)) st)
    end /\
    forall o s, state_ok s -> ParseNalUnit o d s = match payload_fault (unit_type d) s (adv (mk_bb rbsp) 16) with
    | Some e => Bad e
    | None => Done (Some (unit_of o rbsp h s), stored' (payload_of (unit_type d) s (adv (mk_bb rbsp) 16)) s)
    end.
Proof.
  intros D S. destruct (Unescape_byte_string d D) as (rbsp & E & D'). destruct (le_lt_dec 2 (length rbsp)) as [L|L].
  2:{ left. intros o s. rewrite (nal_unit_unesc _ _ _ _ E). apply nal_unit_short; assumption. }
  right. assert (G : forall o s, state_ok s -> exists h, nal_unit_type h = unit_type d /\ bits_of (firstn 2 rbsp) = enc_nal_header h /\ nal_header_ok h /\ wf (adv (mk_bb rbsp) 16) /\
    ParseNalUnit o d s = match payload_fault (unit_type d) s (adv (mk_bb rbsp) 16) with
    | Some e => Bad e
    | None => Done (Some (unit_of o rbsp h s), stored' (payload_of (unit_type d) s (adv (mk_bb rbsp) 16)) s)
    end).
  { intros o s Ss. destruct (nal_unit_long o rbsp s D' Ss L) as (h & Hh & Eh & W & R). exists h.
    assert (T : nal_unit_type h = unit_type d).
    { destruct rbsp as [|a [|b rbsp]]; cbn in L; try lia. destruct D' as [F _]. inversion F as [|? ? Fa F']; subst. inversion F' as [|? ? Fb _]; subst.
      rewrite (header_type a b h Fa Fb Hh Eh). unfold unit_type. rewrite UnescapeRbsp_spec in E. injection E as E. destruct d as [|x d]; [discriminate E|].
      rewrite unesc_cons in E. cbn [hd]. destruct d as [|x1 [|x2 t]]; [injection E as -> _|injection E as -> _|destruct ((x =? 0) && (x1 =? 0) && (x2 =? 3)); injection E as -> _]; reflexivity. }
    split; [exact T|]. split; [exact Eh|]. split; [exact Hh|]. split; [exact W|]. rewrite (nal_unit_unesc _ _ _ _ E), R, T. reflexivity. }
  destruct (G opts st S) as (h & T & Eh & Hh & W & R). exists rbsp, h. split; [exact E|]. split; [exact L|]. split; [exact D'|]. split; [exact T|]. split; [exact W|]. split; [exact R|].
  intros o s Ss. destruct (G o s Ss) as (h' & T' & Eh' & Hh' & _ & R').
  assert (h' = h) as ->; [|exact R']. pose proof D' as [F' L'].
  assert (Q : rem (mk_bb rbsp) = enc_nal_header h ++ bits_of (skipn 2 rbsp)) by (change (rem (mk_bb rbsp)) with (bits_of rbsp); rewrite <- (firstn_skipn 2 rbsp) at 1; rewrite bits_of_app, Eh; reflexivity).
  assert (Q' : rem (mk_bb rbsp) = enc_nal_header h' ++ bits_of (skipn 2 rbsp)) by (change (rem (mk_bb rbsp)) with (bits_of rbsp); rewrite <- (firstn_skipn 2 rbsp) at 1; rewrite bits_of_app, Eh'; reflexivity).
  pose proof (parses_nal_header h Hh _ _ (wf_mk _ F' L') Q) as P. rewrite (parses_nal_header h' Hh' _ _ (wf_mk _ F' L') Q') in P. injection P as ->. reflexivity.
Qed.

(** * C58: units that carry no parameter set can be left out *)
Lemma keeps_state opts d st r st' : byte_string d -> state_ok st -> ~ parameter_set_type (unit_type d) -> ParseNalUnit opts d st = Done (r, st') -> st' = st.
Proof.
  intros D S T E. destruct (nal_cases opts d st D S) as [N|(rbsp & h & _ & _ & _ & _ & W & R & _)]; [rewrite N in E; congruence|].
  rewrite R in E. destruct (payload_fault (unit_type d) st (adv (mk_bb rbsp) 16)); [discriminate|]. injection E as _ <-.
  unfold parameter_set_type in T. unfold stored', payload_of. cbn [np_vps np_sps np_pps].
  replace (unit_type d =? 32) with false by lia. replace (unit_type d =? 33) with false by lia. replace (unit_type d =? 34) with false by lia. reflexivity.
Qed.
Lemma parse_all_store opts ds : forall st us st', Forall byte_string ds -> store_ok st -> parse_all opts ds st = Done (us, st') -> store_ok st'.
Proof. intros st us st' F S E. apply (C22_history _ _ _ _ _ F S E). Qed.
(** If the stream with the unit [x] parses (nothing in it is undefined), the stream without it parses with the same final state, and what is
    returned is the same without what [x] contributes (at most one unit). *)
Theorem C58_droppable : forall opts a x b st with_x st', store_ok st ->
  Forall (fun u => nal_ok (snd u) /\ byte_string (snd u)) (a ++ x :: b) -> Z.of_nat (length (annexb_stream (a ++ x :: b))) < 2 ^ 64 ->
  ~ parameter_set_type (unit_type (snd x)) ->
  ParseBitstream opts (annexb_stream (a ++ x :: b)) st = Done (with_x, st') ->
  exists before sa without_x c_b c_x,
    ParseBitstream opts (annexb_stream a) st = Done (before, sa) /\
    ParseBitstream opts (annexb_stream (a ++ b)) st = Done (without_x, st') /\
    map contents (bs_units without_x) = map contents (bs_units before) ++ c_b /\
    map contents (bs_units with_x) = map contents (bs_units before) ++ c_x ++ c_b /\ (length c_x <= 1)%nat.
Proof.
  intros opts a x b st wx st' S F L T E.
  assert (Fn : Forall (fun u => nal_ok (snd u)) (a ++ x :: b)) by (eapply Forall_impl; [|exact F]; cbn; tauto).
  assert (Fb : Forall byte_string (map snd (a ++ x :: b))) by (rewrite Forall_map; eapply Forall_impl; [|exact F]; cbn; tauto).
  pose proof (annexb_fold opts _ st L Fn) as H. rewrite E in H. unfold as_fold in H.
  destruct (parse_all opts (map snd (a ++ x :: b)) st) as [[l s]|e] eqn:P; [|destruct H]. destruct H as [Hc <-].
  rewrite map_app in P, Fb. cbn [map] in P, Fb. rewrite parse_all_app in P. apply Forall_app in Fb. destruct Fb as [Fa Fb]. inversion Fb as [|? ? Fx Fb']; subst.
  destruct (parse_all opts (map snd a) st) as [[la sa]|e] eqn:Pa; [|discriminate]. pose proof (parse_all_store _ _ _ _ _ Fa S Pa) as Sa.
  cbn [parse_all] in P. destruct (ParseNalUnit opts (snd x) sa) as [[ox sx]|e] eqn:Px; [|discriminate].
  pose proof (keeps_state _ _ _ _ _ Fx (store_state_ok _ Sa) T Px) as ->.
  destruct (parse_all opts (map snd b) sa) as [[lb sb]|e] eqn:Pb; [|discriminate]. injection P as <- <-.
  assert (La : Z.of_nat (length (annexb_stream a)) < 2 ^ 64 /\ Z.of_nat (length (annexb_stream (a ++ b))) < 2 ^ 64).
  { rewrite !annexb_stream_app in *. rewrite annexb_stream_cons in L. rewrite !app_length in *. lia. }
  apply Forall_app in Fn. destruct Fn as [Fna Fnb]. inversion Fnb as [|? ? Fnx Fnb']; subst.
  pose proof (annexb_fold opts a st (proj1 La) Fna) as Ha. rewrite Pa in Ha. unfold as_fold in Ha. destruct (ParseBitstream opts (annexb_stream a) st) as [[ba s1]|e]; [|destruct Ha].
  destruct Ha as [Ha ->].
  pose proof (annexb_fold opts (a ++ b) st (proj2 La) (proj2 (Forall_app _ _ _) (conj Fna Fnb'))) as Hab.
  rewrite map_app, parse_all_app, Pa, Pb in Hab. unfold as_fold in Hab. destruct (ParseBitstream opts (annexb_stream (a ++ b)) st) as [[bab s1]|e]; [|destruct Hab].
  destruct Hab as [Hab ->].
  exists ba, sa, bab, (found lb), (match ox with Some u => [contents u] | None => [] end).
  split; [reflexivity|]. split; [reflexivity|]. rewrite Hab, Ha, Hc. unfold found. rewrite !flat_map_app. cbn [flat_map].
  split; [reflexivity|]. split; [reflexivity|]. destruct ox; cbn; lia.
Qed.

(** * C59: sending parameter sets again, or in another order *)
Lemma same_refl s : same_state s s.
Proof. repeat split. Qed.
Lemma same_sym s t : same_state s t -> same_state t s.
Proof. intros (A & B & C). repeat split; intros k; symmetry; auto. Qed.
Lemma same_trans s t u : same_state s t -> same_state t u -> same_state s u.
Proof. intros (A & B & C) (A' & B' & C'). repeat split; intros k; [rewrite A|rewrite B|rewrite C]; auto. Qed.
Lemma same_agree nut bits s t : same_state s t -> agree_on nut bits s t.
Proof. intros (_ & B & C) f x pid r _ _. split; [apply C|]. intros. apply B. Qed.
Lemma same_store_ok s t : same_state s t -> store_ok s -> store_ok t.
Proof.
  intros (A & B & C) (A' & B' & C'). split; [|split]; intros k v x E; [rewrite <- A in E|rewrite <- B in E|rewrite <- C in E]; eauto.
Qed.
(** The store after a unit that carries the payload [p] (C22_store). *)
Definition kept (r : option nal_unit) (st st' : state) : Prop := same_state st' (match r with Some u => stored (nu_payload u) st | None => st end).
Lemma kept_store opts d st r st' : byte_string d -> state_ok st -> ParseNalUnit opts d st = Done (r, st') -> kept r st st'.
Proof.
  intros D S E. pose proof (C22_store _ _ _ _ _ D S E) as H. unfold kept, stored, same_state. cbn [st_vps st_sps st_pps].
  destruct r; (split; [|split]); intros k; apply (H k).
Qed.
(** Stores with the same entries cannot be told apart. *)
Theorem C59_same_state : forall opts d s t, byte_string d -> store_ok s -> same_state s t ->
  match ParseNalUnit opts d s, ParseNalUnit opts d t with
  | Done (u1, s'), Done (u2, t') => u1 = u2 /\ same_state s' t'
  | Bad e1, Bad e2 => e1 = e2
  | _, _ => False
  end.
Proof.
  intros opts d s t D S E. pose proof (same_store_ok _ _ E S) as T. destruct (Unescape_byte_string d D) as (rbsp & U & _).
  pose proof (C23_unit opts d rbsp s t D (store_state_ok _ S) (store_state_ok _ T) U (fun h _ => same_agree _ _ _ _ E)) as H.
  destruct (ParseNalUnit opts d s) as [[u1 s']|] eqn:E1, (ParseNalUnit opts d t) as [[u2 t']|] eqn:E2; try exact H. subst u2. split; [reflexivity|].
  pose proof (kept_store _ _ _ _ _ D (store_state_ok _ S) E1) as K1. pose proof (kept_store _ _ _ _ _ D (store_state_ok _ T) E2) as K2. unfold kept in *.
  eapply same_trans; [exact K1|]. eapply same_trans; [|apply same_sym, K2]. destruct u1 as [u|]; [|exact E].
  destruct E as (A & B & C). unfold stored. split; [|split]; intros k; cbn [st_vps st_sps st_pps]; [rewrite A|rewrite B|rewrite C]; reflexivity.
Qed.
Theorem C59_same_state_all : forall opts ds s t, Forall byte_string ds -> store_ok s -> same_state s t ->
  match parse_all opts ds s, parse_all opts ds t with
  | Done (u1, s'), Done (u2, t') => u1 = u2 /\ same_state s' t'
  | Bad e1, Bad e2 => e1 = e2
  | _, _ => False
  end.
Proof.
  intros opts ds. induction ds as [|d ds IH]; intros s t F S E; [cbn; auto|]. inversion F as [|? ? D F']; subst. cbn [parse_all].
  pose proof (C59_same_state opts d s t D S E) as H.
  destruct (ParseNalUnit opts d s) as [[u1 s1]|] eqn:E1, (ParseNalUnit opts d t) as [[u2 t1]|]; try (exact H || destruct H; fail). destruct H as [-> H].
  specialize (IH s1 t1 F' (C22_invariant _ _ _ _ _ D S E1) H).
  destruct (parse_all opts ds s1) as [[l1 s2]|], (parse_all opts ds t1) as [[l2 t2]|]; try exact IH. destruct IH as [-> IH]. auto.
Qed.
(** What carries parameter sets does not look at the store. *)
Lemma set_indep opts d s t : byte_string d -> store_ok s -> store_ok t -> parameter_set_type (unit_type d) ->
  match ParseNalUnit opts d s, ParseNalUnit opts d t with
  | Done (u1, _), Done (u2, _) => u1 = u2
  | Bad e1, Bad e2 => e1 = e2
  | _, _ => False
  end.
Proof.
  intros D S T P. destruct (nal_cases opts d s D (store_state_ok _ S)) as [N|(rbsp & h & _ & _ & _ & Th & _ & _ & R)]; [rewrite !N; reflexivity|].
  rewrite (R opts s (store_state_ok _ S)), (R opts t (store_state_ok _ T)). unfold unit_of, payload_fault, payload_of, payload_stop. rewrite Th.
  replace (slice_nut (unit_type d)) with false by (unfold slice_nut, parameter_set_type in *; lia).
  destruct (if unit_type d =? 32 then _ else _); reflexivity.
Qed.
Lemma stored_twice p s : same_state (stored p (stored p s)) (stored p s).
Proof.
  unfold stored. split; [|split]; intros k; cbn [st_vps st_sps st_pps]; [destruct (np_vps p) as [v|]|destruct (np_sps p) as [v|]|destruct (np_pps p) as [v|]]; try reflexivity;
    destruct (_ =? _); reflexivity.
Qed.
(** The same unit twice: the second call returns the same and changes nothing. *)
Theorem C59_twice : forall opts d st r st', byte_string d -> store_ok st -> ParseNalUnit opts d st = Done (r, st') ->
  exists st'', ParseNalUnit opts d st' = Done (r, st'') /\ same_state st'' st'.
Proof.
  intros opts d st r st' D S E. pose proof (C22_invariant _ _ _ _ _ D S E) as S'.
  assert (Q : parameter_set_type (unit_type d) \/ ~ parameter_set_type (unit_type d)) by (unfold parameter_set_type; lia). destruct Q as [P|P].
  - pose proof (set_indep opts d st st' D S S' P) as H. rewrite E in H. destruct (ParseNalUnit opts d st') as [[r' st'']|] eqn:E'; [|destruct H]. subst r'.
    exists st''. split; [reflexivity|]. pose proof (kept_store _ _ _ _ _ D (store_state_ok _ S) E) as K1. pose proof (kept_store _ _ _ _ _ D (store_state_ok _ S') E') as K2.
    unfold kept in *. destruct r as [u|]; [|exact K2]. eapply same_trans; [exact K2|]. eapply same_trans; [|apply same_sym, K1].
    eapply same_trans; [|apply stored_twice]. destruct K1 as (A & B & C). split; [|split]; intros k; cbn [stored st_vps st_sps st_pps]; [rewrite A|rewrite B|rewrite C]; reflexivity.
  - pose proof (keeps_state _ _ _ _ _ D (store_state_ok _ S) P E) as ->. exists st. split; [exact E|apply same_refl].
Qed.
(** What the unit carries is in the store already. *)
Definition is_stored (u : nal_unit) (st : state) : Prop :=
  (forall v, np_vps (nu_payload u) = Some v -> st_vps st (vps_video_parameter_set_id (fst v)) = Some v) /\
  (forall v, np_sps (nu_payload u) = Some v -> st_sps st (sps_seq_parameter_set_id (fst v)) = Some v) /\
  (forall v, np_pps (nu_payload u) = Some v -> st_pps st (pps_pic_parameter_set_id (fst v)) = Some v).
Lemma stored_already u st : is_stored u st -> same_state (stored (nu_payload u) st) st.
Proof.
  intros (A & B & C). unfold stored. split; [|split]; intros k; cbn [st_vps st_sps st_pps].
  - destruct (np_vps (nu_payload u)) as [v|]; [|reflexivity]. specialize (A v eq_refl). destruct (Z.eqb_spec k (vps_video_parameter_set_id (fst v))); [subst; auto|reflexivity].
  - destruct (np_sps (nu_payload u)) as [v|]; [|reflexivity]. specialize (B v eq_refl). destruct (Z.eqb_spec k (sps_seq_parameter_set_id (fst v))); [subst; auto|reflexivity].
  - destruct (np_pps (nu_payload u)) as [v|]; [|reflexivity]. specialize (C v eq_refl). destruct (Z.eqb_spec k (pps_pic_parameter_set_id (fst v))); [subst; auto|reflexivity].
Qed.
(** Anywhere in a history a unit whose parameter set is in force may be sent again (or left out): all other results and the final store are
    the same. *)
Theorem C59_resend : forall opts a d b st la sa u s' lb sb, Forall byte_string (a ++ d :: b) -> store_ok st ->
  parse_all opts a st = Done (la, sa) -> ParseNalUnit opts d sa = Done (Some u, s') -> is_stored u sa ->
  parse_all opts (a ++ b) st = Done (la ++ lb, sb) ->
  exists sb', parse_all opts (a ++ d :: b) st = Done (la ++ Some u :: lb, sb') /\ same_state sb' sb.
Proof.
  intros opts a d b st la sa u s' lb sb F S Ea Ed I Eb. apply Forall_app in F. destruct F as [Fa Fb]. inversion Fb as [|? ? D Fb']; subst.
  pose proof (parse_all_store _ _ _ _ _ Fa S Ea) as Sa. pose proof (kept_store _ _ _ _ _ D (store_state_ok _ Sa) Ed) as K. unfold kept in K.
  assert (K' : same_state sa s') by (apply same_sym; eapply same_trans; [exact K|apply stored_already, I]).
  rewrite parse_all_app, Ea in *. cbn [parse_all]. rewrite Ed. pose proof (C59_same_state_all opts b sa s' Fb' Sa K') as H.
  destruct (parse_all opts b sa) as [[l1 s1]|]; [|discriminate]. injection Eb as El ->. apply app_inv_head in El. subst l1.
  destruct (parse_all opts b s') as [[l2 s2]|]; [|destruct H]. destruct H as [<- H]. exists s2. split; [reflexivity|apply same_sym, H].
Qed.
(** Two units carry different parameter sets: not the same kind with the same id. *)
Definition different_sets (u v : nal_unit) : Prop :=
  (forall x y, np_vps (nu_payload u) = Some x -> np_vps (nu_payload v) = Some y -> vps_video_parameter_set_id (fst x) <> vps_video_parameter_set_id (fst y)) /\
  (forall x y, np_sps (nu_payload u) = Some x -> np_sps (nu_payload v) = Some y -> sps_seq_parameter_set_id (fst x) <> sps_seq_parameter_set_id (fst y)) /\
  (forall x y, np_pps (nu_payload u) = Some x -> np_pps (nu_payload v) = Some y -> pps_pic_parameter_set_id (fst x) <> pps_pic_parameter_set_id (fst y)).
Lemma stored_cong p s t : same_state s t -> same_state (stored p s) (stored p t).
Proof. intros (A & B & C). split; [|split]; intros k; cbn [stored st_vps st_sps st_pps]; [rewrite A|rewrite B|rewrite C]; reflexivity. Qed.
Lemma stored_comm u v s : different_sets u v -> same_state (stored (nu_payload u) (stored (nu_payload v) s)) (stored (nu_payload v) (stored (nu_payload u) s)).
Proof.
  intros (A & B & C). split; [|split]; intros k; cbn [stored st_vps st_sps st_pps].
  - destruct (np_vps (nu_payload u)) as [x|], (np_vps (nu_payload v)) as [y|]; try reflexivity. specialize (A x y eq_refl eq_refl).
    destruct (Z.eqb_spec k (vps_video_parameter_set_id (fst x))), (Z.eqb_spec k (vps_video_parameter_set_id (fst y))); congruence.
  - destruct (np_sps (nu_payload u)) as [x|], (np_sps (nu_payload v)) as [y|]; try reflexivity. specialize (B x y eq_refl eq_refl).
    destruct (Z.eqb_spec k (sps_seq_parameter_set_id (fst x))), (Z.eqb_spec k (sps_seq_parameter_set_id (fst y))); congruence.
  - destruct (np_pps (nu_payload u)) as [x|], (np_pps (nu_payload v)) as [y|]; try reflexivity. specialize (C x y eq_refl eq_refl).
    destruct (Z.eqb_spec k (pps_pic_parameter_set_id (fst x))), (Z.eqb_spec k (pps_pic_parameter_set_id (fst y))); congruence.
Qed.
(** Parameter set units with different sets may be sent in either order. *)
Theorem C59_order : forall opts a b st u v s1 s12, byte_string a -> byte_string b -> store_ok st ->
  parameter_set_type (unit_type a) -> parameter_set_type (unit_type b) ->
  ParseNalUnit opts a st = Done (Some u, s1) -> ParseNalUnit opts b s1 = Done (Some v, s12) -> different_sets u v ->
  exists s2 s21, ParseNalUnit opts b st = Done (Some v, s2) /\ ParseNalUnit opts a s2 = Done (Some u, s21) /\ same_state s21 s12.
Proof.
  intros opts a b st u v s1 s12 Da Db S Ta Tb Ea Eb N. pose proof (C22_invariant _ _ _ _ _ Da S Ea) as S1.
  pose proof (set_indep opts b s1 st Db S1 S Tb) as Hb. rewrite Eb in Hb. destruct (ParseNalUnit opts b st) as [[v' s2]|] eqn:Eb'; [|destruct Hb]. subst v'.
  pose proof (C22_invariant _ _ _ _ _ Db S Eb') as S2.
  pose proof (set_indep opts a st s2 Da S S2 Ta) as Ha. rewrite Ea in Ha. destruct (ParseNalUnit opts a s2) as [[u' s21]|] eqn:Ea'; [|destruct Ha]. subst u'.
  exists s2, s21. split; [reflexivity|]. split; [exact Ea'|].
  pose proof (kept_store _ _ _ _ _ Da (store_state_ok _ S) Ea) as K1. pose proof (kept_store _ _ _ _ _ Db (store_state_ok _ S1) Eb) as K2.
  pose proof (kept_store _ _ _ _ _ Db (store_state_ok _ S) Eb') as K3. pose proof (kept_store _ _ _ _ _ Da (store_state_ok _ S2) Ea') as K4. unfold kept in *.
  eapply same_trans; [exact K4|]. eapply same_trans; [apply stored_cong, K3|]. eapply same_trans; [apply stored_comm, N|].
  eapply same_trans; [apply stored_cong, same_sym, K1|]. apply same_sym, K2.
Qed.

(** * C60: the options only decide about the checksum *)
Definition without_checksum (u : nal_unit) : nal_unit := mkNU (nu_offset u) (nu_length u) (nu_parsed_length u) None (nu_header u) (nu_payload u).
Theorem C60_unit : forall o1 o2 d st, byte_string d -> state_ok st ->
  match ParseNalUnit o1 d st, ParseNalUnit o2 d st with
  | Done (u1, s1), Done (u2, s2) => option_map without_checksum u1 = option_map without_checksum u2 /\ s1 = s2 /\ (add_checksum o1 = add_checksum o2 -> u1 = u2)
  | Bad e1, Bad e2 => e1 = e2
  | _, _ => False
  end.
Proof.
  intros o1 o2 d st D S. destruct (nal_cases o1 d st D S) as [N|(rbsp & h & _ & _ & _ & Th & _ & _ & R)]; [rewrite !N; auto|].
  rewrite (R o1 st S), (R o2 st S). destruct (payload_fault _ _ _); [reflexivity|]. split; [reflexivity|]. split; [reflexivity|].
  intros E. unfold unit_of. rewrite E. reflexivity.
Qed.
Lemma parse_all_options o1 o2 ds : Forall byte_string ds -> forall st, store_ok st ->
  match parse_all o1 ds st, parse_all o2 ds st with
  | Done (u1, s1), Done (u2, s2) => map (option_map without_checksum) u1 = map (option_map without_checksum) u2 /\ s1 = s2
  | Bad e1, Bad e2 => e1 = e2
  | _, _ => False
  end.
Proof.
  induction 1 as [|d ds D F IH]; intros st S; [cbn; auto|]. cbn [parse_all]. pose proof (C60_unit o1 o2 d st D (store_state_ok _ S)) as H.
  destruct (ParseNalUnit o1 d st) as [[u1 s1]|] eqn:E1, (ParseNalUnit o2 d st) as [[u2 s2]|]; try (exact H || destruct H; fail). destruct H as (Hu & <- & _).
  specialize (IH s1 (C22_invariant _ _ _ _ _ D S E1)). destruct (parse_all o1 ds s1) as [[l1 t1]|], (parse_all o2 ds s1) as [[l2 t2]|]; try exact IH.
  destruct IH as [IH <-]. cbn. rewrite Hu, IH. auto.
Qed.
Lemma placed_without ixs : forall us, map without_checksum (placed ixs us) = placed ixs (map (option_map without_checksum) us).
Proof. induction ixs as [|ix ixs IH]; intros [|o us]; try reflexivity. cbn [placed map]. rewrite map_app, IH. destruct o; reflexivity. Qed.
Theorem C60_stream : forall o1 o2 data st, byte_string data -> store_ok st ->
  match ParseBitstream o1 data st, ParseBitstream o2 data st with
  | Done (b1, s1), Done (b2, s2) => map without_checksum (bs_units b1) = map without_checksum (bs_units b2) /\ s1 = s2
  | Bad e1, Bad e2 => e1 = e2
  | _, _ => False
  end.
Proof.
  intros o1 o2 data st D S. pose proof D as [_ L]. assert (L' : Z.of_nat (length data) < 2 ^ 64) by lia.
  assert (Fb : Forall byte_string (map (payload data) (annexb_units data))) by (apply Forall_map; eapply Forall_impl; [|exact (annexb_in_bounds data L')]; intros ix; apply sub_bytes, D).
  rewrite !C24_fold by exact L'. pose proof (parse_all_options o1 o2 _ Fb st S) as H.
  destruct (parse_all o1 _ st) as [[l1 s1]|], (parse_all o2 _ st) as [[l2 s2]|]; try exact H. destruct H as [H <-]. split; [|reflexivity]. cbn [bs_units].
  rewrite !placed_without, H. reflexivity.
Qed.
(** The checksum itself: of every unit or of none. *)
Theorem C60_checksum : forall opts d st u st', byte_string d -> state_ok st -> ParseNalUnit opts d st = Done (Some u, st') -> (nu_checksum u = None <-> add_checksum opts = false).
Proof.
  intros opts d st u st' D S E. destruct (Unescape_byte_string d D) as (rbsp & U & _). destruct (C21_fields opts d rbsp st u st' D S U E) as (H & _).
  rewrite H. destruct (add_checksum opts); split; congruence.
Qed.

(** * C61: emulation prevention is transparent *)
Theorem C61_unit : forall opts fin rbsp st, Forall is_byte rbsp -> ParseNalUnit opts (escape fin 0 rbsp) st = ParseNalUnitUnescaped opts rbsp st.
Proof. intros opts fin rbsp st F. apply nal_unit_unesc, C09_unescape_inverts_escape, F. Qed.
Fixpoint parse_all_unescaped (opts : options) (ds : list (list Z)) (st : state) : outcome (list (option nal_unit) * state) :=
  match ds with
  | [] => Done ([], st)
  | d :: r =>
    match ParseNalUnitUnescaped opts d st with
    | Bad e => Bad e
    | Done (u, st') => match parse_all_unescaped opts r st' with Bad e => Bad e | Done (us, st'') => Done (u :: us, st'') end
    end
  end.
Lemma parse_all_escaped opts fin ds : Forall (Forall is_byte) ds -> forall st, parse_all opts (map (escape fin 0) ds) st = parse_all_unescaped opts ds st.
Proof.
  induction 1 as [|d ds D F IH]; intros st; [reflexivity|]. cbn [map parse_all parse_all_unescaped]. rewrite C61_unit by exact D.
  destruct (ParseNalUnitUnescaped opts d st) as [[u s]|]; [|reflexivity]. rewrite IH. reflexivity.
Qed.
Lemma escape_ok fin l : Forall is_byte l -> l <> [] -> last l 0 <> 0 -> nal_ok (escape fin 0 l).
Proof.
  intros F N H. split; [|split].
  - intros E. apply H. rewrite <- (last_escape fin l N H 0%nat), E. reflexivity.
  - rewrite last_escape; assumption.
  - intros pre post E. pose proof (C09_escaped_has_no_start_code fin l pre 1 post F E). lia.
Qed.
(** A stream made as Annex B and clause 7.4.1.1 say, from any NAL units (header and RBSP bytes before emulation prevention; they do not end in
    a zero byte): the call is the fold of ParseNalUnitUnescaped over them. *)
Theorem C61_stream : forall opts fin (us : list (bool * list Z)) st,
  Forall (fun u => Forall is_byte (snd u) /\ snd u <> [] /\ last (snd u) 0 <> 0) us ->
  Z.of_nat (length (annexb_stream (map (fun u => (fst u, escape fin 0 (snd u))) us))) < 2 ^ 64 ->
  match ParseBitstream opts (annexb_stream (map (fun u => (fst u, escape fin 0 (snd u))) us)) st, parse_all_unescaped opts (map snd us) st with
  | Done (bs, s1), Done (l, s2) => map contents (bs_units bs) = found l /\ s1 = s2
  | Bad e1, Bad e2 => e1 = e2
  | _, _ => False
  end.
Proof.
  intros opts fin us st F L. rewrite <- (parse_all_escaped opts fin) by (rewrite Forall_map; eapply Forall_impl; [|exact F]; cbn; tauto).
  replace (map (escape fin 0) (map snd us)) with (map snd (map (fun u => (fst u, escape fin 0 (snd u))) us)) by (rewrite !map_map; apply map_ext; reflexivity).
  apply annexb_fold; [exact L|]. rewrite Forall_map. eapply Forall_impl; [|exact F]. cbn. intros u (H1 & H2 & H3). apply escape_ok; assumption.
Qed.

(** * C62: a configuration box is its NAL units sent in band *)
Theorem C62_in_band : forall opts data st h arrs rest us, byte_string data -> box_ok h arrs -> bits_of data = enc_box h arrs ++ rest ->
  map snd us = flat_map ba_nals arrs -> Forall (fun u => nal_ok (snd u)) us -> Z.of_nat (length (annexb_stream us)) < 2 ^ 64 ->
  match ParseConfigurationBox opts data st, ParseBitstream opts (annexb_stream us) st with
  | Done (Some box, s1), Done (bs, s2) => found (map snd (flat_map nalus (hv_arrays box))) = map contents (bs_units bs) /\ s1 = s2
  | Bad e1, Bad e2 => e1 = e2
  | _, _ => False
  end.
Proof.
  intros opts data st h arrs rest us D B E M F L. pose proof (C42_complete opts data st h arrs rest D B E) as H. pose proof (annexb_fold opts us st L F) as A.
  rewrite M in A. unfold as_fold in A. destruct (parse_all opts (flat_map ba_nals arrs) st) as [[l s]|e].
  - destruct H as (box & -> & _ & _ & Hl). destruct (ParseBitstream opts (annexb_stream us) st) as [[bs s2]|]; [|destruct A]. destruct A as [A ->]. rewrite Hl, A. auto.
  - rewrite H. destruct (ParseBitstream opts (annexb_stream us) st) as [[bs s2]|]; [destruct A|]. auto.
Qed.
(** What is parsed afterwards is the same as after the same NAL units at the front of the stream. *)
Theorem C62_then_stream : forall opts data st h arrs rest us more box s1, byte_string data -> box_ok h arrs -> bits_of data = enc_box h arrs ++ rest ->
  map snd us = flat_map ba_nals arrs -> Forall (fun u => nal_ok (snd u)) (us ++ more) -> Z.of_nat (length (annexb_stream (us ++ more))) < 2 ^ 64 ->
  ParseConfigurationBox opts data st = Done (Some box, s1) ->
  match ParseBitstream opts (annexb_stream more) s1, ParseBitstream opts (annexb_stream (us ++ more)) st with
  | Done (b1, t1), Done (b2, t2) => map contents (bs_units b2) = found (map snd (flat_map nalus (hv_arrays box))) ++ map contents (bs_units b1) /\ t1 = t2
  | Bad e1, Bad e2 => e1 = e2
  | _, _ => False
  end.
Proof.
  intros opts data st h arrs rest us more box s1 D B E M F L P.
  assert (La : Z.of_nat (length (annexb_stream us)) < 2 ^ 64 /\ Z.of_nat (length (annexb_stream more)) < 2 ^ 64) by (rewrite annexb_stream_app, app_length in L; lia).
  pose proof F as F'. apply Forall_app in F'. destruct F' as [Fu Fm].
  pose proof (C62_in_band opts data st h arrs rest us D B E M Fu (proj1 La)) as H. rewrite P in H.
  pose proof (annexb_fold opts us st (proj1 La) Fu) as A. pose proof (annexb_fold opts more s1 (proj2 La) Fm) as Am. pose proof (annexb_fold opts (us ++ more) st L F) as Aa.
  rewrite map_app, parse_all_app in Aa. destruct (ParseBitstream opts (annexb_stream us) st) as [[bs s2]|]; [|destruct H]. destruct H as [H <-].
  unfold as_fold in *. destruct (parse_all opts (map snd us) st) as [[lu su]|]; [|destruct A]. destruct A as [A <-].
  destruct (parse_all opts (map snd more) s1) as [[lm sm]|].
  - destruct (ParseBitstream opts (annexb_stream more) s1) as [[b1 t1]|]; [|destruct Am]. destruct Am as [Am ->].
    destruct (ParseBitstream opts (annexb_stream (us ++ more)) st) as [[b2 t2]|]; [|destruct Aa]. destruct Aa as [Aa ->].
    split; [|reflexivity]. rewrite Aa, H, A, Am. unfold found. apply flat_map_app.
  - destruct (ParseBitstream opts (annexb_stream more) s1) as [[b1 t1]|]; [destruct Am|]. subst.
    destruct (ParseBitstream opts (annexb_stream (us ++ more)) st) as [[b2 t2]|]; [destruct Aa|]. auto.
Qed.

(** * C63: NAL units in single NAL unit packets *)
Fixpoint rtp_all (ps : list (list Z)) (st : state) : outcome (list (option rtp) * state) :=
  match ps with
  | [] => Done ([], st)
  | p :: r =>
    match ParseRtp p st with
    | Bad e => Bad e
    | Done (x, st') => match rtp_all r st' with Bad e => Bad e | Done (xs, st'') => Done (x :: xs, st'') end
    end
  end.
Definition as_packet (o : option nal_unit) : option rtp :=
  option_map (fun u => mkRtp (nu_header u) (Some (mkRS (nu_header u) (nu_payload u))) None None) o.
Theorem C63_packet : forall opts d st, byte_string d -> state_ok st -> unit_type d <= 47 ->
  ParseRtp d st = match ParseNalUnit opts d st with Bad e => Bad e | Done (o, st') => Done (as_packet o, st') end.
Proof.
  intros opts d st D S T. destruct (Unescape_byte_string d D) as (rbsp & U & D'). destruct (C43_choice d rbsp st D U) as [C1 C2].
  destruct (le_lt_dec 2 (length rbsp)) as [L|L].
  - destruct (C2 L) as (h & Hh & Eh & R). destruct (nal_cases opts d st D S) as [N|(rbsp' & h' & U' & _ & _ & Th & _ & R' & _)].
    { pose proof (C21_dispatch opts d rbsp st D S U) as Q. rewrite N in Q. lia. }
    pose proof (C21_dispatch opts d rbsp st D S U) as Q. pose proof (C43_single opts d st D S) as Q1.
    assert (Tt : nal_unit_type h = unit_type d).
    { destruct rbsp as [|a [|b rbsp]]; cbn in L; try lia. destruct D' as [F _]. inversion F as [|? ? Fa F']; subst. inversion F' as [|? ? Fb _]; subst.
      rewrite (header_type a b h Fa Fb Hh Eh). unfold unit_type. rewrite UnescapeRbsp_spec in U. injection U as E. destruct d as [|x d]; [discriminate E|].
      rewrite unesc_cons in E. cbn [hd]. destruct d as [|x1 [|x2 t]]; [injection E as -> _|injection E as -> _|destruct ((x =? 0) && (x1 =? 0) && (x2 =? 3)); injection E as -> _]; reflexivity. }
    rewrite R, Tt. replace (unit_type d <=? 47) with true by lia. rewrite Q1. destruct (ParseNalUnit opts d st) as [[[u|] s]|e]; [|reflexivity|reflexivity].
    cbn. do 4 f_equal. destruct Q as (_ & Hu & Eu & _).
    pose proof D' as [F' L'].
    assert (G : forall h0, bits_of (firstn 2 rbsp) = enc_nal_header h0 -> rem (mk_bb rbsp) = enc_nal_header h0 ++ bits_of (skipn 2 rbsp)).
    { intros h0 G0. change (rem (mk_bb rbsp)) with (bits_of rbsp). rewrite <- (firstn_skipn 2 rbsp) at 1. rewrite bits_of_app, G0. reflexivity. }
    pose proof (parses_nal_header h Hh _ _ (wf_mk _ F' L') (G _ Eh)) as P1. rewrite (parses_nal_header _ Hu _ _ (wf_mk _ F' L') (G _ Eu)) in P1. injection P1 as <-. reflexivity.
  - rewrite (C1 L). rewrite (nal_unit_unesc _ _ _ _ U), nal_unit_short by assumption. reflexivity.
Qed.
(** One packet per NAL unit, one state: the same units and the same state as ParseNalUnit (and so, with C24 and C57, as a stream) gives. *)
Theorem C63_packets : forall opts ds st, Forall byte_string ds -> store_ok st -> Forall (fun d => unit_type d <= 47) ds ->
  rtp_all ds st = match parse_all opts ds st with Bad e => Bad e | Done (l, st') => Done (map as_packet l, st') end.
Proof.
  intros opts ds st F. revert st. induction F as [|d ds D F IH]; intros st S T; [reflexivity|]. inversion T as [|? ? Td T']; subst. cbn [rtp_all parse_all].
  rewrite (C63_packet opts d st D (store_state_ok _ S) Td). destruct (ParseNalUnit opts d st) as [[o s]|] eqn:E; [|reflexivity].
  rewrite (IH s (C22_invariant _ _ _ _ _ D S E) T'). destruct (parse_all opts ds s) as [[l s']|]; reflexivity.
Qed.

(** * Concrete cases: the stream of C24 (VPS, SPS, PPS, B slice, another PPS with the same id, AUD) *)
Lemma bytes_check l : forallb (fun x => (0 <=? x) && (x <? 256)) l = true -> Forall is_byte l.
Proof. intros H. apply Forall_forall. intros x I. rewrite forallb_forall in H. specialize (H x I). unfold is_byte. lia. Qed.
Definition C61_rbsp (ty : Z) (body : list bool) : list Z := pack (enc_nal_header (mkNH 0 ty 0 1) ++ body ++ [true]).
Definition C61_units : list (bool * list Z) :=
  [(true, C61_rbsp 32 (enc_vps false (C29_vps 0 []))); (true, C61_rbsp 33 (enc_sps false C31_sps)); (false, C61_rbsp 34 (enc_pps false C37_pps));
   (false, C61_rbsp 1 (enc_slice false 1 C31_sps C37_pps C37_header)); (true, C61_rbsp 34 (enc_pps false C37_pps1)); (false, C61_rbsp 35 (enc_u 3 2))].
Example C61_case : Forall (fun u => Forall is_byte (snd u) /\ snd u <> [] /\ last (snd u) 0 <> 0) C61_units /\
  map (fun u => (fst u, escape true 0 (snd u))) C61_units = C24_nals /\ existsb (fun u => negb (length (snd u) =? length (escape true 0 (snd u)))%nat) C61_units = true.
Proof.
  assert (B : forallb (fun u => forallb (fun x => (0 <=? x) && (x <? 256)) (snd u) && (0 <? length (snd u))%nat && negb (last (snd u) 0 =? 0)) C61_units = true) by (vm_compute; reflexivity).
  split; [|split; [vm_compute; reflexivity|vm_compute; reflexivity]]. apply Forall_forall. intros u I. rewrite forallb_forall in B. specialize (B u I).
  apply andb_prop in B. destruct B as [B B3]. apply andb_prop in B. destruct B as [B1 B2]. split; [apply bytes_check, B1|]. split; [intros E; rewrite E in B2; discriminate|lia].
Qed.
Lemma C24_nals_ok : Forall (fun u => nal_ok (snd u) /\ byte_string (snd u)) C24_nals.
Proof.
  destruct C61_case as (H & E & _). rewrite <- E. rewrite Forall_map. cbn [snd].
  assert (B : forallb (fun u => forallb (fun x => (0 <=? x) && (x <? 256)) (escape true 0 (snd u)) && (Z.of_nat (length (escape true 0 (snd u))) <? 2 ^ 32)) C61_units = true) by (vm_compute; reflexivity).
  rewrite forallb_forall in B. rewrite Forall_forall in *. intros u I. destruct (H u I) as (H1 & H2 & H3). split; [apply escape_ok; assumption|].
  specialize (B u I). apply andb_prop in B. split; [apply bytes_check, B|lia].
Qed.
Lemma C24_nals_bytes : Forall byte_string (map snd C24_nals).
Proof. rewrite Forall_map. eapply Forall_impl; [|exact C24_nals_ok]. cbn. tauto. Qed.
(** C57: two-, three- and four-byte lengths and the two kinds of start codes all give the slice header of C37. *)
Example C57_case : Forall (fun u => nal_ok (snd u) /\ Z.of_nat (length (snd u)) < 256 ^ Z.of_nat 2) C24_nals /\
  Z.of_nat (length (annexb_stream C24_nals)) < 2 ^ 64 /\ Z.of_nat (length (framed 2 (map snd C24_nals))) < 2 ^ 63 /\
  match ParseBitstreamNALULength default_options (framed 2 (map snd C24_nals)) 2 empty_state with
  | Done (bs, _) => map (fun u => np_slice (nu_payload u)) (bs_units bs) = [None; None; None; Some C37_header; None; None]
  | Bad _ => False
  end.
Proof.
  split; [|split; [vm_compute; reflexivity|split; vm_compute; reflexivity]].
  assert (B : forallb (fun u => Z.of_nat (length (snd u)) <? 65536) C24_nals = true) by (vm_compute; reflexivity). rewrite forallb_forall in B.
  pose proof C24_nals_ok as H. rewrite Forall_forall in *. intros u I. split; [apply (H u I)|]. specialize (B u I). change (256 ^ Z.of_nat 2) with 65536. lia.
Qed.
(** C58: the slice and the AUD can be left out; the PPS in between cannot be (34 is a parameter set type). *)
Example C58_case : map (fun u => unit_type (snd u)) C24_nals = [32; 33; 34; 1; 34; 35] /\ store_ok empty_state /\
  match ParseBitstream default_options (annexb_stream C24_nals) empty_state with Done (bs, _) => length (bs_units bs) = 6%nat | Bad _ => False end.
Proof. split; [vm_compute; reflexivity|]. split; [apply empty_store_ok|vm_compute; reflexivity]. Qed.
(** C59: VPS, SPS, PPS, slice; then the SPS again (it is in force), then the slice again.  And SPS and PPS in the other order. *)
Definition C59_sps : list Z := C24_nal 33 (enc_sps false C31_sps).
Definition C59_pps : list Z := C24_nal 34 (enc_pps false C37_pps).
Definition C59_slice : list Z := C24_nal 1 (enc_slice false 1 C31_sps C37_pps C37_header).
Lemma C59_units_ok : nal_ok C59_sps /\ nal_ok C59_pps /\ nal_ok C59_slice.
Proof.
  unfold C59_sps, C59_pps, C59_slice, C24_nal.
  split; [|split]; (apply escape_ok; [apply bytes_check; vm_compute; reflexivity|intros H; apply (f_equal (@length Z)) in H; vm_compute in H; discriminate|intros H; vm_compute in H; discriminate]).
Qed.
Example C59_case : exists la sa u s' lb sb,
  parse_all default_options [C59_sps; C59_pps; C59_slice] empty_state = Done (la, sa) /\ ParseNalUnit default_options C59_sps sa = Done (Some u, s') /\ is_stored u sa /\
  parse_all default_options ([C59_sps; C59_pps; C59_slice] ++ [C59_slice]) empty_state = Done (la ++ lb, sb) /\
  map (option_map (fun u => np_slice (nu_payload u))) (la ++ lb) = [Some None; Some None; Some (Some C37_header); Some (Some C37_header)].
Proof.
  set (P := fun us : list (option nal_unit) => map (option_map (fun u => np_slice (nu_payload u))) us).
  destruct (parse_all default_options [C59_sps; C59_pps; C59_slice] empty_state) as [[la sa]|e] eqn:E1.
  2: exfalso; assert (X : match parse_all default_options [C59_sps; C59_pps; C59_slice] empty_state with Done _ => true | _ => false end = true) by (vm_compute; reflexivity); rewrite E1 in X; discriminate.
  destruct (ParseNalUnit default_options C59_sps sa) as [[[u|] s']|e] eqn:E2.
  2,3: exfalso; assert (X : match parse_all default_options [C59_sps; C59_pps; C59_slice] empty_state with Done (_, s) => match ParseNalUnit default_options C59_sps s with Done (Some _, _) => true | _ => false end | _ => false end = true) by (vm_compute; reflexivity);
    rewrite E1, E2 in X; discriminate.
  destruct (parse_all default_options [C59_slice] sa) as [[lb sb]|e] eqn:E3.
  2: exfalso; assert (X : match parse_all default_options [C59_sps; C59_pps; C59_slice] empty_state with Done (_, s) => match parse_all default_options [C59_slice] s with Done _ => true | _ => false end | _ => false end = true) by (vm_compute; reflexivity);
    rewrite E1, E3 in X; discriminate.
  exists la, sa, u, s', lb, sb. split; [reflexivity|]. split; [exact E2|]. split; [|split].
  - assert (X : match parse_all default_options [C59_sps; C59_pps; C59_slice] empty_state with Done (_, s) => match ParseNalUnit default_options C59_sps s with Done (Some u, _) => 
       (np_vps (nu_payload u), np_sps (nu_payload u), np_pps (nu_payload u), st_sps s 0) | _ => (None, None, None, None) end | _ => (None, None, None, None) end = (None, Some (C31_sps, 0), None, Some (C31_sps, 0))) by (vm_compute; reflexivity).
    rewrite E1, E2 in X. injection X as X1 X2 X3 X4. split; [|split]; intros v Ev; try congruence. rewrite X2 in Ev. injection Ev as <-. exact X4.
  - rewrite parse_all_app, E1, E3. reflexivity.
  - assert (X : match parse_all default_options ([C59_sps; C59_pps; C59_slice] ++ [C59_slice]) empty_state with Done (l, _) => P l | _ => [] end = [Some None; Some None; Some (Some C37_header); Some (Some C37_header)]) by (vm_compute; reflexivity).
    rewrite parse_all_app, E1, E3 in X. exact X.
Qed.
Example C59_order_case : exists u v s1 s12, ParseNalUnit default_options C59_sps empty_state = Done (Some u, s1) /\ ParseNalUnit default_options C59_pps s1 = Done (Some v, s12) /\
  different_sets u v /\ np_sps (nu_payload u) <> None /\ np_pps (nu_payload v) <> None /\ unit_type C59_sps = 33 /\ unit_type C59_pps = 34.
Proof.
  destruct (ParseNalUnit default_options C59_sps empty_state) as [[[u|] s1]|e] eqn:E1.
  2,3: exfalso; assert (X : match ParseNalUnit default_options C59_sps empty_state with Done (Some _, _) => true | _ => false end = true) by (vm_compute; reflexivity); rewrite E1 in X; discriminate.
  assert (X : match ParseNalUnit default_options C59_sps empty_state with Done (Some u, s) => match ParseNalUnit default_options C59_pps s with Done (Some v, _) => 
       (np_vps (nu_payload u), np_sps (nu_payload u), np_pps (nu_payload u), np_vps (nu_payload v), np_sps (nu_payload v), np_pps (nu_payload v)) | _ => (None, None, None, None, None, None) end
       | _ => (None, None, None, None, None, None) end = (None, Some (C31_sps, 0), None, None, None, Some (C37_pps, 0))) by (vm_compute; reflexivity).
  rewrite E1 in X. destruct (ParseNalUnit default_options C59_pps s1) as [[[v|] s12]|e] eqn:E2; [|discriminate|discriminate]. injection X as X1 X2 X3 X4 X5 X6.
  exists u, v, s1, s12. split; [reflexivity|]. split; [exact E2|]. split; [split; [|split]; intros; congruence|]. rewrite X2, X6. split; [discriminate|]. split; [discriminate|]. split; vm_compute; reflexivity.
Qed.
(** C62: the box of C42 without the broken unit, and the slice of C59 after it. *)
Definition C62_arrays : list box_array := [mkBA 1 33 [C59_sps]; mkBA 0 34 [C59_pps]].
Definition C62_header : hvcc_header := mkHH 0 1 2 (repeat 1 32) 0x900000000000 93 5 2 1 2 3 25 1 4 1 3 2.
Example C62_case : exists data us more box s1, byte_string data /\ box_ok C62_header C62_arrays /\ bits_of data = enc_box C62_header C62_arrays ++ [] /\
  map snd us = flat_map ba_nals C62_arrays /\ Forall (fun u => nal_ok (snd u)) (us ++ more) /\
  ParseConfigurationBox default_options data empty_state = Done (Some box, s1) /\
  match ParseBitstream default_options (annexb_stream more) s1 with Done (bs, _) => map (fun u => np_slice (nu_payload u)) (bs_units bs) = [Some C37_header] | Bad _ => False end.
Proof.
  set (data := pack (enc_box C62_header C62_arrays)).
  destruct (ParseConfigurationBox default_options data empty_state) as [[[box|] s1]|e] eqn:E.
  2,3: exfalso; assert (X : match ParseConfigurationBox default_options data empty_state with Done (Some _, _) => true | _ => false end = true) by (vm_compute; reflexivity); rewrite E in X; discriminate.
  exists data, [(true, C59_sps); (false, C59_pps)], [(true, C59_slice)], box, s1.
  split; [split; [apply bytes_check; vm_compute; reflexivity|vm_compute; reflexivity]|]. split; [|split; [vm_compute; reflexivity|]].
  - unfold box_ok, hvcc_header_ok, C62_header. split; [solve_ok|]. split; [reflexivity|]. unfold C62_arrays, box_array_ok, box_nal_ok.
    assert (N : forall x, forallb (fun x => (0 <=? x) && (x <? 256)) x = true -> (Z.of_nat (length x) <? 2 ^ 16) = true -> Forall is_byte x /\ Z.of_nat (length x) < 2 ^ 16) by (intros x H1 H2; split; [apply bytes_check, H1|lia]).
    constructor; [|constructor; [|constructor]]; cbn [ba_completeness ba_type ba_nals]; (split; [unfold u_ok; lia|]); (split; [unfold u_ok; lia|]); (split; [vm_compute; reflexivity|]).
    + constructor; [apply N; vm_compute; reflexivity|constructor].
    + constructor; [apply N; vm_compute; reflexivity|constructor].
  - split; [reflexivity|]. split.
    + cbn [app]. constructor; [exact (proj1 C59_units_ok)|]. constructor; [exact (proj1 (proj2 C59_units_ok))|]. constructor; [exact (proj2 (proj2 C59_units_ok))|constructor].
    + split; [exact E|].
      assert (X : match ParseConfigurationBox default_options data empty_state with Done (_, s) => match ParseBitstream default_options (annexb_stream [(true, C59_slice)]) s with Done (bs, _) => map (fun u => np_slice (nu_payload u)) (bs_units bs) | _ => [] end | _ => [] end = [Some C37_header]) by (vm_compute; reflexivity).
      rewrite E in X. destruct (ParseBitstream default_options (annexb_stream [(true, C59_slice)]) s1) as [[bs s2]|]; [exact X|discriminate].
Qed.
(** C60, C63: the units of C24 as packets. *)
Example C63_case : Forall byte_string (map snd C24_nals) /\ Forall (fun d => unit_type d <= 47) (map snd C24_nals) /\
  match rtp_all (map snd C24_nals) empty_state with
  | Done (l, _) => map (option_map (fun r => option_map (fun s => np_slice (rs_payload s)) (r_single r))) l = [Some (Some None); Some (Some None); Some (Some None); Some (Some (Some C37_header)); Some (Some None); Some (Some None)]
  | Bad _ => False
  end.
Proof.
  split; [exact C24_nals_bytes|]. split; [|vm_compute; reflexivity]. repeat (apply Forall_cons; [vm_compute; discriminate|]). apply Forall_nil.
Qed.
