(** Facts about NAL units, payload dispatch and the parameter set store (MNal.v). *)
From Coq Require Import ZArith List Bool Lia ZifyBool ZifyNat.
From Verif Require Import MBase MBitBuffer Spec BitsFacts Reader ReaderFacts Rules Syntax SyntaxSe MCommon CommonFacts PropsBits PropsCommon
  MFraming FramingFacts PropsFraming MSyntaxA SpecA FactsA Api PropsA MSyntaxB SpecB FactsB FactsRps PropsB MSps SpecSps FactsSps PropsSps
  MPps SpecPps FactsPps PropsPps MSlice SpecSlice FactsSlice PropsSlice MSei SpecSei FactsSei PropsSei MNal.
Import ListNotations.
Open Scope Z_scope.
Ltac Zify.zify_post_hook ::= Z.div_mod_to_equations.

(** * The parsers as a whole *)
Lemma wp_Vps : wp no_err ParseVps (fun r _ => vps_ok false (fst r) /\ u_ok 1 (snd r)).
Proof. eapply wp_weaken; [apply (wpa_finish no_err _ _ (vps_ok false) (enc_vps false)), wpa_exact, wp_vps|]. cbv beta. tauto. Qed.

Lemma zrun_concat n l x : In x l -> zrun n x -> zrun n (concat l).
Proof.
  intros H Z. induction l as [|y l IH]; [destruct H|]. cbn [concat]. destruct H as [->|H]; [apply zrun_app_l, Z|apply zrun_app_r; auto].
Qed.
Lemma rps_from_run num l : forall i, Forall poc_limits l \/ zrun 24 (enc_from i (fun i => enc_rps i num) l).
Proof.
  induction l as [|s l IH]; intros i; [left; constructor|]. destruct (poc_limits_run i num s) as [P|Z].
  - destruct (IH (i + 1)) as [F|Z]; [left; constructor; assumption|right; apply zrun_app_r, Z].
  - right. apply zrun_app_l, Z.
Qed.
Lemma sps_run s : Forall poc_limits (sps_st_ref_pic_set s) \/ zrun 24 (enc_sps false s).
Proof.
  destruct (rps_from_run (num_short_term_ref_pic_sets s) (sps_st_ref_pic_set s) 0) as [F|Z]; [left; exact F|right].
  unfold enc_sps. eapply zrun_concat; [|exact Z]. repeat (first [left; reflexivity|right]).
Qed.
Lemma wp_Sps : wp ovf_only ParseSps (fun r bs => sps_ok_out (fst r) /\ u_ok 1 (snd r) /\ (Forall poc_limits (sps_st_ref_pic_set (fst r)) \/ zrun 24 bs)).
Proof.
  eapply wp_weaken; [apply (wpa_finish ovf_only _ _ sps_ok_out (enc_sps false)), wpa_sps|]. cbv beta.
  intros [s x] bs (H1 & H2 & bs1 & bs2 & -> & A). cbn [fst snd] in *. split; [exact H1|]. split; [exact H2|].
  destruct (sps_run s) as [F|Z]; [left; exact F|right]. apply zrun_app_l.
  apply agree_eq in A. destruct A as [->|A]; [exact Z|]. eapply zrun_le; [|exact A]. lia.
Qed.
Lemma wp_Pps : wp ovf_only ParsePps (fun r _ => pps_ok_out (fst r) /\ u_ok 1 (snd r)).
Proof.
  unfold ParsePps, finish. eapply wp_bind; [apply wp_pps|]. cbv beta. intros s bs [Hs _] b W.
  destruct (finish_tail (fun s => nz (pps_extension_4bits s)) s b W) as (x & b' & bs2 & E1 & S & Hx & _). rewrite E1.
  exists bs2. split; [exact S|]. split; [exact Hs|exact Hx].
Qed.
Lemma wp_Aud : wp no_err ParseAud (fun r _ => u_ok 3 r).
Proof.
  unfold ParseAud. eapply wp_bind; [apply (wp_u_ok 3); lia|]. cbv beta. intros v bs [Hv _]. eapply wp_bind; [apply wp_attempt, wp_trailing|].
  cbv beta. intros o bs' _. apply wp_ret. exact Hv.
Qed.
Lemma wp_Sei : wp ovf_only ParseSei (fun r _ => ff_ok (payload_type r) /\ ff_ok (payload_size r) /\
   forall p, sei_payload_state r = Some p -> payload_ok false (payload_type r) (payload_size r) p).
Proof.
  unfold ParseSei. eapply wp_bind; [apply wp_err, wp_ff|]. cbv beta. intros t bs [Ht _]. eapply wp_bind; [apply wp_err, wp_ff|]. cbv beta. intros s bs' [Hs _].
  eapply wp_bind; [apply wp_attempt, wpa_payload; unfold ff_ok in Hs; lia|]. cbv beta. intros o bs'' Ho. apply wp_ret. cbn.
  split; [exact Ht|]. split; [exact Hs|]. intros p ->. apply Ho.
Qed.
Lemma wp_Slice st ty : state_ok st -> wp ovf_any (ParseSliceSegmentHeader ty st) (fun _ _ => True).
Proof. intros H. eapply wp_weaken; [apply (wp_slice ovf_any st ty H ovf_in_any); right; reflexivity|]. auto. Qed.

(** * Specification of the dispatch *)
(** What a parser returns, where it stops and its undefined behaviour, started at [b]. *)
Definition result {A} (m : M A) (b : bb) : option A := match m b with Ok a _ => Some a | _ => None end.
Definition stop {A} (m : M A) (b : bb) : bb := match m b with Ok _ b' => b' | Fail b' => b' | Err _ => b end.
Definition fault {A} (m : M A) (b : bb) : option err := match m b with Err e => Some e | _ => None end.

(** Table 7-1: types of coded slice segments (reserved types excluded). *)
Definition slice_nut (ty : Z) : bool := ((0 <=? ty) && (ty <=? 9)) || ((16 <=? ty) && (ty <=? 21)).
Definition payload_of (ty : Z) (st : state) (b : bb) : nal_payload :=
  mkNP (if ty =? 32 then result ParseVps b else None)
       (if ty =? 33 then result ParseSps b else None)
       (if ty =? 34 then result ParsePps b else None)
       (if ty =? 35 then result ParseAud b else None)
       (if slice_nut ty then result (ParseSliceSegmentHeader ty st) b else None)
       (if (ty =? 39) || (ty =? 40) then result ParseSei b else None).
Definition payload_stop (ty : Z) (st : state) (b : bb) : bb :=
  if slice_nut ty then stop (ParseSliceSegmentHeader ty st) b
  else if ty =? 32 then stop ParseVps b else if ty =? 33 then stop ParseSps b else if ty =? 34 then stop ParsePps b
  else if ty =? 35 then stop ParseAud b else if (ty =? 39) || (ty =? 40) then stop ParseSei b else b.
Definition payload_fault (ty : Z) (st : state) (b : bb) : option err :=
  if slice_nut ty then fault (ParseSliceSegmentHeader ty st) b
  else if ty =? 32 then fault ParseVps b else if ty =? 33 then fault ParseSps b else if ty =? 34 then fault ParsePps b
  else if ty =? 35 then fault ParseAud b else if (ty =? 39) || (ty =? 40) then fault ParseSei b else None.

(** The store after a payload: each parameter set under its own id. *)
Definition stored (p : nal_payload) (st : state) : state :=
  mkState
    (fun k => match np_vps p with Some v => if k =? vps_video_parameter_set_id (fst v) then Some v else st_vps st k | None => st_vps st k end)
    (fun k => match np_sps p with Some v => if k =? sps_seq_parameter_set_id (fst v) then Some v else st_sps st k | None => st_sps st k end)
    (fun k => match np_pps p with Some v => if k =? pps_pic_parameter_set_id (fst v) then Some v else st_pps st k | None => st_pps st k end).

Lemma attempt_result {A B} (m : M A) (f : option A -> M B) b :
  bind (attempt m) f b = match fault m b with Some e => Err e | None => f (result m b) (stop m b) end.
Proof. unfold bind, attempt, fault, result, stop. destruct (m b); reflexivity. Qed.

(** States with the same entries. *)
Definition same_state (s1 s2 : state) : Prop :=
  (forall k, st_vps s1 k = st_vps s2 k) /\ (forall k, st_sps s1 k = st_sps s2 k) /\ (forall k, st_pps s1 k = st_pps s2 k).
Definition stored' (p : nal_payload) (st : state) : state := store_pps (np_pps p) (store_sps (np_sps p) (store_vps (np_vps p) st)).
Lemma stored_eq p st : same_state (stored' p st) (stored p st).
Proof.
  unfold stored', stored, same_state, store_pps, store_sps, store_vps, upd.
  destruct (np_vps p), (np_sps p), (np_pps p); cbn; auto.
Qed.

Lemma case_slice ty : case_of [TRAIL_N; TRAIL_R; TSA_N; TSA_R; STSA_N; STSA_R; RADL_N; RADL_R; RASL_N; RASL_R] ty
     || case_of [BLA_W_LP; BLA_W_RADL; BLA_N_LP; IDR_W_RADL; IDR_N_LP; CRA_NUT] ty = slice_nut ty.
Proof.
  unfold case_of, slice_nut, TRAIL_N, TRAIL_R, TSA_N, TSA_R, STSA_N, STSA_R, RADL_N, RADL_R, RASL_N, RASL_R, BLA_W_LP, BLA_W_RADL, BLA_N_LP, IDR_W_RADL, IDR_N_LP, CRA_NUT.
  unfold existsb. lia.
Qed.
Lemma payload_spec ty st b : ParseNalUnitPayload ty st b =
  match payload_fault ty st b with
  | Some e => Err e
  | None => Ok (Some (payload_of ty st b), stored' (payload_of ty st b) st) (payload_stop ty st b)
  end.
Proof.
  unfold ParseNalUnitPayload, payload_fault, payload_stop, stored'. rewrite case_slice. unfold VPS_NUT, SPS_NUT, PPS_NUT, AUD_NUT, case_of, PREFIX_SEI_NUT, SUFFIX_SEI_NUT.
  unfold existsb. rewrite orb_false_r. unfold payload_of. destruct (slice_nut ty) eqn:S.
  { rewrite attempt_result. unfold slice_nut in S. replace (ty =? 32) with false by lia. replace (ty =? 33) with false by lia. replace (ty =? 34) with false by lia.
    replace (ty =? 35) with false by lia. replace ((ty =? 39) || (ty =? 40)) with false by lia.
    destruct (fault (ParseSliceSegmentHeader ty st) b); reflexivity. }
  destruct (Z.eqb_spec ty 32) as [->|N1]; [rewrite attempt_result; cbn [Z.eqb Pos.eqb orb]; destruct (fault ParseVps b); reflexivity|].
  destruct (Z.eqb_spec ty 33) as [->|N2]; [rewrite attempt_result; cbn [Z.eqb Pos.eqb orb]; destruct (fault ParseSps b); reflexivity|].
  destruct (Z.eqb_spec ty 34) as [->|N3]; [rewrite attempt_result; cbn [Z.eqb Pos.eqb orb]; destruct (fault ParsePps b); reflexivity|].
  destruct (Z.eqb_spec ty 35) as [->|N4]; [rewrite attempt_result; cbn [Z.eqb Pos.eqb orb]; destruct (fault ParseAud b); reflexivity|].
  destruct ((ty =? 39) || (ty =? 40)) eqn:E; [rewrite attempt_result; destruct (fault ParseSei b); reflexivity|]. reflexivity.
Qed.

(** * NAL units *)
Definition ceil_bytes (bits : Z) : Z := (bits + 7) / 8.
Lemma wf_offset b : wf b -> get_current_offset b = ceil_bytes (pos b).
Proof. intros (_ & _ & _ & H1 & H2 & _). unfold get_current_offset, ceil_bytes, pos. destruct (Z.eqb_spec (bb_bit b) 0); lia. Qed.

(** The unit found in the RBSP [rbsp] by ParseNalUnit. *)
Definition unit_of (opts : options) (rbsp : list Z) (h : nal_header) (st : state) : nal_unit :=
  mkNU 0 0 (ceil_bytes (pos (payload_stop (nal_unit_type h) st (adv (mk_bb rbsp) 16))))
    (if add_checksum opts then Some (ones_complement_checksum rbsp) else None) h (payload_of (nal_unit_type h) st (adv (mk_bb rbsp) 16)).

Lemma stop_wp E {A} (m : M A) Q b : wf b -> wp E m Q -> fault m b = None -> exists bs, steps b (stop m b) bs.
Proof.
  intros W H F. specialize (H b W). unfold fault, stop in *. destruct (m b); [destruct H as (bs & S & _); eauto|exact H|discriminate].
Qed.
Lemma fault_wp E {A} (m : M A) Q b e : wf b -> wp E m Q -> fault m b = Some e -> err_in E e (rem b).
Proof. intros W H F. specialize (H b W). unfold fault in F. destruct (m b); try discriminate. injection F as ->. exact H. Qed.
Lemma fault_none {A} (m : M A) Q b : wf b -> wp no_err m Q -> fault m b = None.
Proof. intros W H. destruct (fault m b) eqn:F; [destruct (fault_wp _ _ _ _ _ W H F)|reflexivity]. Qed.
Lemma payload_stop_steps ty st b : wf b -> state_ok st -> payload_fault ty st b = None -> exists bs, steps b (payload_stop ty st b) bs.
Proof.
  intros W S F. unfold payload_stop, payload_fault in *. destruct (slice_nut ty); [eapply stop_wp; [exact W|apply wp_Slice, S|exact F]|].
  destruct (ty =? 32); [eapply stop_wp; [exact W|apply wp_Vps|exact F]|].
  destruct (ty =? 33); [eapply stop_wp; [exact W|apply wp_Sps|exact F]|].
  destruct (ty =? 34); [eapply stop_wp; [exact W|apply wp_Pps|exact F]|].
  destruct (ty =? 35); [eapply stop_wp; [exact W|apply wp_Aud|exact F]|].
  destruct ((ty =? 39) || (ty =? 40)); [eapply stop_wp; [exact W|apply wp_Sei|exact F]|].
  exists []. apply steps_refl, W.
Qed.
Lemma payload_fault_ovf ty st b e : wf b -> state_ok st -> payload_fault ty st b = Some e -> e = SignedOverflow /\ (pocs_ok st -> zrun 24 (rem b)).
Proof.
  intros W S F. unfold payload_fault in F.
  assert (G : err_in ovf_only e (rem b) -> e = SignedOverflow /\ (pocs_ok st -> zrun 24 (rem b))) by (intros [H1 H2]; auto).
  destruct (slice_nut ty).
  { pose proof (C37_safe st ty b W S) as H. unfold fault in F. destruct (ParseSliceSegmentHeader ty st b); try discriminate. injection F as ->. exact H. }
  destruct (ty =? 32); [rewrite (fault_none _ _ _ W wp_Vps) in F; discriminate|].
  destruct (ty =? 33); [apply G; eapply fault_wp; [exact W|apply wp_Sps|exact F]|].
  destruct (ty =? 34); [apply G; eapply fault_wp; [exact W|apply wp_Pps|exact F]|].
  destruct (ty =? 35); [rewrite (fault_none _ _ _ W wp_Aud) in F; discriminate|].
  destruct ((ty =? 39) || (ty =? 40)); [apply G; eapply fault_wp; [exact W|apply wp_Sei|exact F]|discriminate].
Qed.

Lemma enc_nal_header_length h : length (enc_nal_header h) = 16%nat.
Proof. unfold enc_nal_header. cbn [concat]. rewrite !app_length, !length_enc_u. reflexivity. Qed.

Lemma app_inv_length {A} (l1 l2 r1 r2 : list A) : length l1 = length l2 -> l1 ++ r1 = l2 ++ r2 -> l1 = l2 /\ r1 = r2.
Proof.
  revert l2. induction l1 as [|x l1 IH]; intros [|y l2] L E; try discriminate; [auto|]. cbn in *. injection E as -> E.
  destruct (IH l2 ltac:(lia) E) as [-> ->]. auto.
Qed.
(** One call of ParseNalUnit, on the RBSP. *)
Lemma nal_unit_short opts rbsp st : byte_string rbsp -> (length rbsp < 2)%nat -> ParseNalUnitUnescaped opts rbsp st = Done (None, st).
Proof.
  intros [F L] Hl. unfold ParseNalUnitUnescaped, on_buffer_st, init_ok. replace (Z.of_nat (length rbsp) <=? u32_max) with true by (unfold u32_max; lia).
  pose proof (wf_mk rbsp F L) as W.
  assert (H : ParseNalUnitHeader (mk_bb rbsp) = Fail (stop ParseNalUnitHeader (mk_bb rbsp))).
  { destruct (C20_exact _ W) as [H1 H2]. unfold stop. destruct (ParseNalUnitHeader (mk_bb rbsp)) as [h b'|b'|e]; [|reflexivity|destruct H1].
    destruct (proj1 (H2 h b') eq_refl) as (_ & (rest & E) & _). apply (f_equal (@length bool)) in E. rewrite app_length, enc_nal_header_length in E.
    change (rem (mk_bb rbsp)) with (bits_of rbsp) in E. rewrite length_bits_of in E. lia. }
  unfold ParseNalUnitBuffer, sbind, lift. destruct (add_checksum opts).
  - unfold bind at 1 2 3. unfold attempt at 1. rewrite GetNaluChecksum_spec by (assumption || reflexivity). unfold sret, ret at 1 2, bind, attempt. rewrite H. reflexivity.
  - unfold sret, ret at 1, bind, attempt. rewrite H. reflexivity.
Qed.
Lemma nal_unit_long opts rbsp st : byte_string rbsp -> state_ok st -> (2 <= length rbsp)%nat -> exists h,
  nal_header_ok h /\ bits_of (firstn 2 rbsp) = enc_nal_header h /\ wf (adv (mk_bb rbsp) 16) /\
  ParseNalUnitUnescaped opts rbsp st = match payload_fault (nal_unit_type h) st (adv (mk_bb rbsp) 16) with
    | Some e => Bad e
    | None => Done (Some (unit_of opts rbsp h st), stored' (payload_of (nal_unit_type h) st (adv (mk_bb rbsp) 16)) st)
    end.
Proof.
  intros [F L] St Hl. pose proof (wf_mk rbsp F L) as W.
  assert (H : exists h, nal_header_ok h /\ bits_of (firstn 2 rbsp) = enc_nal_header h /\ wf (adv (mk_bb rbsp) 16) /\ ParseNalUnitHeader (mk_bb rbsp) = Ok h (adv (mk_bb rbsp) 16)).
  { destruct (C20_exact _ W) as [H1 H2]. pose proof (proj2 (C20_succeeds_iff_16_bits _ W)) as H3. rewrite remaining_spec in H3 by exact W.
    change (rem (mk_bb rbsp)) with (bits_of rbsp) in *. rewrite length_bits_of in H3. destruct (H3 ltac:(lia)) as (h & b' & E).
    exists h. pose proof (proj1 (H2 h b') E) as (Hh & (rest & Er) & ->). rewrite enc_nal_header_length in *.
    split; [exact Hh|]. split; [|split; [|exact E]].
    - rewrite <- (firstn_skipn 2 rbsp) in Er. rewrite bits_of_app in Er. apply app_inv_length in Er; [apply Er|].
      rewrite length_bits_of, firstn_length_le, enc_nal_header_length by lia. reflexivity.
    - rewrite E in H1. apply H1. }
  destruct H as (h & Hh & Eh & W16 & H). exists h. split; [exact Hh|]. split; [exact Eh|]. split; [exact W16|].
  unfold ParseNalUnitUnescaped, on_buffer_st, init_ok. replace (Z.of_nat (length rbsp) <=? u32_max) with true by (unfold u32_max; lia).
  set (cs := if add_checksum opts then Some (ones_complement_checksum rbsp) else None).
  assert (E : ParseNalUnitBuffer opts st (mk_bb rbsp) = match payload_fault (nal_unit_type h) st (adv (mk_bb rbsp) 16) with
    | Some e => Err e
    | None => let b' := payload_stop (nal_unit_type h) st (adv (mk_bb rbsp) 16) in
       Ok (Some (mkNU 0 0 (get_current_offset b') cs h (payload_of (nal_unit_type h) st (adv (mk_bb rbsp) 16))), stored' (payload_of (nal_unit_type h) st (adv (mk_bb rbsp) 16)) st) b'
    end).
  { unfold ParseNalUnitBuffer. unfold sbind at 1. unfold bind at 1.
    replace ((if add_checksum opts then c <~ lift GetNaluChecksum ;; sret (Some c) else sret None) st (mk_bb rbsp)) with (Ok (Some cs, st) (mk_bb rbsp)).
    2:{ unfold cs. destruct (add_checksum opts); [|reflexivity]. unfold sbind, lift, bind, attempt. rewrite GetNaluChecksum_spec by (assumption || reflexivity). reflexivity. }
    unfold sbind at 1, lift at 1. unfold bind at 1 2. unfold attempt at 1. rewrite H. unfold ret at 1. unfold sbind at 1. unfold bind at 1. rewrite payload_spec.
    destruct (payload_fault (nal_unit_type h) st (adv (mk_bb rbsp) 16)); reflexivity. }
  rewrite E. destruct (payload_fault (nal_unit_type h) st (adv (mk_bb rbsp) 16)) eqn:Fa; [reflexivity|]. cbv zeta.
  destruct (payload_stop_steps (nal_unit_type h) st (adv (mk_bb rbsp) 16) W16 St Fa) as (bs & S). unfold unit_of, cs.
  rewrite <- wf_offset by (eapply steps_wf; eassumption). reflexivity.
Qed.

(** * The store *)
(** Every entry is stored under its own id and is something the parser of its kind returns. *)
Definition store_ok (st : state) : Prop :=
  (forall k v x, st_vps st k = Some (v, x) -> vps_video_parameter_set_id v = k /\ vps_ok false v /\ u_ok 1 x) /\
  (forall k s x, st_sps st k = Some (s, x) -> sps_seq_parameter_set_id s = k /\ sps_ok_out s /\ u_ok 1 x) /\
  (forall k p x, st_pps st k = Some (p, x) -> pps_pic_parameter_set_id p = k /\ pps_ok_out p /\ u_ok 1 x).
Lemma store_state_ok st : store_ok st -> state_ok st.
Proof. intros (_ & H1 & H2). split; intros k s x E; [apply (H1 _ _ _ E)|apply (H2 _ _ _ E)]. Qed.
Lemma empty_store_ok : store_ok empty_state /\ pocs_ok empty_state.
Proof. split; [split; [|split]|]; intros k s x E; discriminate E. Qed.

Lemma result_wp E {A} (m : M A) Q b a : wf b -> wp E m Q -> result m b = Some a -> exists bs, steps b (stop m b) bs /\ Q a bs.
Proof. intros W H F. specialize (H b W). unfold result, stop in *. destruct (m b); try discriminate. injection F as ->. exact H. Qed.
Lemma payload_store_ok ty st b : wf b -> store_ok st -> store_ok (stored' (payload_of ty st b) st).
Proof.
  intros W (H1 & H2 & H3). destruct (stored_eq (payload_of ty st b) st) as (E1 & E2 & E3). unfold store_ok. unfold stored in *. cbn [st_vps st_sps st_pps] in *.
  split; [|split]; intros k v x; rewrite ?E1, ?E2, ?E3; unfold payload_of; cbn [np_vps np_sps np_pps].
  - destruct (ty =? 32); [|apply H1]. destruct (result ParseVps b) as [r|] eqn:R; [|apply H1].
    destruct (result_wp _ _ _ _ _ W wp_Vps R) as (bs & _ & Q1 & Q2). destruct (Z.eqb_spec k (vps_video_parameter_set_id (fst r))); [|apply H1].
    intros E. injection E as ->. cbn [fst snd] in *. auto.
  - destruct (ty =? 33); [|apply H2]. destruct (result ParseSps b) as [r|] eqn:R; [|apply H2].
    destruct (result_wp _ _ _ _ _ W wp_Sps R) as (bs & _ & Q1 & Q2 & _). destruct (Z.eqb_spec k (sps_seq_parameter_set_id (fst r))); [|apply H2].
    intros E. injection E as ->. cbn [fst snd] in *. auto.
  - destruct (ty =? 34); [|apply H3]. destruct (result ParsePps b) as [r|] eqn:R; [|apply H3].
    destruct (result_wp _ _ _ _ _ W wp_Pps R) as (bs & _ & Q1 & Q2). destruct (Z.eqb_spec k (pps_pic_parameter_set_id (fst r))); [|apply H3].
    intros E. injection E as ->. cbn [fst snd] in *. auto.
Qed.
Lemma payload_pocs_ok ty st b : wf b -> pocs_ok st -> pocs_ok (stored' (payload_of ty st b) st) \/ zrun 24 (rem b).
Proof.
  intros W H. destruct (stored_eq (payload_of ty st b) st) as (_ & E2 & _).
  assert (G : (forall r, np_sps (payload_of ty st b) = Some r -> Forall poc_limits (sps_st_ref_pic_set (fst r))) -> pocs_ok (stored' (payload_of ty st b) st)).
  { intros G k s x. rewrite E2. cbn [stored st_sps]. destruct (np_sps (payload_of ty st b)) as [r|]; [|apply H].
    destruct (k =? sps_seq_parameter_set_id (fst r)); [|apply H]. intros E. injection E as ->. apply (G (s, x) eq_refl). }
  unfold payload_of in G at 1. cbn [np_sps] in G. destruct (ty =? 33); [|left; apply G; discriminate].
  destruct (result ParseSps b) as [r|] eqn:R; [|left; apply G; discriminate].
  destruct (result_wp _ _ _ _ _ W wp_Sps R) as (bs & [S _] & _ & _ & [Q|Q]).
  - left. apply G. intros r' E. injection E as <-. exact Q.
  - right. rewrite S. apply zrun_app_l, Q.
Qed.

Lemma rem_adv16 rbsp : byte_string rbsp -> rem (adv (mk_bb rbsp) 16) = skipn 16 (bits_of rbsp).
Proof. intros [F L]. apply (rem_adv (mk_bb rbsp) 16), wf_mk; assumption. Qed.
Lemma zrun_skipn n k l : zrun n (skipn k l) -> zrun n l.
Proof. intros H. rewrite <- (firstn_skipn k l). apply zrun_app_r, H. Qed.

(** * Many units with one state *)
Fixpoint parse_all (opts : options) (ds : list (list Z)) (st : state) : outcome (list (option nal_unit) * state) :=
  match ds with
  | [] => Done ([], st)
  | d :: r =>
    match ParseNalUnit opts d st with
    | Bad e => Bad e
    | Done (u, st') =>
      match parse_all opts r st' with
      | Bad e => Bad e
      | Done (us, st'') => Done (u :: us, st'')
      end
    end
  end.
Lemma parse_all_app opts ds1 ds2 st : parse_all opts (ds1 ++ ds2) st =
  match parse_all opts ds1 st with
  | Bad e => Bad e
  | Done (us1, st1) => match parse_all opts ds2 st1 with Bad e => Bad e | Done (us2, st2) => Done (us1 ++ us2, st2) end
  end.
Proof.
  revert st. induction ds1 as [|d ds1 IH]; intros st; cbn [app parse_all].
  - destruct (parse_all opts ds2 st) as [[us2 st2]|e]; reflexivity.
  - destruct (ParseNalUnit opts d st) as [[u st']|e]; [|reflexivity]. rewrite IH. destruct (parse_all opts ds1 st') as [[us1 st1]|e]; [|reflexivity].
    destruct (parse_all opts ds2 st1) as [[us2 st2]|e]; reflexivity.
Qed.
(** The units that were parsed, with the ranges of their bytes. *)
Definition place (ix : nalu_index) (u : option nal_unit) : list nal_unit :=
  match u with Some u => [set_range (payload_start_offset ix) (MFraming.payload_size ix) u] | None => [] end.
Fixpoint placed (ixs : list nalu_index) (us : list (option nal_unit)) : list nal_unit :=
  match ixs, us with
  | ix :: ixs', u :: us' => place ix u ++ placed ixs' us'
  | _, _ => []
  end.
Definition in_bounds (data : list Z) (ix : nalu_index) : Prop :=
  0 <= payload_start_offset ix /\ 0 <= MFraming.payload_size ix /\ payload_start_offset ix + MFraming.payload_size ix <= Z.of_nat (length data).
Lemma bitstream_loop_spec opts data ixs : Forall (in_bounds data) ixs -> forall st,
  bitstream_loop opts data ixs st = match parse_all opts (map (payload data) ixs) st with
    | Bad e => Bad e
    | Done (us, st') => Done (placed ixs us, st')
    end.
Proof.
  induction 1 as [|ix ixs (H1 & H2 & H3) F IH]; intros st; [reflexivity|]. cbn [bitstream_loop map parse_all]. unfold sub.
  replace ((payload_start_offset ix <? 0) || (MFraming.payload_size ix <? 0) || (Z.of_nat (length data) <? payload_start_offset ix + MFraming.payload_size ix)) with false by lia.
  fold (payload data ix). destruct (ParseNalUnit opts (payload data ix) st) as [[[u|] st']|e]; [| |reflexivity]; rewrite IH;
    destruct (parse_all opts (map (payload data) ixs) st') as [[us st'']|e]; reflexivity.
Qed.
Lemma chained_bounds stop l : chained stop l -> (l <> [] -> match l with ix :: _ => start_offset ix <= stop | [] => True end) /\
  Forall (fun ix => 0 <= payload_start_offset ix /\ 0 <= MFraming.payload_size ix /\ payload_start_offset ix + MFraming.payload_size ix <= stop) l.
Proof.
  induction l as [|ix l IH]; [split; [intros C; contradiction (C eq_refl)|constructor]|]. intros (H1 & H2 & H3 & H4 & H5). destruct (IH H5) as [I1 I2]. destruct l as [|nx l].
  - split; [lia|]. constructor; [lia|constructor].
  - specialize (I1 ltac:(discriminate)). cbn beta iota in I1. split; [lia|]. constructor; [lia|exact I2].
Qed.
Lemma annexb_in_bounds data : Z.of_nat (length data) < 2 ^ 64 -> Forall (in_bounds data) (annexb_units data).
Proof.
  intros L. destruct (C15_ranges data (annexb_units data) L (C15_exact data L)) as [H _]. apply chained_bounds in H. exact (proj2 H).
Qed.
Lemma ParseBitstream_spec opts data st : Z.of_nat (length data) < 2 ^ 64 -> ParseBitstream opts data st =
  match parse_all opts (map (payload data) (annexb_units data)) st with
  | Bad e => Bad e
  | Done (us, st') => Done (mkBS default_options (placed (annexb_units data) us), st')
  end.
Proof.
  intros L. unfold ParseBitstream. rewrite (C15_exact data L), bitstream_loop_spec by (apply annexb_in_bounds, L).
  destruct (parse_all opts (map (payload data) (annexb_units data)) st) as [[us st']|e]; reflexivity.
Qed.

(** * Cutting a stream at the beginning of a start code *)
Definition shift_ix (q : nat) (ix : nalu_index) : nalu_index :=
  mkIx (Z.of_nat q + start_offset ix) (Z.of_nat q + payload_start_offset ix) (MFraming.payload_size ix).
(** A start code begins right after [d1]. *)
Definition cut_at_start_code (d1 d2 : list Z) : Prop :=
  exists p, In p (start_codes (d1 ++ d2)) /\ start_code_begin (d1 ++ d2) p = length d1.

Lemma cut_facts d1 d2 : cut_at_start_code d1 d2 ->
  (exists r, d2 = 0 :: 0 :: r) /\ (exists p0, is_start_code d2 p0 = true /\ start_code_begin d2 p0 = O /\ (p0 <= 1)%nat) /\
  (is_start_code d2 0 = true -> start_code_begin (d1 ++ d2) (length d1) = length d1).
Proof.
  intros (p & Hp & Hq). apply start_codes_In in Hp.
  assert (C : (p = length d1 /\ start_code_begin (d1 ++ d2) (length d1) = length d1) \/ (p = S (length d1) /\ nth (length d1) (d1 ++ d2) 1 = 0)).
  { unfold start_code_begin in Hq. destruct p as [|p]; [left; split; [exact Hq|unfold start_code_begin; rewrite <- Hq; reflexivity]|].
    destruct (Z.eqb_spec (nth p (d1 ++ d2) 1) 0) as [E|E].
    - right. subst p. auto.
    - left. split; [exact Hq|]. rewrite <- Hq. unfold start_code_begin. destruct (Z.eqb_spec (nth p (d1 ++ d2) 1) 0); [contradiction|reflexivity]. }
  destruct C as [[-> C]|[-> C]].
  - replace (length d1) with (length d1 + 0)%nat in Hp at 1 by lia. rewrite is_sc_app in Hp. pose proof Hp as Hp'. unfold is_start_code in Hp'. cbn [Nat.add] in Hp'.
    split; [|split; [|intros _; exact C]].
    + destruct d2 as [|x [|y r]]; cbn [nth length] in Hp'; [cbn in Hp'; lia|cbn in Hp'; lia|]. exists r. replace x with 0 by lia. replace y with 0 by lia. reflexivity.
    + exists O. split; [exact Hp|]. split; [reflexivity|lia].
  - replace (S (length d1)) with (length d1 + 1)%nat in Hp by lia. rewrite is_sc_app in Hp. pose proof Hp as Hp'. unfold is_start_code in Hp'. cbn [Nat.add] in Hp'.
    rewrite app_nth2, Nat.sub_diag in C by lia.
    split; [|split].
    + destruct d2 as [|x [|y r]]; cbn [nth length] in *; [cbn in Hp'; lia|cbn in Hp'; lia|]. exists r. rewrite C. replace y with 0 by lia. reflexivity.
    + exists 1%nat. split; [exact Hp|]. split; [|lia]. unfold start_code_begin. rewrite C. reflexivity.
    + intros H0. exfalso. unfold is_start_code in H0. cbn [Nat.add] in H0.
      assert ((2 < length d2)%nat) by lia. pose proof (nth10 d2 2 H). lia.
Qed.

Lemma start_codes_app d1 d2 : (exists r, d2 = 0 :: 0 :: r) -> (forall l, d1 <> l ++ [0; 0; 1]) ->
  start_codes (d1 ++ d2) = start_codes d1 ++ map (Nat.add (length d1)) (start_codes d2).
Proof.
  intros (r & E2) N. unfold start_codes. rewrite app_length, seq_app, filter_app. f_equal.
  - apply filter_ext_in. intros j Hj. apply in_seq in Hj. unfold is_start_code. rewrite app_length.
    destruct (le_lt_dec (length d1) (j + 3)) as [G|G].
    + replace (j + 3 <? length d1)%nat with false by lia. cbn [andb]. apply not_true_is_false. intros H.
      assert (J : (j + 3 = length d1 \/ j + 2 = length d1 \/ j + 1 = length d1)%nat) by lia. destruct J as [J|[J|J]].
      * apply (N (firstn j d1)). rewrite (nth_split3 d1 j ltac:(lia)) at 1. rewrite skipn_all2 by lia.
        rewrite !app_nth1 in H by lia. cbn [app]. replace (nth j d1 1) with 0 by lia. replace (nth (j + 1) d1 1) with 0 by lia. replace (nth (j + 2) d1 0) with 1 by lia. reflexivity.
      * rewrite (app_nth2 d1 d2 0 (n := j + 2)) in H by lia. replace (j + 2 - length d1)%nat with O in H by lia. rewrite E2 in H. cbn [nth] in H. lia.
      * rewrite (app_nth2 d1 d2 0 (n := j + 2)) in H by lia. replace (j + 2 - length d1)%nat with 1%nat in H by lia. rewrite E2 in H. cbn [nth] in H. lia.
    + replace (j + 3 <? length d1)%nat with true by lia. replace (j + 3 <? length d1 + length d2)%nat with true by lia. rewrite !app_nth1 by lia. reflexivity.
  - cbn [Nat.add]. assert (G : forall n i, filter (is_start_code (d1 ++ d2)) (seq (length d1 + i) n) = map (Nat.add (length d1)) (filter (is_start_code d2) (seq i n))).
    { induction n as [|n IH]; intros i; [reflexivity|]. cbn [seq filter]. rewrite is_sc_app. replace (S (length d1 + i)) with (length d1 + S i)%nat by lia. rewrite IH.
      destruct (is_start_code d2 i); reflexivity. }
    specialize (G (length d2) O). rewrite Nat.add_0_r in G. exact G.
Qed.
Lemma scb_left d1 d2 j : (j <= length d1)%nat -> start_code_begin (d1 ++ d2) j = start_code_begin d1 j.
Proof. intros H. unfold start_code_begin. destruct j as [|j]; [reflexivity|]. rewrite app_nth1 by lia. reflexivity. Qed.
Lemma units_shift d1 d2 ps : (forall j, In j ps -> start_code_begin (d1 ++ d2) (length d1 + j) = (length d1 + start_code_begin d2 j)%nat) ->
  units_at (d1 ++ d2) (map (Nat.add (length d1)) ps) = map (shift_ix (length d1)) (units_at d2 ps).
Proof.
  induction ps as [|p ps IH]; intros H; [reflexivity|]. cbn [map units_at]. rewrite IH by (intros; apply H; right; assumption). f_equal.
  unfold shift_ix. cbn [start_offset payload_start_offset MFraming.payload_size]. rewrite (H p) by (left; reflexivity). f_equal; [lia|lia|].
  destruct ps as [|p' ps]; cbn [map]; [rewrite app_length; lia|]. rewrite (H p') by (right; left; reflexivity). lia.
Qed.
Lemma units_app d1 d2 ps1 p0 ps2 : Forall (fun p => (p + 3 < length d1)%nat) ps1 ->
  (forall j, In j (p0 :: ps2) -> start_code_begin (d1 ++ d2) (length d1 + j) = (length d1 + start_code_begin d2 j)%nat) -> start_code_begin d2 p0 = O ->
  units_at (d1 ++ d2) (ps1 ++ map (Nat.add (length d1)) (p0 :: ps2)) = units_at d1 ps1 ++ map (shift_ix (length d1)) (units_at d2 (p0 :: ps2)).
Proof.
  intros F H H0. rewrite <- units_shift by exact H. induction F as [|p ps1 Hp F IH]; [reflexivity|]. cbn [app units_at]. f_equal; [|exact IH]. clear IH.
  f_equal; [rewrite scb_left by lia; reflexivity|].
  destruct ps1 as [|p' ps1]; cbn [app map].
  - rewrite H by (left; reflexivity). rewrite H0. lia.
  - inversion F; subst. rewrite scb_left by lia. reflexivity.
Qed.
Lemma start_codes_head d2 p0 : is_start_code d2 p0 = true -> (p0 <= 1)%nat -> start_code_begin d2 p0 = O -> exists ps, start_codes d2 = p0 :: ps.
Proof.
  intros H L B. unfold start_codes. assert (L2 : (p0 + 3 < length d2)%nat) by (unfold is_start_code in H; lia).
  destruct (length d2) as [|[|n]] eqn:E; [lia|lia|]. cbn [seq filter]. destruct p0 as [|[|p0]]; [rewrite H; eauto| |lia].
  assert (N : is_start_code d2 0 = false).
  { apply not_true_is_false. intros H0. unfold is_start_code in H, H0. cbn [Nat.add] in *. pose proof (nth10 d2 2 ltac:(lia)). lia. }
  rewrite N, H. eauto.
Qed.
Lemma annexb_app d1 d2 : cut_at_start_code d1 d2 -> (forall l, d1 <> l ++ [0; 0; 1]) ->
  annexb_units (d1 ++ d2) = annexb_units d1 ++ map (shift_ix (length d1)) (annexb_units d2).
Proof.
  intros C N. destruct (cut_facts d1 d2 C) as (E2 & (p0 & P1 & P2 & P3) & Z). unfold annexb_units. rewrite start_codes_app by assumption.
  destruct (start_codes_head d2 p0 P1 P3 P2) as [ps Eps]. rewrite Eps. apply units_app; [apply start_codes_bound| |exact P2].
  intros j Hj. rewrite <- Eps in Hj. destruct j as [|j]; [|apply scb_app; lia]. apply start_codes_In in Hj. rewrite !Nat.add_0_r. cbn [start_code_begin]. rewrite Z by exact Hj. lia.
Qed.

Lemma payload_left d1 d2 ix : in_bounds d1 ix -> payload (d1 ++ d2) ix = payload d1 ix.
Proof.
  intros (H1 & H2 & H3). unfold payload. rewrite skipn_app, firstn_app. rewrite skipn_length.
  replace (Z.to_nat (MFraming.payload_size ix) - (length d1 - Z.to_nat (payload_start_offset ix)))%nat with O by lia. cbn [firstn]. apply app_nil_r.
Qed.
Lemma payload_right d1 d2 ix : 0 <= payload_start_offset ix -> payload (d1 ++ d2) (shift_ix (length d1) ix) = payload d2 ix.
Proof.
  intros H. unfold payload, shift_ix. cbn [payload_start_offset MFraming.payload_size].
  replace (Z.to_nat (Z.of_nat (length d1) + payload_start_offset ix)) with (length d1 + Z.to_nat (payload_start_offset ix))%nat by lia.
  f_equal. rewrite skipn_app. rewrite skipn_all2 by lia. cbn [app]. f_equal. lia.
Qed.
Lemma placed_app ixs1 ixs2 us1 us2 : length us1 = length ixs1 -> placed (ixs1 ++ ixs2) (us1 ++ us2) = placed ixs1 us1 ++ placed ixs2 us2.
Proof.
  revert us1. induction ixs1 as [|ix ixs1 IH]; intros [|u us1] L; try discriminate; [reflexivity|]. cbn [app placed]. rewrite IH by (cbn in L; lia). apply app_assoc.
Qed.
Definition shift_unit (q : nat) (u : nal_unit) : nal_unit := set_range (Z.of_nat q + nu_offset u) (nu_length u) u.
Lemma placed_shift q ixs us : placed (map (shift_ix q) ixs) us = map (shift_unit q) (placed ixs us).
Proof.
  revert us. induction ixs as [|ix ixs IH]; intros [|u us]; try reflexivity. cbn [map placed]. rewrite IH, map_app. f_equal. destruct u; reflexivity.
Qed.
Lemma parse_all_length opts ds : forall st us st', parse_all opts ds st = Done (us, st') -> length us = length ds.
Proof.
  induction ds as [|d ds IH]; intros st us st' E; cbn [parse_all] in E; [injection E as <- <-; reflexivity|].
  destruct (ParseNalUnit opts d st) as [[u st1]|e]; [|discriminate]. destruct (parse_all opts ds st1) as [[us1 st2]|e] eqn:E2; [|discriminate].
  injection E as <- <-. cbn. f_equal. eapply IH, E2.
Qed.

(** * Length-prefixed streams *)
(** Units with their offsets; the reported length is always the size of the length field. *)
Fixpoint placed_nl (n : Z) (rs : list (Z * Z)) (us : list (option nal_unit)) : list nal_unit :=
  match rs, us with
  | r :: rs', u :: us' => (match u with Some u => [set_range (fst r) n u] | None => [] end) ++ placed_nl n rs' us'
  | _, _ => []
  end.
Lemma nalulength_fold opts data n rs : forall nals acc st, map (fun r => sub data (fst r) (snd r)) rs = map Done nals ->
  ofold (fun s r => nalulength_step opts data n s (fst r) (snd r)) rs (acc, st) =
  match parse_all opts nals st with
  | Bad e => Bad e
  | Done (us, st') => Done (rev (placed_nl n rs us) ++ acc, st')
  end.
Proof.
  induction rs as [|r rs IH]; intros [|x nals] acc st E; try discriminate; [reflexivity|]. cbn [map] in E. injection E as E1 E2.
  cbn [ofold parse_all]. unfold nalulength_step at 1. rewrite E1. cbn [fst snd]. destruct (ParseNalUnit opts x st) as [[[u|] st']|e]; [| |reflexivity];
    rewrite (IH nals) by exact E2; destruct (parse_all opts nals st') as [[us st'']|e]; try reflexivity.
  cbn [placed_nl app rev]. rewrite <- app_assoc. reflexivity.
Qed.
