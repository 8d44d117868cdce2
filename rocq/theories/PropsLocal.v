(** C49: parsing depends only on the bits consumed, and truncation is detected. *)
From Coq Require Import ZArith List Bool Lia ZifyBool ZifyNat.
From Verif Require Import MBase MBitBuffer Spec BitsFacts Reader ReaderFacts Rules Syntax SyntaxSe MCommon MSyntaxA SpecA Api MSyntaxB SpecB FactsB MSps SpecSps PropsSps MPps SpecPps PropsPps MSlice MSei PropsSei MNal MRtp FactsLocal.
Import ListNotations.
Open Scope Z_scope.
Open Scope monad_scope.
Ltac Zify.zify_post_hook ::= Z.div_mod_to_equations.

(** A successful call consumes some bits [bs]; from any buffer (of any size, at any position) that continues with the same bits the call returns the
    same value and consumes the same bits; on any buffer that ends somewhere inside them it fails. *)
Definition depends_only_on_consumed {A} (m : M A) : Prop :=
  forall b a b', wf b -> m b = Ok a b' ->
    exists bs, rem b = bs ++ rem b' /\ b' = adv b (length bs) /\
      (forall b2 rest, wf b2 -> rem b2 = bs ++ rest -> m b2 = Ok a (adv b2 (length bs))) /\
      (forall b2 k, wf b2 -> (k < length bs)%nat -> rem b2 = firstn k bs -> exists b3, m b2 = Fail b3).
Lemma local_depends {A} (m : M A) : local m -> depends_only_on_consumed m.
Proof. intros H b a b' W E. destruct (H b a b' W E I) as (bs & [S1 S2] & L & T). exists bs. auto. Qed.

(** The primitive readers. *)
Theorem C49_reader : (forall n, depends_only_on_consumed (ReadBits n)) /\ (forall n, depends_only_on_consumed (ReadBits64 n)) /\
  depends_only_on_consumed ReadExponentialGolomb /\ depends_only_on_consumed ReadSignedExponentialGolomb /\ (forall n, depends_only_on_consumed (ReadBytes n)).
Proof.
  split; [intros n; apply local_depends, local_bits|]. split; [intros n; apply local_depends, local_bits64|]. split; [apply local_depends, local_ue|].
  split; [apply local_depends, local_se|]. intros n. apply local_depends. unfold ReadBytes. lfield.
Qed.
(** The substructures. *)
Theorem C49_substructures :
  depends_only_on_consumed ParseNalUnitHeader /\ (forall present n, depends_only_on_consumed (ParseProfileTierLevel present n)) /\
  (forall n sp, depends_only_on_consumed (ParseSubLayerHrdParameters n sp)) /\ (forall common n, depends_only_on_consumed (ParseHrdParameters common n)) /\
  (forall n, depends_only_on_consumed (ParseVuiParameters n)) /\ depends_only_on_consumed ParseScalingListData /\
  (forall idx num sets m, depends_only_on_consumed (ParseStRefPicSet idx num sets m)) /\
  depends_only_on_consumed ParseSpsRangeExtension /\ depends_only_on_consumed ParseSpsMultilayerExtension /\ depends_only_on_consumed ParseSps3dExtension /\
  (forall cf l c, depends_only_on_consumed (ParseSpsSccExtension cf l c)) /\
  depends_only_on_consumed ParsePpsMultilayerExtension /\ depends_only_on_consumed ParsePpsSccExtension /\
  (forall cat n, depends_only_on_consumed (ParsePredWeightTable cat n)) /\ (forall ty size, depends_only_on_consumed (parse_payload ty size)) /\
  depends_only_on_consumed ParseHvccHeader.
Proof.
  repeat (split; [intros; apply local_depends; first [apply local_nal_header|apply local_ptl|apply local_sub_layer_hrd|apply local_hrd|apply local_vui|apply local_scaling_list_data|apply local_rps
    |apply local_sps_range_ext|apply local_sps_ml_ext|apply local_sps_3d_ext|apply local_sps_scc_ext|apply local_pps_ml_ext|apply local_pps_scc_ext|apply local_pwt|apply local_payload]|]).
  apply local_depends, local_hvcc_header.
Qed.
(** Slice segment headers, for a given store of parameter sets. *)
Theorem C49_slice : forall nut st, depends_only_on_consumed (ParseSliceSegmentHeader nut st).
Proof. intros nut st. apply local_depends, local_slice. Qed.

(** Parameter sets: after the structure proper come the extension data (which run to the end of the RBSP) and the trailing bits, whose absence is
    tolerated; so the structure is determined by, and needs, the bits [bs] before them.  The extension data flag (the last extension data bit) is not. *)
Definition set_depends_only_on_consumed {A} (P : A -> Prop) (m : M (A * Z)) : Prop :=
  forall b s x b', wf b -> m b = Ok (s, x) b' -> P s ->
    exists bs tail, rem b = bs ++ tail ++ rem b' /\ b' = adv b (length bs + length tail) /\
      (forall b2 rest, wf b2 -> rem b2 = bs ++ rest -> exists x2 b3, m b2 = Ok (s, x2) b3) /\
      (forall b2 k, wf b2 -> (k < length bs)%nat -> rem b2 = firstn k bs -> exists b3, m b2 = Fail b3).
Lemma local_finish {A} (P : A -> Prop) (has : A -> bool) (body : M A) : local_on P body -> set_depends_only_on_consumed P (finish has body).
Proof.
  intros H b s x b' W E Ps. unfold finish in *. unfold bind at 1 in E. destruct (body b) as [s0 b1|b1|e] eqn:E1; [|discriminate E|discriminate E].
  assert (W1 : wf b1 -> s0 = s /\ exists bs2, steps b1 b' bs2).
  { intros W1. destruct (finish_tail has s0 b1 W1) as (x2 & b2 & bs2 & E2 & S2 & _). rewrite E2 in E. injection E as <- _ <-. split; [reflexivity|eauto]. }
  assert (Hs : forall b1' , wf b1' -> forall y b2', bind (when (has s0) ext_data 0) (fun flag => bind (attempt rbsp_trailing_bits) (fun _ => ret (s0, flag))) b1' = Ok (s, y) b2' -> s0 = s).
  { intros b1' W1' y b2' Q. destruct (finish_tail has s0 b1' W1') as (x2 & b2 & bs2 & E2 & _). rewrite E2 in Q. congruence. }
  assert (Eq : s0 = s).
  { clear Hs. unfold bind in E. destruct (when (has s0) ext_data 0 b1) as [fl b2|b2|e]; [|discriminate E|discriminate E].
    destruct (attempt rbsp_trailing_bits b2) as [o b3|b3|e]; [|discriminate E|discriminate E]. unfold ret in E. congruence. }
  subst s0. destruct (H b s b1 W E1 Ps) as (bs & S & L & T). destruct (W1 (steps_wf _ _ _ W S)) as (_ & bs2 & S2).
  exists bs, bs2. destruct (steps_trans _ _ _ _ _ S S2) as [R A2]. rewrite <- app_assoc in R. rewrite app_length in A2. split; [exact R|]. split; [exact A2|]. split.
  - intros b2 rest Wb R2. unfold bind at 1. rewrite (L b2 rest Wb R2). destruct (finish_tail has s _ (wf_adv_app _ _ _ Wb R2)) as (x2 & b3 & bs3 & E3 & _). eauto.
  - intros b2 k Wb Hk R2. unfold bind at 1. destruct (T b2 k Wb Hk R2) as [b3 ->]. eauto.
Qed.
Theorem C49_vps : set_depends_only_on_consumed (fun _ => True) ParseVps.
Proof. apply local_finish, local_vps. Qed.
Theorem C49_sps : set_depends_only_on_consumed (fun _ => True) ParseSps.
Proof. apply local_finish, local_sps. Qed.


(** PPS: the result of the multilayer extension parser is not checked, so a PPS truncated inside that extension is still returned. *)
Lemma local_pps : local_on (fun s => pps_multilayer_extension_flag s = 0) ParsePpsBody.
Proof.
  unfold ParsePpsBody.
  repeat lazymatch goal with
  | |- local_on _ (bind (when _ (attempt _) _) _) => fail
  | |- local_on _ (bind _ _) => apply local_bind; [lfield|intro]
  end.
  match goal with |- local_on _ (bind (when (nz ?x) _ _) _) => destruct (nz x) eqn:N end.
  - apply local_never. intros b s b' E. inv_ok E. unfold ret in E. injection E as <- _. cbn [pps_multilayer_extension_flag]. intros ->. discriminate N.
  - unfold when at 1. apply local_bind; [apply local_ret|intro]. lfield.
Qed.
Theorem C49_pps_truncated : set_depends_only_on_consumed (fun s => pps_multilayer_extension_flag s = 0) ParsePps.
Proof. apply local_finish, local_pps. Qed.
(** With the multilayer extension, what is returned is still determined by the bits consumed as long as the extension was parsed. *)
Definition same_on {A} (P : A -> Prop) (m : M A) : Prop :=
  forall b a b', wf b -> m b = Ok a b' -> P a ->
    exists bs, steps b b' bs /\ forall b2 rest, wf b2 -> rem b2 = bs ++ rest -> m b2 = Ok a (adv b2 (length bs)).
Lemma same_local {A} (P : A -> Prop) (m : M A) : local_on P m -> same_on P m.
Proof. intros H b a b' W E Pa. destruct (H b a b' W E Pa) as (bs & S & L & _). eauto. Qed.
Lemma same_bind {A B} (P1 : A -> Prop) (P : B -> Prop) (m : M A) (f : A -> M B) : same_on P1 m -> (forall a, same_on P (f a)) ->
  (forall a b c b', f a b = Ok c b' -> P c -> P1 a) -> same_on P (bind m f).
Proof.
  intros Hm Hf HP b c b' W E Pc. unfold bind in E. destruct (m b) as [a b1|b1|e] eqn:E1; [|discriminate E|discriminate E].
  destruct (Hm b a b1 W E1 (HP _ _ _ _ E Pc)) as (bs1 & S1 & L1). pose proof (steps_wf _ _ _ W S1) as W1.
  destruct (Hf a b1 c b' W1 E Pc) as (bs2 & S2 & L2). exists (bs1 ++ bs2). split; [apply (steps_trans _ _ _ _ _ S1 S2)|].
  intros b2 rest W2 R. rewrite <- app_assoc in R. unfold bind. rewrite (L1 b2 _ W2 R).
  rewrite (L2 _ rest (wf_adv_app _ _ _ W2 R) (rem_adv_app _ _ _ W2 R)), adv_adv, app_length. reflexivity.
Qed.
Lemma same_attempt {A} (m : M A) : local m -> same_on (fun o => o <> None) (attempt m).
Proof.
  intros H b o b' W E No. unfold attempt in E. destruct (m b) as [a b1|b1|e] eqn:E1; [|congruence|discriminate E].
  injection E as <- <-. destruct (H b a b1 W E1 I) as (bs & S & L & _). exists bs. split; [exact S|].
  intros b2 rest W2 R. unfold attempt. rewrite (L b2 rest W2 R). reflexivity.
Qed.
Lemma same_pps : same_on (fun s => pps_multilayer_extension_flag s = 0 \/ pps_multilayer_extension s <> None) ParsePpsBody.
Proof.
  unfold ParsePpsBody.
  repeat lazymatch goal with
  | |- same_on _ (bind (when _ (attempt _) _) _) => fail
  | |- same_on _ (bind _ _) => apply (same_bind (fun _ => True)); [apply same_local; lfield|intro|intros; exact I]
  end.
  match goal with |- same_on _ (bind (when (nz ?x) _ _) _) => destruct (nz x) eqn:N end.
  - unfold when at 1. eapply (same_bind (fun o => o <> None)); [apply same_attempt, local_pps_ml_ext|intro; apply same_local; lfield|].
    intros o b s b' E. inv_ok E. unfold ret in E. injection E as <- _. cbn [pps_multilayer_extension_flag pps_multilayer_extension]. intros [->|Q]; [discriminate N|exact Q].
  - apply same_local. unfold when at 1. apply local_bind; [apply local_ret|intro]. lfield.
Qed.
Theorem C49_pps_same_value : forall b s x b', wf b -> ParsePps b = Ok (s, x) b' -> pps_multilayer_extension_flag s = 0 \/ pps_multilayer_extension s <> None ->
  exists bs tail, rem b = bs ++ tail ++ rem b' /\ b' = adv b (length bs + length tail) /\
    forall b2 rest, wf b2 -> rem b2 = bs ++ rest -> exists x2 b3, ParsePps b2 = Ok (s, x2) b3.
Proof.
  intros b s x b' W E Ps. unfold ParsePps, finish in *. apply bind_ok in E. destruct E as (s0 & b1 & E1 & E).
  assert (Eq : s0 = s).
  { pose proof E as E'. inv_ok E'. unfold ret in E'. congruence. }
  subst s0. destruct (same_pps b s b1 W E1 Ps) as (bs & S & L).
  destruct (finish_tail (fun s => nz (pps_extension_4bits s)) s b1 (steps_wf _ _ _ W S)) as (x2 & b2 & bs2 & E2 & S2 & _). rewrite E2 in E. injection E as _ <-.
  exists bs, bs2. destruct (steps_trans _ _ _ _ _ S S2) as [R A2]. rewrite <- app_assoc in R. rewrite app_length in A2. split; [exact R|]. split; [exact A2|].
  intros b3 rest Wb R2. unfold bind at 1. rewrite (L b3 rest Wb R2). destruct (finish_tail (fun s => nz (pps_extension_4bits s)) s _ (wf_adv_app _ _ _ Wb R2)) as (x3 & b4 & bs3 & E3 & _). eauto.
Qed.

(** SEI messages: the type and the size are determined; so is the payload when there is one, but a message truncated inside its payload is returned
    without it. *)
Lemma local_exact {A} (m : M A) ok enc : reads_exactly m ok enc -> local m.
Proof.
  intros H b a b' W E _. destruct (H b W) as [_ Hb]. apply Hb in E as E1. destruct E1 as (Oa & (rest & R) & ->). exists (enc a). split; [|split].
  - split; [|reflexivity]. rewrite (rem_adv_app _ _ _ W R). exact R.
  - intros b2 r2 W2 R2. apply (H b2 W2). eauto.
  - intros b2 k W2 Hk R2. destruct (H b2 W2) as [H0 H2]. destruct (m b2) as [a2 b3|b3|e] eqn:E2; [|eexists; reflexivity|destruct H0]. exfalso.
    destruct (proj1 (H2 a2 b3) eq_refl) as (Oa2 & (r2 & R3) & _).
    assert (E3 : m b = Ok a2 (adv b (length (enc a2)))).
    { apply Hb. split; [exact Oa2|]. split; [|reflexivity]. exists (r2 ++ skipn k (enc a) ++ rest). rewrite R, <- (firstn_skipn k (enc a)) at 1.
      rewrite <- R2, R3, <- !app_assoc. reflexivity. }
    rewrite E in E3. injection E3 as <- _. apply (f_equal (@length bool)) in R3. rewrite R2, app_length, firstn_length in R3. lia.
Qed.
Lemma local_read_ff : local read_ff.
Proof. apply (local_exact _ _ _ C40_header_number). Qed.
Lemma same_sei : same_on (fun s => sei_payload_state s <> None) ParseSei.
Proof.
  unfold ParseSei. apply (same_bind (fun _ => True)); [apply same_local, local_read_ff|intro t|intros; exact I].
  apply (same_bind (fun _ => True)); [apply same_local, local_read_ff|intro n|intros; exact I].
  apply (same_bind (fun o => o <> None)); [apply same_attempt, local_payload|intro p; apply same_local, local_ret|].
  intros p b s b' E. unfold ret in E. injection E as <- _. auto.
Qed.
(** What is missing in [C49_sei_same]: a truncated payload is not reported ([C49_sei_refuted]), and the result without a payload depends on how
    long the buffer is. *)
Theorem C49_sei_same : forall b s b', wf b -> ParseSei b = Ok s b' -> sei_payload_state s <> None ->
  exists bs, rem b = bs ++ rem b' /\ b' = adv b (length bs) /\ forall b2 rest, wf b2 -> rem b2 = bs ++ rest -> ParseSei b2 = Ok s (adv b2 (length bs)).
Proof. intros b s b' W E P. destruct (same_sei b s b' W E P) as (bs & [S1 S2] & L). exists bs. auto. Qed.
(** The type and the size of a message are determined by the bits of its header, and a message truncated inside its header is refused. *)
Theorem C49_sei_header : forall b s b', wf b -> ParseSei b = Ok s b' ->
  exists bs rest, rem b = bs ++ rest /\
    (forall b2 rest2, wf b2 -> rem b2 = bs ++ rest2 ->
       match ParseSei b2 with
       | Ok s2 _ => payload_type s2 = payload_type s /\ MSei.payload_size s2 = MSei.payload_size s
       | Fail _ => False
       | Err _ => True
       end) /\
    (forall b2 k, wf b2 -> (k < length bs)%nat -> rem b2 = firstn k bs -> exists b3, ParseSei b2 = Fail b3).
Proof.
  assert (Lh : local (bind read_ff (fun t => bind read_ff (fun n => ret (t, n))))) by (apply local_bind; [apply local_read_ff|intro]; apply local_bind; [apply local_read_ff|intro; apply local_ret]).
  intros b s b' W E. unfold ParseSei in *. inv_ok E. unfold ret in E. injection E as <- _.
  destruct (Lh b (r, r0) b1 W) as (bs & [S _] & L & T); [unfold bind; rewrite E0, E1; reflexivity|exact I|].
  exists bs, (rem b1). split; [exact S|]. split.
  - intros b3 rest2 W3 R3. specialize (L b3 rest2 W3 R3). apply bind_ok in L. destruct L as (t & b4 & Et & L). apply bind_ok in L. destruct L as (n & b5 & En & L).
    unfold ret in L. injection L as -> -> _. unfold bind. rewrite Et, En. unfold attempt, ret. destruct (parse_payload r r0 b5); cbn; auto.
  - intros b3 k W3 Hk R3. destruct (T b3 k W3 Hk R3) as [b4 Q]. exists b4. unfold bind in Q |- *. destruct (read_ff b3) as [t b5|b5|e]; [|congruence|discriminate Q].
    destruct (read_ff b5) as [n b6|b6|e]; [discriminate Q|congruence|discriminate Q].
Qed.
Theorem C49_sei_refuted : exists full short s s', short = firstn 6 full /\ (length short < length full)%nat /\
  on_data ParseSei full = Done (Some s) /\ sei_payload_state s <> None /\ on_data ParseSei short = Done (Some s') /\ sei_payload_state s' = None.
Proof.
  exists [4; 6; 181; 1; 2; 3; 4; 5], [4; 6; 181; 1; 2; 3], (mkSEI 4 6 (Some (P_t35 (mkT35 181 0 [1; 2; 3; 4; 5])))), (mkSEI 4 6 None).
  split; [reflexivity|]. split; [cbn; lia|]. split; [vm_compute; reflexivity|]. split; [discriminate|]. split; [vm_compute; reflexivity|reflexivity].
Qed.

(** A PPS whose last bytes, inside its multilayer extension, are cut off is still returned. *)
Definition C49_pps_full : list Z := pack (enc_pps false (mkPPS 0 0 0 0 0 0 0 0 0 0 0 0 0 0 0 0 0 0 0 0 0 0 0 0 0 [] [] 0 0 0 0 0 0 0 0 None 0 0 0 1 0 1 0 0 0
  (Some (mkPML 0 0 0 1 [mkRL 5 1 (Some (mkQ 100 200 300 400)) 0 None 0 None] 0)) None) ++ [true]).
Theorem C49_pps_refuted : exists short s x s' x', short = firstn 8 C49_pps_full /\ (length short < length C49_pps_full)%nat /\
  on_data ParsePps C49_pps_full = Done (Some (s, x)) /\ pps_multilayer_extension s <> None /\
  on_data ParsePps short = Done (Some (s', x')) /\ pps_multilayer_extension s' = None.
Proof.
  do 5 eexists. split; [reflexivity|]. split; [vm_compute; lia|]. split; [vm_compute; reflexivity|]. split; [discriminate|]. split; [vm_compute; reflexivity|reflexivity].
Qed.

(** Access unit delimiters: the first three bits. *)
Theorem C49_aud : forall b pt b', wf b -> ParseAud b = Ok pt b' ->
  exists bs rest, length bs = 3%nat /\ rem b = bs ++ rest /\
    (forall b2 rest2, wf b2 -> rem b2 = bs ++ rest2 -> exists b3, ParseAud b2 = Ok pt b3) /\
    (forall b2 k, wf b2 -> (k < 3)%nat -> rem b2 = firstn k bs -> exists b3, ParseAud b2 = Fail b3).
Proof.
  intros b pt b' W E. unfold ParseAud in *. inv_ok E. unfold ret in E. injection E as <- _.
  destruct (local_bits 3 b r b0 W E0 I) as (bs & [S A] & L & T).
  assert (Len : length bs = 3%nat).
  { rewrite (ReadBits_spec 3 b W ltac:(lia)) in E0. destruct (_ && _) eqn:C; [|discriminate E0]. injection E0 as _ E0.
    assert (P : pos b0 = pos b + 3) by (rewrite <- E0; apply (pos_adv b 3%nat)). 
    assert (P' : pos b0 = pos b + Z.of_nat (length bs)). { rewrite A. apply pos_adv. } lia. }
  exists bs, (rem b0). split; [exact Len|]. split; [exact S|]. split.
  - intros b3 r2 W3 R3. unfold bind at 1. rewrite (L b3 r2 W3 R3). unfold bind.
    destruct (attempt_trailing_total _ (wf_adv_app _ _ _ W3 R3)) as (o & b4 & bs4 & -> & _). unfold ret. eauto.
  - intros b3 k W3 Hk R3. unfold bind at 1. destruct (T b3 k W3 ltac:(lia) R3) as [b4 ->]. eauto.
Qed.

(** The SPS of C31_case: every proper prefix short enough to cut into the structure is refused, the whole is accepted whatever follows. *)
Example C49_case : exists bytes, on_data ParseSps bytes = Done (Some (C31_sps, 0)) /\ on_data ParseSps (bytes ++ [1; 2; 3]) = Done (Some (C31_sps, 0)) /\
  (forall k, (k < 40)%nat -> on_data ParseSps (firstn k bytes) = Done None) /\ (40 < length bytes)%nat.
Proof.
  exists (pack (enc_sps true C31_sps ++ [true])). split; [vm_compute; reflexivity|]. split; [vm_compute; reflexivity|]. split; [|vm_compute; lia].
  assert (Q : forallb (fun k => match on_data ParseSps (firstn k (pack (enc_sps true C31_sps ++ [true]))) with Done None => true | _ => false end) (seq 0 40) = true) by (vm_compute; reflexivity).
  intros k Hk. rewrite forallb_forall in Q. specialize (Q k ltac:(apply in_seq; lia)). destruct (on_data _ _) as [[s|]|]; [discriminate Q|reflexivity|discriminate Q].
Qed.
