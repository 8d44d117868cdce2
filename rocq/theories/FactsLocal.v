(** Rules for C49: parsers whose result depends only on the bits they consume, and which fail on any shorter input. *)
From Coq Require Import ZArith List Bool Lia ZifyBool ZifyNat.
From Verif Require Import MBase MBitBuffer Spec BitsFacts Reader ReaderFacts Rules Syntax SyntaxSe MCommon MSyntaxA MSyntaxB MSps MPps MSlice MSei MNal MRtp.
Import ListNotations.
Open Scope Z_scope.
Open Scope monad_scope.
Ltac Zify.zify_post_hook ::= Z.div_mod_to_equations.

(** Whenever [m] returns an [a] with [P a], it has consumed some bits [bs]; from any buffer that continues with [bs] it returns the same [a] and
    consumes the same bits; on any buffer that ends before the end of [bs] it fails. *)
Definition local_on {A} (P : A -> Prop) (m : M A) : Prop :=
  forall b a b', wf b -> m b = Ok a b' -> P a ->
    exists bs, steps b b' bs /\
      (forall b2 rest, wf b2 -> rem b2 = bs ++ rest -> m b2 = Ok a (adv b2 (length bs))) /\
      (forall b2 k, wf b2 -> (k < length bs)%nat -> rem b2 = firstn k bs -> exists b3, m b2 = Fail b3).
Definition local {A} (m : M A) : Prop := local_on (fun _ => True) m.

Lemma bind_ok {A B} (m : M A) (f : A -> M B) b c b' : bind m f b = Ok c b' -> exists a b1, m b = Ok a b1 /\ f a b1 = Ok c b'.
Proof. unfold bind. destruct (m b) as [a b1|b1|e]; intros E; [eauto|discriminate E|discriminate E]. Qed.
Ltac inv_ok H := repeat (let a := fresh "r" in let b := fresh "b" in let E := fresh "E" in apply bind_ok in H; destruct H as (a & b & E & H)).
Lemma local_weaken {A} (P : A -> Prop) m : local m -> local_on P m.
Proof. intros H b a b' W E _. exact (H b a b' W E I). Qed.
Lemma local_never {A} (P : A -> Prop) m : (forall b a b', m b = Ok a b' -> ~ P a) -> local_on P m.
Proof. intros H b a b' W E Pa. destruct (H _ _ _ E Pa). Qed.
Lemma local_ret {A} (P : A -> Prop) (a : A) : local_on P (ret a).
Proof.
  intros b a' b' W E _. unfold ret in *. injection E as <- <-. exists []. split; [apply steps_refl, W|]. split.
  - intros b2 rest W2 _. cbn [length]. rewrite adv_0 by exact W2. reflexivity.
  - intros b2 k _ Hk _. cbn in Hk. lia.
Qed.
Lemma local_fail {A} (P : A -> Prop) : local_on P (@fail A).
Proof. intros b a b' W E. discriminate E. Qed.
Lemma local_throw {A} (P : A -> Prop) e : local_on P (@throw A e).
Proof. intros b a b' W E. discriminate E. Qed.
Lemma local_bind {A B} (P : B -> Prop) (m : M A) (f : A -> M B) : local m -> (forall a, local_on P (f a)) -> local_on P (bind m f).
Proof.
  intros Hm Hf b c b' W E Pc. unfold bind in E. destruct (m b) as [a b1|b1|e] eqn:E1; [|discriminate E|discriminate E].
  destruct (Hm b a b1 W E1 I) as (bs1 & S1 & L1 & T1). pose proof (steps_wf _ _ _ W S1) as W1.
  destruct (Hf a b1 c b' W1 E Pc) as (bs2 & S2 & L2 & T2). exists (bs1 ++ bs2). split; [apply (steps_trans _ _ _ _ _ S1 S2)|]. split.
  - intros b2 rest W2 R. rewrite <- app_assoc in R. unfold bind. rewrite (L1 b2 _ W2 R).
    rewrite (L2 _ rest (wf_adv_app _ _ _ W2 R) (rem_adv_app _ _ _ W2 R)), adv_adv, app_length. reflexivity.
  - intros b2 k W2 Hk R. rewrite app_length in Hk. unfold bind. destruct (Nat.lt_ge_cases k (length bs1)) as [K|K].
    + rewrite firstn_app in R. replace (k - length bs1)%nat with O in R by lia. cbn [firstn] in R. rewrite app_nil_r in R.
      destruct (T1 b2 k W2 K R) as [b3 ->]. eexists. reflexivity.
    + rewrite firstn_app, (firstn_all2 bs1) in R by lia. rewrite (L1 b2 _ W2 R).
      destruct (T2 (adv b2 (length bs1)) (k - length bs1)%nat (wf_adv_app _ _ _ W2 R)) as [b3 ->]; [lia|apply (rem_adv_app _ _ _ W2 R)|]. eexists. reflexivity.
Qed.
Lemma local_if {A} (P : A -> Prop) (c : bool) (m1 m2 : M A) : (c = true -> local_on P m1) -> (c = false -> local_on P m2) -> local_on P (if c then m1 else m2).
Proof. destruct c; auto. Qed.
Lemma local_when {A} (P : A -> Prop) (c : bool) (m : M A) (d : A) : (c = true -> local_on P m) -> local_on P (when c m d).
Proof. intros H. unfold when. destruct c; [auto|apply local_ret]. Qed.
Lemma local_guard (c : bool) : local (guard c).
Proof. unfold guard. destruct c; [apply local_ret|apply local_fail]. Qed.
Lemma local_at {A} (l : list A) i : local (at_ l i).
Proof. unfold at_. destruct (if i <? 0 then None else nth_error l (Z.to_nat i)); [apply local_ret|apply local_throw]. Qed.
Lemma local_chk x : local (chk_i32 x).
Proof. unfold chk_i32. destruct (in_i32 x); [apply local_ret|apply local_throw]. Qed.
Lemma local_ext {A} (P : A -> Prop) (m m' : M A) : (forall b, m b = m' b) -> local_on P m' -> local_on P m.
Proof.
  intros H L b a b' W E Pa. rewrite H in E. destruct (L b a b' W E Pa) as (bs & S & L1 & T). exists bs. split; [exact S|]. split.
  - intros b2 rest. rewrite H. apply L1.
  - intros b2 k W2 Hk R. rewrite H. apply (T b2 k W2 Hk R).
Qed.
Lemma local_collect {A} n (body : Z -> M A) : (forall i, local (body i)) -> local (collect n body).
Proof.
  intros H. apply (local_ext _ _ _ (collect_nat_eq n body)). generalize (Z.to_nat n) as k. generalize 0 as i. intros i k. revert i.
  induction k as [|k IH]; intros i; cbn [collect_nat]; [apply local_ret|]. apply local_bind; [apply H|]. intros x.
  apply local_bind; [apply IH|]. intros l. apply local_ret.
Qed.
Lemma local_for {A} n (body : Z -> A -> M A) a : (forall i x, local (body i x)) -> local (for_loop n body a).
Proof.
  intros H. apply (local_ext _ _ _ (for_loop_nat n body a)). generalize (Z.to_nat n) as k. generalize 0 as i. intros i k. revert i a.
  induction k as [|k IH]; intros i a; cbn [for_nat]; [apply local_ret|]. apply local_bind; [apply H|]. intros x. apply IH.
Qed.

(** * Reading *)
Lemma firstn_rem_long b bs (k n : nat) : rem b = firstn k bs -> (k < n)%nat -> (length (rem b) < n)%nat.
Proof. intros -> H. rewrite firstn_length. lia. Qed.
Lemma local_bits n : local (ReadBits n).
Proof.
  intros b a b' W E _. destruct (Z.ltb_spec 0 n) as [Hn|Hn].
  - rewrite (ReadBits_spec n b W Hn) in E. destruct (_ && _) eqn:C; [|discriminate E]. injection E as <- <-.
    assert (Len : length (firstn (Z.to_nat n) (rem b)) = Z.to_nat n) by (rewrite firstn_length; lia).
    exists (firstn (Z.to_nat n) (rem b)). rewrite Len. split; [|split].
    + split; [|rewrite Len; reflexivity]. rewrite rem_adv by exact W. symmetry. apply firstn_skipn.
    + intros b2 rest W2 R. rewrite (ReadBits_spec n b2 W2 Hn), R, app_length, Len.
      replace (_ && _) with true by lia. rewrite firstn_app, Len, Nat.sub_diag, firstn_firstn, Nat.min_id. cbn [firstn]. rewrite app_nil_r. reflexivity.
    + intros b2 k W2 Hk R. rewrite (ReadBits_spec n b2 W2 Hn). pose proof (firstn_rem_long _ _ _ _ R Hk).
      replace (_ && _) with false by lia. eexists. reflexivity.
  - exfalso. unfold ReadBits, PeekBits, PeekBits_w, bind in E. replace (0 <? n) with false in E by lia. discriminate E.
Qed.
Lemma local_bits64 n : local (ReadBits64 n).
Proof.
  intros b a b' W E _. destruct (Z.ltb_spec 0 n) as [Hn|Hn].
  - rewrite (ReadBits64_spec n b W Hn) in E. destruct (_ && _) eqn:C; [|discriminate E]. injection E as <- <-.
    assert (Len : length (firstn (Z.to_nat n) (rem b)) = Z.to_nat n) by (rewrite firstn_length; lia).
    exists (firstn (Z.to_nat n) (rem b)). rewrite Len. split; [|split].
    + split; [|rewrite Len; reflexivity]. rewrite rem_adv by exact W. symmetry. apply firstn_skipn.
    + intros b2 rest W2 R. rewrite (ReadBits64_spec n b2 W2 Hn), R, app_length, Len.
      replace (_ && _) with true by lia. rewrite firstn_app, Len, Nat.sub_diag, firstn_firstn, Nat.min_id. cbn [firstn]. rewrite app_nil_r. reflexivity.
    + intros b2 k W2 Hk R. rewrite (ReadBits64_spec n b2 W2 Hn). pose proof (firstn_rem_long _ _ _ _ R Hk).
      replace (_ && _) with false by lia. eexists. reflexivity.
  - exfalso. unfold ReadBits64, PeekBits64, PeekBits_w, bind in E. replace (0 <? n) with false in E by lia. discriminate E.
Qed.
Lemma local_ue : local ReadExponentialGolomb.
Proof.
  intros b a b' W E _. pose proof (wp_ue b W) as H. rewrite E in H. destruct H as (bs & S & Ha & ->). exists (enc_ue a). split; [exact S|]. split.
  - intros b2 rest W2 R. apply (parses_ue a Ha b2 rest W2 R).
  - intros b2 k W2 Hk R. pose proof (wp_ue b2 W2) as H2. destruct (ReadExponentialGolomb b2) as [a2 b3|b3|e] eqn:E2; [|eexists; reflexivity|destruct H2].
    exfalso. destruct H2 as (bs2 & [R2 _] & Ha2 & ->). assert (Q : enc_ue a = enc_ue a2 ++ (rem b3 ++ skipn k (enc_ue a))).
    { rewrite app_assoc, <- R2, R. symmetry. apply firstn_skipn. }
    pose proof (f_equal (@length bool) Q) as QL. rewrite !app_length, skipn_length in QL.
    assert (Z1 : lead0 (enc_ue a) = ue_zeros a) by (rewrite <- (app_nil_r (enc_ue a)); apply lead0_enc_ue; lia).
    assert (Z2 : lead0 (enc_ue a) = ue_zeros a2) by (rewrite Q; apply lead0_enc_ue; lia).
    rewrite !length_enc_ue in QL. rewrite length_enc_ue in Hk. lia.
Qed.
Lemma local_se : local ReadSignedExponentialGolomb.
Proof.
  apply local_bind; [apply local_ue|]. intros u. apply local_if; intros _; [apply local_ret|]. apply local_bind; [apply local_chk|]. intros s. apply local_ret.
Qed.

(** * The structures *)
Create HintDb local_db.
Lemma local_some {A} (m : M A) : local m -> local (some m).
Proof. intros H. unfold some. apply local_bind; [exact H|]. intros x. apply local_ret. Qed.
Ltac lfield :=
  lazymatch goal with
  | |- local_on _ (ReadBits _) => apply local_weaken, local_bits
  | |- local_on _ (ReadBits64 _) => apply local_weaken, local_bits64
  | |- local_on _ ReadUInt8 => apply local_weaken, local_bits
  | |- local_on _ ReadExponentialGolomb => apply local_weaken, local_ue
  | |- local_on _ ReadSignedExponentialGolomb => apply local_weaken, local_se
  | |- local_on _ (ret _) => apply local_ret
  | |- local_on _ fail => apply local_fail
  | |- local_on _ (throw _) => apply local_throw
  | |- local_on _ (guard _) => apply local_weaken, local_guard
  | |- local_on _ (at_ _ _) => apply local_weaken, local_at
  | |- local_on _ (chk_i32 _) => apply local_weaken, local_chk
  | |- local_on _ (bind _ _) => apply local_bind; [lfield|intro; lfield]
  | |- local_on _ (when _ _ _) => apply local_when; intros _; lfield
  | |- local_on _ (if _ then _ else _) => apply local_if; intros _; lfield
  | |- local_on _ (collect _ _) => apply local_weaken, local_collect; intro; lfield
  | |- local_on _ (for_loop _ _ _) => apply local_weaken, local_for; intros ? ?; lfield
  | |- local_on _ (some _) => apply local_weaken, local_some; lfield
  | |- local_on _ (let '(_, _) := ?x in _) => destruct x; lfield
  | |- local_on _ (match ?x with Some _ => _ | None => _ end) => destruct x; lfield
  | |- local ?m => change (local_on (fun _ => True) m); lfield
  | |- local_on _ _ => first [solve [eauto with local_db] | apply local_weaken; solve [eauto with local_db]]
  end.
Lemma local_ue_max k : local (ReadUeMax k). Proof. unfold ReadUeMax. lfield. Qed.
Lemma local_bits_max n k : local (ReadBitsMax n k). Proof. unfold ReadBitsMax. lfield. Qed.
Lemma local_hilo k : local (ReadHiLo k). Proof. unfold ReadHiLo. lfield. Qed.
Lemma local_fixed n v : local (ReadFixed n v). Proof. unfold ReadFixed. lfield. Qed.
Lemma local_fmap {A B} (f : A -> B) (m : M A) : local m -> local (fmap f m).
Proof. intros H. unfold fmap. apply local_bind; [exact H|]. intros x. apply local_ret. Qed.
#[global] Hint Resolve local_ue_max local_bits_max local_hilo local_fixed local_some local_fmap : local_db.

Lemma local_nal_header : local ParseNalUnitHeader. Proof. unfold ParseNalUnitHeader. lfield. Qed.
Lemma local_profile_info : local ParseProfileInfo. Proof. unfold ParseProfileInfo. lfield. Qed.
#[global] Hint Resolve local_nal_header local_profile_info : local_db.
Lemma local_ptl present n : local (ParseProfileTierLevel present n).
Proof. unfold ParseProfileTierLevel, read_sub_layer_flags, read_sub_layer. lfield. Qed.
Lemma local_sub_layer_hrd n sp : local (ParseSubLayerHrdParameters n sp).
Proof. unfold ParseSubLayerHrdParameters, read_cpb_entry. lfield. Qed.
#[global] Hint Resolve local_ptl local_sub_layer_hrd : local_db.
Lemma local_hrd common n : local (ParseHrdParameters common n).
Proof. unfold ParseHrdParameters, read_hrd_sub. lfield. Qed.
#[global] Hint Resolve local_hrd : local_db.
Lemma local_vui n : local (ParseVuiParameters n).
Proof. unfold ParseVuiParameters. lfield. Qed.
#[global] Hint Resolve local_vui : local_db.
Lemma local_vps : local ParseVpsBody.
Proof. unfold ParseVpsBody, read_ordering_info, read_vps_hrd. lfield. Qed.
Lemma local_sps_range_ext : local ParseSpsRangeExtension. Proof. unfold ParseSpsRangeExtension. lfield. Qed.
Lemma local_sps_ml_ext : local ParseSpsMultilayerExtension. Proof. unfold ParseSpsMultilayerExtension. lfield. Qed.
Lemma local_sps_3d_ext : local ParseSps3dExtension. Proof. unfold ParseSps3dExtension. lfield. Qed.
Lemma local_sps_scc_ext cf l c : local (ParseSpsSccExtension cf l c). Proof. unfold ParseSpsSccExtension. lfield. Qed.
#[global] Hint Resolve local_sps_range_ext local_sps_ml_ext local_sps_3d_ext local_sps_scc_ext : local_db.
Lemma local_scaling_list_data : local ParseScalingListData.
Proof. unfold ParseScalingListData, read_scaling_list, read_coefs, coef_step. lfield. Qed.
#[global] Hint Resolve local_scaling_list_data : local_db.
Lemma local_cum_poc sign l n : forall i d, local (cum_poc sign l n i d).
Proof. induction n as [|n IH]; intros i d; cbn [cum_poc]; lfield. Qed.
Lemma local_push_cand sign fl d fi out : local (push_cand sign fl d fi out).
Proof. unfold push_cand. lfield. Qed.
#[global] Hint Resolve local_cum_poc local_push_cand : local_db.
Lemma local_cand_loop sign fl delta ref base js : forall out, local (cand_loop sign fl delta ref base js out).
Proof. induction js as [|j js IH]; intros out; cbn [cand_loop]; lfield. Qed.
Lemma local_minus1s sign l : forall prev, local (minus1s sign prev l).
Proof. induction l as [|[d u] l IH]; intros prev; cbn [minus1s]; lfield. Qed.
#[global] Hint Resolve local_cand_loop local_minus1s : local_db.
Lemma local_derive ref sign abs fl : local (DeriveValues ref sign abs fl). Proof. unfold DeriveValues. cbv zeta. lfield. Qed.
#[global] Hint Resolve local_derive : local_db.
Lemma local_rps idx num sets max : local (ParseStRefPicSet idx num sets max).
Proof. unfold ParseStRefPicSet, read_rps_inter, read_rps_explicit, read_rps_flag, read_rps_entry. cbv zeta. lfield. Qed.
#[global] Hint Resolve local_rps : local_db.
Lemma local_rps_loop k num : forall sets, local (rps_loop k num sets).
Proof. induction k as [|k IH]; intros sets; cbn [rps_loop]; lfield. Qed.
#[global] Hint Resolve local_rps_loop : local_db.
Lemma local_sps : local ParseSpsBody.
Proof. unfold ParseSpsBody, read_pic_size, read_sps_ordering, read_rps_sets, read_lt. cbv zeta. lfield. Qed.
Lemma local_pps_ml_ext : local ParsePpsMultilayerExtension.
Proof. unfold ParsePpsMultilayerExtension, read_ref_loc, read_quad. lfield. Qed.
Lemma local_pps_scc_ext : local ParsePpsSccExtension.
Proof. unfold ParsePpsSccExtension, read_palette_entry. lfield. Qed.
#[global] Hint Resolve local_pps_ml_ext local_pps_scc_ext : local_db.
Lemma local_pwt cat n : local (ParsePredWeightTable cat n).
Proof. unfold ParsePredWeightTable, read_pwt_entry, read_luma_weight, read_quad. lfield. Qed.
#[global] Hint Resolve local_pwt : local_db.
Lemma local_act p : local (act_offsets_present p). Proof. unfold act_offsets_present. lfield. Qed.
Lemma local_size first s : local (size_conversion first s). Proof. unfold size_conversion. lfield. Qed.
Lemma local_height s p : local (height_shift s p). Proof. unfold height_shift. lfield. Qed.
#[global] Hint Resolve local_act local_size local_height : local_db.
Lemma local_slice_rest nut s p first noout pid : local (slice_rest nut s p first noout pid).
Proof. unfold slice_rest, read_lt_entry. cbv zeta. lfield. Qed.
#[global] Hint Resolve local_slice_rest : local_db.
Lemma local_slice nut st : local (ParseSliceSegmentHeader nut st).
Proof.
  unfold ParseSliceSegmentHeader. apply local_bind; [lfield|]. intros a. apply local_bind; [lfield|]. intros c. apply local_bind; [lfield|]. intros d.
  destruct (st_pps st d) as [[p x]|]; [|apply local_fail]. destruct (st_sps st _) as [[s y]|]; [|apply local_fail]. apply local_slice_rest.
Qed.
Lemma local_hvcc_header : local ParseHvccHeader. Proof. unfold ParseHvccHeader. lfield. Qed.
Lemma local_payload ty size : local (parse_payload ty size).
Proof.
  unfold parse_payload, parse_t35, parse_unregistered, parse_mastering, parse_light, parse_knee, parse_remap, parse_ccv, parse_ambient, parse_alpha, parse_unknown,
    read_lut, read_pair, read_i32_pair, ReadI32, fmap. cbv zeta. lfield.
Qed.
