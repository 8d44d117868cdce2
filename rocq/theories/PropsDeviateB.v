(** Exact behaviour where C19, C33, C49 fail as first worded. *)
From Coq Require Import ZArith List Bool Lia ZifyBool ZifyNat.
From Verif Require Import MBase MBitBuffer Spec BitsFacts Reader ReaderFacts Rules Syntax SyntaxSe MCommon CommonFacts MFraming FramingFacts PropsFraming MSyntaxA SpecA Api MSyntaxB SpecB FactsB MSps SpecSps PropsSps MPps SpecPps PropsPps
  MSlice MSei SpecSei FactsSei PropsSei MNal MRtp FactsNal PropsNal FactsLocal PropsLocal PropsWide.
Import ListNotations.
Open Scope Z_scope.
Open Scope monad_scope.
Ltac Zify.zify_post_hook ::= Z.div_mod_to_equations.

(** * C19: length-prefixed streams, every size of the length field (0 included)
    The offset is that of the bytes parsed as the unit; the length reported is always the size of the length field. *)
Theorem C19_length_prefixed : forall opts data n st bs st' u, Z.of_nat (length data) < 2 ^ 63 -> 0 <= n < 2 ^ 63 ->
  ParseBitstreamNALULength opts data n st = Done (bs, st') -> In u (bs_units bs) ->
  nu_length u = n /\ exists len st0 st1 u0, 0 <= nu_offset u /\ 0 < len /\ nu_offset u + len <= Z.of_nat (length data) /\
    (n = 0 -> nu_offset u = 0 /\ len = Z.of_nat (length data)) /\
    (0 < n -> n <= nu_offset u /\ len = announced (firstn (Z.to_nat n) (skipn (Z.to_nat (nu_offset u - n)) data))) /\
    ParseNalUnit opts (firstn (Z.to_nat len) (skipn (Z.to_nat (nu_offset u)) data)) st0 = Done (Some u0, st1) /\ u = set_range (nu_offset u) n u0.
Proof.
  intros opts data n st bs st' u L Hn E H. destruct (Z.eq_dec n 0) as [->|N0].
  - destruct data as [|x data]; [rewrite C79_empty in E; injection E as <- _; destruct H|].
    assert (Lp : (0 < length (x :: data))%nat) by (cbn; lia).
    rewrite (C79_no_length opts (x :: data) st Lp L) in E.
    destruct (ParseNalUnit opts (x :: data) st) as [[[u0|] st1]|e] eqn:E1; [|injection E as <- _; destruct H|discriminate E].
    assert (bs = mkBS default_options [set_range 0 0 u0]) by congruence. subst bs. cbn [bs_units] in H. destruct H as [<-|[]].
    split; [reflexivity|]. exists (Z.of_nat (length (x :: data))), st, st1, u0.
    assert (Eo : nu_offset (set_range 0 0 u0) = 0) by reflexivity. rewrite !Eo.
    split; [lia|]. split; [lia|]. split; [lia|]. split; [auto|]. split; [lia|].
    rewrite Nat2Z.id. change (Z.to_nat 0) with O. rewrite skipn_O, firstn_all. auto.
  - assert (En : exists k, n = Z.of_nat k /\ (0 < k)%nat) by (exists (Z.to_nat n); lia). destruct En as (k & -> & Hk).
    destruct (C79_parse opts data k st L Hk ltac:(lia)) as (l & tail & Ed & F & [[_ Ep]|[_ (e & Ep & _)]]); [|congruence].
    rewrite Ep in E. destruct (parse_all opts (map snd l) st) as [[us st1]|e] eqn:E1; [|discriminate E].
    assert (bs = mkBS default_options (placed_nl (Z.of_nat k) (framed_ranges k 0 (map snd l)) us)) by congruence. subst bs. cbn [bs_units] in H. clear E Ep st'.
    (* one piece at a time *)
    assert (G : forall l pre us st0 st2, data = pre ++ pieces l ++ tail -> Forall (piece k) l -> parse_all opts (map snd l) st0 = Done (us, st2) ->
      In u (placed_nl (Z.of_nat k) (framed_ranges k (Z.of_nat (length pre)) (map snd l)) us) ->
      exists pre' p l' st3 st4 u0, data = pre' ++ fst p ++ snd p ++ pieces l' ++ tail /\ piece k p /\ ParseNalUnit opts (snd p) st3 = Done (Some u0, st4) /\
        u = set_range (Z.of_nat (length (pre' ++ fst p))) (Z.of_nat k) u0).
    { clear. induction l as [|p l IH]; intros pre us st0 st2 Ed F E H; [destruct us; destruct H|].
      inversion F as [|? ? Fp Fl]; subst. cbn [map parse_all framed_ranges placed_nl] in *.
      destruct (ParseNalUnit opts (snd p) st0) as [[o st1]|e] eqn:E1; [|discriminate].
      destruct (parse_all opts (map snd l) st1) as [[us1 st3]|e] eqn:E2; [|discriminate].
      assert (us = o :: us1) by congruence. subst us. cbn [placed_nl fst] in H. apply in_app_or in H. destruct H as [H|H].
      - destruct o as [u0|]; [|destruct H]. destruct H as [<-|[]]. exists pre, p, l, st0, st1, u0.
        split; [rewrite pieces_cons, <- !app_assoc; reflexivity|]. split; [exact Fp|]. split; [exact E1|].
        f_equal. rewrite app_length. destruct Fp as [-> _]. lia.
      - apply (IH (pre ++ fst p ++ snd p) us1 st1 st3); [rewrite pieces_cons, <- !app_assoc; reflexivity|exact Fl|exact E2|].
        rewrite !app_length. destruct Fp as [Fp _]. rewrite Fp.
        replace (Z.of_nat (length pre + (k + length (snd p)))) with (Z.of_nat (length pre) + Z.of_nat k + Z.of_nat (length (snd p))) by lia. exact H. }
    destruct (G l [] us st st1 Ed F E1 H) as (pre' & p & l' & st3 & st4 & u0 & Ed' & (P1 & P2 & P3) & Eu & ->). clear G.
    split; [reflexivity|]. cbn [nu_offset set_range]. exists (Z.of_nat (length (snd p))), st3, st4, u0.
    assert (Ld : length data = (length (pre' ++ fst p) + (length (snd p) + length (pieces l' ++ tail)))%nat) by (rewrite Ed', !app_length; lia).
    split; [lia|]. split; [destruct (snd p); [congruence|cbn; lia]|]. split; [lia|]. split; [lia|].
    assert (Lo : length (pre' ++ fst p) = (length pre' + k)%nat) by (rewrite app_length; lia). split.
    + intros _. split; [lia|]. rewrite Lo. replace (Z.to_nat (Z.of_nat (length pre' + k) - Z.of_nat k)) with (length pre') by lia.
      rewrite Nat2Z.id, Ed', skipn_length_app, <- P1, firstn_length_app. symmetry. exact P3.
    + rewrite !Nat2Z.id. rewrite Ed', app_assoc, skipn_length_app, firstn_length_app. split; [exact Eu|reflexivity].
Qed.
Example C19_case_wide : exists bs st u, ParseBitstreamNALULength default_options [7; 0; 0; 0; 0; 0; 0; 0; 3; 0x46; 1; 0x50] 9 empty_state = Done (bs, st) /\
  bs_units bs = [u] /\ nu_offset u = 9 /\ nu_length u = 9 /\ np_aud (nu_payload u) = Some 2.
Proof. vm_compute. eexists _, _, _. split; [reflexivity|]. auto. Qed.

(** * C33: the cropped size is positive exactly when the conformance window leaves something, and at least -2 * 2^32 *)
Theorem C33_positive_iff : forall b s x b' w h b0 b1, wf b -> ParseSps b = Ok (s, x) b' -> getResolution s b0 = Ok (w, h) b1 ->
  b1 = b0 /\
  (0 < w <-> SubWidthC s * (conf_win_left_offset s + conf_win_right_offset s) < pic_width_in_luma_samples s) /\
  (0 < h <-> SubHeightC s * (conf_win_top_offset s + conf_win_bottom_offset s) < pic_height_in_luma_samples s) /\
  w <= pic_width_in_luma_samples s /\ h <= pic_height_in_luma_samples s.
Proof.
  intros b s x b' w h b0 b1 W E R. rewrite (C33_cropped_size b s x b' b0 W E) in R.
  destruct (C33_at_most_coded_size b s x b' W E) as [A1 A2].
  assert (R' : cropped_width s = w /\ cropped_height s = h /\ b0 = b1) by (split; [|split]; congruence).
  destruct R' as (<- & <- & <-). unfold cropped_width, cropped_height in *. repeat split; lia.
Qed.

(** * C49: PPS and SEI messages cut off *)
(** [trunc_on P R m]: a successful call with a result in [P] consumes bits [bs] and gives the same result from every buffer that goes on with [bs]; from a
    buffer that ends inside [bs] the call can only succeed with a result that is related to it by [R]. *)
Definition trunc_on {A} (P : A -> Prop) (R : A -> A -> Prop) (m : M A) : Prop :=
  forall b a b', wf b -> m b = Ok a b' -> P a ->
    exists bs, steps b b' bs /\
      (forall b2 rest, wf b2 -> rem b2 = bs ++ rest -> m b2 = Ok a (adv b2 (length bs))) /\
      (forall b2 k, wf b2 -> (k < length bs)%nat -> rem b2 = firstn k bs -> forall a2 b3, m b2 = Ok a2 b3 -> R a2 a).
Lemma trunc_local {A} (P : A -> Prop) R (m : M A) : local_on P m -> trunc_on P R m.
Proof.
  intros H b a b' W E Pa. destruct (H b a b' W E Pa) as (bs & S & L & T). exists bs. split; [exact S|]. split; [exact L|].
  intros b2 k W2 Hk R2 a2 b3 E2. destruct (T b2 k W2 Hk R2) as [b4 Q]. congruence.
Qed.
Lemma firstn_past {A} (l1 l2 : list A) k : (length l1 <= k)%nat -> firstn k (l1 ++ l2) = l1 ++ firstn (k - length l1) l2.
Proof. intros H. rewrite firstn_app, firstn_all2 by exact H. reflexivity. Qed.
Lemma trunc_bind {A B} (P : B -> Prop) R (m : M A) (f : A -> M B) : local m -> (forall a, trunc_on P R (f a)) -> trunc_on P R (bind m f).
Proof.
  intros Hm Hf b c b' W E Pc. unfold bind in E. destruct (m b) as [a b1|b1|e] eqn:E1; [|discriminate E|discriminate E].
  destruct (Hm b a b1 W E1 I) as (bs1 & S1 & L1 & T1). pose proof (steps_wf _ _ _ W S1) as W1.
  destruct (Hf a b1 c b' W1 E Pc) as (bs2 & S2 & L2 & T2). exists (bs1 ++ bs2). split; [apply (steps_trans _ _ _ _ _ S1 S2)|]. split.
  - intros b2 rest W2 R2. rewrite <- app_assoc in R2. unfold bind. rewrite (L1 b2 _ W2 R2).
    rewrite (L2 _ rest (wf_adv_app _ _ _ W2 R2) (rem_adv_app _ _ _ W2 R2)), adv_adv, app_length. reflexivity.
  - intros b2 k W2 Hk R2 c2 b3 E2. rewrite app_length in Hk. unfold bind in E2. destruct (Nat.lt_ge_cases k (length bs1)) as [K|K].
    + rewrite firstn_app in R2. replace (k - length bs1)%nat with O in R2 by lia. cbn [firstn] in R2. rewrite app_nil_r in R2.
      destruct (T1 b2 k W2 K R2) as [b4 Q]. rewrite Q in E2. discriminate E2.
    + rewrite firstn_past in R2 by exact K. rewrite (L1 b2 _ W2 R2) in E2.
      exact (T2 _ (k - length bs1)%nat (wf_adv_app _ _ _ W2 R2) ltac:(lia) (rem_adv_app _ _ _ W2 R2) c2 b3 E2).
Qed.
Lemma trunc_attempt {A B} (P : B -> Prop) (R : B -> B -> Prop) (m : M A) (f : option A -> M B) : local m -> (forall o, local (f o)) ->
  (forall b c b', f None b = Ok c b' -> ~ P c) ->
  (forall a b c b' b2 c2 b3, f (Some a) b = Ok c b' -> f None b2 = Ok c2 b3 -> R c2 c) -> trunc_on P R (bind (attempt m) f).
Proof.
  intros Hm Hf HP HR b c b' W E Pc. unfold bind, attempt in E. destruct (m b) as [a b1|b1|e] eqn:E1; [|destruct (HP _ _ _ E Pc)|discriminate E].
  destruct (Hm b a b1 W E1 I) as (bs1 & S1 & L1 & T1). pose proof (steps_wf _ _ _ W S1) as W1.
  destruct (Hf (Some a) b1 c b' W1 E I) as (bs2 & S2 & L2 & T2). exists (bs1 ++ bs2). split; [apply (steps_trans _ _ _ _ _ S1 S2)|]. split.
  - intros b2 rest W2 R2. rewrite <- app_assoc in R2. unfold bind, attempt. rewrite (L1 b2 _ W2 R2).
    rewrite (L2 _ rest (wf_adv_app _ _ _ W2 R2) (rem_adv_app _ _ _ W2 R2)), adv_adv, app_length. reflexivity.
  - intros b2 k W2 Hk R2 c2 b3 E2. rewrite app_length in Hk. unfold bind, attempt in E2. destruct (Nat.lt_ge_cases k (length bs1)) as [K|K].
    + rewrite firstn_app in R2. replace (k - length bs1)%nat with O in R2 by lia. cbn [firstn] in R2. rewrite app_nil_r in R2.
      destruct (T1 b2 k W2 K R2) as [b4 Q]. rewrite Q in E2. exact (HR _ _ _ _ _ _ _ E E2).
    + rewrite firstn_past in R2 by exact K. rewrite (L1 b2 _ W2 R2) in E2.
      destruct (T2 _ (k - length bs1)%nat (wf_adv_app _ _ _ W2 R2) ltac:(lia) (rem_adv_app _ _ _ W2 R2)) as [b4 Q]. congruence.
Qed.

(** A PPS without its two extensions. *)
Definition without_extensions (s : pps) : pps :=
  let (a1, a2, a3, a4, a5, a6, a7, a8, a9, a10, a11, a12, a13, a14, a15, a16, a17, a18, a19, a20, a21, a22, a23, a24, a25, a26, a27, a28, a29, a30,
       a31, a32, a33, a34, a35, a36, a37, a38, a39, a40, a41, a42, a43, a44, a45, _, _) := s in
  mkPPS a1 a2 a3 a4 a5 a6 a7 a8 a9 a10 a11 a12 a13 a14 a15 a16 a17 a18 a19 a20 a21 a22 a23 a24 a25 a26 a27 a28 a29 a30
        a31 a32 a33 a34 a35 a36 a37 a38 a39 a40 a41 a42 a43 a44 a45 None None.
Definition lost_extension (s2 s : pps) : Prop :=
  pps_multilayer_extension s <> None /\ pps_multilayer_extension s2 = None /\ without_extensions s2 = without_extensions s.
Lemma trunc_pps : trunc_on (fun s => pps_multilayer_extension_flag s = 0 \/ pps_multilayer_extension s <> None) lost_extension ParsePpsBody.
Proof.
  unfold ParsePpsBody.
  repeat lazymatch goal with
  | |- trunc_on _ _ (bind (when _ (attempt _) _) _) => fail
  | |- trunc_on _ _ (bind _ _) => apply trunc_bind; [lfield|intro]
  end.
  match goal with |- trunc_on _ _ (bind (when (nz ?x) _ _) _) => destruct (nz x) eqn:N end.
  - unfold when at 1. apply trunc_attempt; [apply local_pps_ml_ext|intro; lfield| |].
    + intros b s b' E. inv_ok E. unfold ret in E. assert (E' := f_equal (fun r => match r with Ok s _ => (pps_multilayer_extension_flag s, pps_multilayer_extension s) | _ => (0, None) end) E).
      cbv beta iota in E'. cbn [pps_multilayer_extension_flag pps_multilayer_extension] in E'. intros [Q|Q]; [|congruence].
      assert (X : forall z, nz z = true -> z = 0 -> False) by (intros z Hz ->; discriminate Hz). eapply X; [exact N|]. congruence.
    + intros o b s b' b2 s2 b3 E E2. inv_ok E. inv_ok E2. unfold ret in E, E2. injection E as <- _. injection E2 as <- _. split; [discriminate|]. split; reflexivity.
  - apply trunc_local. unfold when at 1. apply local_bind; [apply local_ret|intro]. lfield.
Qed.
(** PPSs.  [set]: determined by the bits consumed, up to the extension data and trailing bits, and refused when they end early; the one exception is a PPS cut
    off inside its multilayer extension, which can be returned without that extension, all fields before the extensions being right. *)
Theorem C49_pps : forall b s x b', wf b -> ParsePps b = Ok (s, x) b' -> pps_multilayer_extension_flag s = 0 \/ pps_multilayer_extension s <> None ->
  exists bs tail, rem b = bs ++ tail ++ rem b' /\ b' = adv b (length bs + length tail) /\
    (forall b2 rest, wf b2 -> rem b2 = bs ++ rest -> exists x2 b3, ParsePps b2 = Ok (s, x2) b3) /\
    (forall b2 k, wf b2 -> (k < length bs)%nat -> rem b2 = firstn k bs -> forall s2 x2 b3, ParsePps b2 = Ok (s2, x2) b3 -> lost_extension s2 s).
Proof.
  intros b s x b' W E Ps. unfold ParsePps, finish in *. apply bind_ok in E. destruct E as (s0 & b1 & E1 & E).
  assert (Eq : s0 = s) by (clear - E; inv_ok E; unfold ret in E; congruence).
  subst s0. destruct (trunc_pps b s b1 W E1 Ps) as (bs & S & L & T).
  destruct (finish_tail (fun s => nz (pps_extension_4bits s)) s b1 (steps_wf _ _ _ W S)) as (x2 & b2 & bs2 & E2 & S2 & _). rewrite E2 in E.
  assert (b2 = b') by congruence. subst b2.
  exists bs, bs2. destruct (steps_trans _ _ _ _ _ S S2) as [R A2]. rewrite <- app_assoc in R. rewrite app_length in A2. split; [exact R|]. split; [exact A2|]. split.
  - intros b3 rest Wb R2. unfold bind at 1. rewrite (L b3 rest Wb R2). destruct (finish_tail (fun s => nz (pps_extension_4bits s)) s _ (wf_adv_app _ _ _ Wb R2)) as (x3 & b4 & bs3 & E3 & _). eauto.
  - intros b3 k Wb Hk R2 s2 x3 b4 E3. apply bind_ok in E3. destruct E3 as (s3 & b5 & E3 & E4).
    assert (Eq : s3 = s2) by (clear - E4; inv_ok E4; unfold ret in E4; congruence). subst s3. exact (T b3 k Wb Hk R2 s2 b5 E3).
Qed.

(** SEI messages: cut off inside its payload, a message is returned with its type and size and without payload. *)
Definition lost_payload (s2 s : sei_message) : Prop := s2 = mkSEI (payload_type s) (MSei.payload_size s) None.
Lemma trunc_sei : trunc_on (fun s => sei_payload_state s <> None) lost_payload ParseSei.
Proof.
  unfold ParseSei. apply trunc_bind; [apply local_read_ff|intro t]. apply trunc_bind; [apply local_read_ff|intro n].
  apply trunc_attempt; [apply local_payload|intro; apply local_ret| |].
  - intros b s b' E. unfold ret in E. injection E as <- _. cbn. congruence.
  - intros a b c b' b2 c2 b3 E E2. unfold ret in E, E2. injection E as <- _. injection E2 as <- _. reflexivity.
Qed.
Theorem C49_sei : forall b s b', wf b -> ParseSei b = Ok s b' -> sei_payload_state s <> None ->
  exists bs, rem b = bs ++ rem b' /\ b' = adv b (length bs) /\ (forall b2 rest, wf b2 -> rem b2 = bs ++ rest -> ParseSei b2 = Ok s (adv b2 (length bs))) /\
    (forall b2 k, wf b2 -> (k < length bs)%nat -> rem b2 = firstn k bs -> forall s2 b3, ParseSei b2 = Ok s2 b3 -> lost_payload s2 s).
Proof. intros b s b' W E P. destruct (trunc_sei b s b' W E P) as (bs & [S1 S2] & L & T). exists bs. auto. Qed.
(** Without a payload: the bits after the header are not a payload of this type and size, and the message is the header alone. *)
Theorem C49_sei_no_payload : forall b s b', wf b -> ParseSei b = Ok s b' -> sei_payload_state s = None ->
  exists b1, steps b b1 (enc_ff (payload_type s) ++ enc_ff (MSei.payload_size s)) /\ parse_payload (payload_type s) (MSei.payload_size s) b1 = Fail b'.
Proof.
  intros b s b' W E P. unfold ParseSei in E. inv_ok E. unfold ret in E. injection E as <- <-. cbn [payload_type MSei.payload_size sei_payload_state] in *. subst.
  assert (St : forall b n b1, wf b -> read_ff b = Ok n b1 -> steps b b1 (enc_ff n)).
  { clear. intros b n b1 W E. destruct (C40_header_number b W) as [_ H]. apply H in E. destruct E as (_ & (rest & R) & ->). split; [|reflexivity]. rewrite (rem_adv_app _ _ _ W R). exact R. }
  pose proof (St _ _ _ W E0) as S1. pose proof (St _ _ _ (steps_wf _ _ _ W S1) E1) as S2. eexists. split; [exact (steps_trans _ _ _ _ _ S1 S2)|].
  unfold attempt in E2. destruct (parse_payload r r0 b1) as [a b4|b4|e]; congruence.
Qed.
