(** C81: the frame rate.  C82: where the code computes with floating point numbers, rounding never shows. *)
From Coq Require Import ZArith Reals String List Psatz Lia.
From Flocq Require Import Core Relative BinarySingleNaN.
From Verif Require PropsBits.
From Verif Require Import MBase MBitBuffer Spec BitsFacts Reader ReaderFacts Rules Syntax SyntaxSe MCommon
  MSyntaxA SpecA FactsA Api PropsA MSyntaxB SpecB FactsB MSps SpecSps FactsSps PropsSps MSlice MText MFloat.
Import ListNotations.
Open Scope Z_scope.

(** * Rounding of integers *)
Lemma format32_int n : Z.abs n <= 2 ^ 24 -> format32 (IZR n).
Proof.
  intros H. destruct (Z.eq_dec (Z.abs n) (2 ^ 24)) as [E|E].
  - assert (P : format32 (bpow radix2 24)) by (apply generic_format_bpow; vm_compute; discriminate).
    destruct (Z.abs_or_opp_abs n) as [A|A]; rewrite A, E; [exact P|]. rewrite opp_IZR. apply generic_format_opp. exact P.
  - unfold format32. apply generic_format_FLT. exists (Float radix2 n 0); [unfold F2R; cbn; ring|cbn; lia|cbn; lia].
Qed.
Lemma round32_int n : Z.abs n <= 2 ^ 24 -> round32 (IZR n) = IZR n.
Proof. intros H. apply round_generic; [apply valid_rnd_N|]. apply format32_int, H. Qed.
Lemma format64_dyadic n c : Z.abs n < 2 ^ 53 -> 0 <= c <= 100 -> generic_format radix2 (FLT_exp (-1074) 53) (IZR n * bpow radix2 (- c)).
Proof. intros H Hc. apply generic_format_FLT. exists (Float radix2 n (- c)); [reflexivity|cbn; lia|cbn; lia]. Qed.
Lemma round64_int n : Z.abs n < 2 ^ 53 -> round64 (IZR n) = IZR n.
Proof.
  intros H. apply round_generic; [apply valid_rnd_N|]. replace (IZR n) with (IZR n * bpow radix2 (- 0))%R by (cbn; ring). apply format64_dyadic; lia.
Qed.

Lemma bpow_inv k : 0 <= k -> bpow radix2 (- k) = (/ IZR (2 ^ k))%R.
Proof. intros H. rewrite bpow_opp, <- IZR_Zpower by exact H. reflexivity. Qed.
Lemma bpow_whole k : 0 <= k -> bpow radix2 k = IZR (2 ^ k).
Proof. intros H. rewrite <- IZR_Zpower by exact H. reflexivity. Qed.

(** * C81 *)
Lemma round32_pos n : 1 <= n -> (1 <= round32 (IZR n))%R.
Proof. intros H. apply round_ge_generic; [apply FLT_exp_valid; reflexivity|apply valid_rnd_N|exact (format32_int 1 ltac:(lia))|]. apply IZR_le. exact H. Qed.
Lemma round32_max n : 0 <= n < 2 ^ 32 -> (0 <= round32 (IZR n) <= bpow radix2 32)%R.
Proof.
  intros H. split.
  - apply round_ge_generic; [apply FLT_exp_valid; reflexivity|apply valid_rnd_N|exact (format32_int 0 ltac:(lia))|]. apply IZR_le. lia.
  - apply round_le_generic; [apply FLT_exp_valid; reflexivity|apply valid_rnd_N|apply generic_format_bpow; vm_compute; discriminate|]. rewrite <- IZR_Zpower by lia. apply IZR_le. cbn. lia.
Qed.
Lemma float_of_spec n : 0 <= n < 2 ^ 32 -> B2R (float_of n) = round32 (IZR n) /\ is_finite (float_of n) = true /\ Bsign (float_of n) = false.
Proof.
  intros H. pose proof (binary_normalize_correct 24 128 eq_refl eq_refl mode_NE n 0 false) as P. cbv zeta in P. unfold float_of.
  assert (E : @F2R radix2 {| Fnum := n; Fexp := 0 |} = IZR n) by (unfold F2R; cbn; ring). rewrite E in P.
  change (round radix2 (SpecFloat.fexp 24 128) (round_mode mode_NE) (IZR n)) with (round32 (IZR n)) in P. destruct (round32_max n H) as [L U].
  rewrite Rlt_bool_true in P by (rewrite Rabs_pos_eq by exact L; eapply Rle_lt_trans; [exact U|]; apply bpow_lt; lia). destruct P as (P1 & P2 & P3).
  split; [exact P1|]. split; [exact P2|]. rewrite P3. destruct (Rcompare_spec (IZR n) 0) as [C|C|C]; [|reflexivity|reflexivity]. apply lt_IZR in C. lia.
Qed.
Lemma float_of_zero : float_of 0 = B754_zero false.
Proof. reflexivity. Qed.
Lemma float_of_pos n : 1 <= n < 2 ^ 32 -> exists m e p, float_of n = B754_finite false m e p.
Proof.
  intros H. destruct (float_of_spec n ltac:(lia)) as (V & F & S). pose proof (round32_pos n ltac:(lia)) as P. rewrite <- V in P.
  destruct (float_of n) as [s|s| |s m e p]; cbn in *; try discriminate; try lra. subst s. eauto.
Qed.
Lemma u32_fields n b s b' : wf b -> ParseVuiParameters n b = Ok s b' -> 0 <= vui_time_scale s < 2 ^ 32 /\ 0 <= vui_num_units_in_tick s < 2 ^ 32 /\
  (nz (vui_timing_info_present_flag s) = false -> vui_time_scale s = 0 /\ vui_num_units_in_tick s = 0).
Proof.
  intros W E. apply (C28_layout_of_the_code n b W) in E. destruct E as [O _]. unfold vui_ok in O. cbv zeta in O.
  assert (H : optf (nz (vui_timing_info_present_flag s)) (u_ok 32) 0 (vui_num_units_in_tick s) /\ optf (nz (vui_timing_info_present_flag s)) (u_ok 32) 0 (vui_time_scale s)) by tauto.
  clear O. destruct H as [H1 H2]. unfold optf, u_ok in *. destruct (nz (vui_timing_info_present_flag s)); [|rewrite H1, H2; repeat split; try lia].
  split; [lia|]. split; [lia|]. discriminate.
Qed.

(** The frame rate of a VUI: the quotient of the two fields, rounded to float three times: relative error at most 2^-22; the correctly rounded quotient
    if the fields are at most 2^24. *)
Theorem C81_framerate : forall n b s b', wf b -> ParseVuiParameters n b = Ok s b' -> vui_num_units_in_tick s <> 0 ->
  let exact := (IZR (vui_time_scale s) / IZR (vui_num_units_in_tick s))%R in
  is_finite (getFramerate s) = true /\ (Rabs (B2R (getFramerate s) - exact) <= bpow radix2 (-22) * exact)%R /\
  (vui_time_scale s <= 2 ^ 24 -> vui_num_units_in_tick s <= 2 ^ 24 -> B2R (getFramerate s) = round32 exact).
Proof.
  intros n b s b' W E N. destruct (u32_fields _ _ _ _ W E) as (Ht & Hu & _). clear E W. set (t := vui_time_scale s) in *. set (u := vui_num_units_in_tick s) in *. intros exact.
  destruct (float_of_spec t Ht) as (Vt & Ft & _). destruct (float_of_spec u Hu) as (Vu & Fu & _). pose proof (round32_pos u ltac:(lia)) as Pu. destruct (round32_max t Ht) as [Lt Ut].
  destruct (round32_max u Hu) as [_ Uu].
  assert (B0 : (0 <= round32 (IZR t) / round32 (IZR u) <= bpow radix2 32)%R).
  { split; [apply Rmult_le_pos; [exact Lt|]; left; apply Rinv_0_lt_compat; lra|]. apply (Rmult_le_reg_r (round32 (IZR u))); [lra|].
    unfold Rdiv. rewrite Rmult_assoc, Rinv_l by lra. rewrite Rmult_1_r. apply Rle_trans with (1 := Ut). rewrite <- (Rmult_1_r (bpow radix2 32)) at 1.
    apply Rmult_le_compat_l; [apply bpow_ge_0|exact Pu]. }
  pose proof (Bdiv_correct 24 128 eq_refl eq_refl mode_NE (float_of t) (float_of u)) as P. rewrite Vt, Vu in P. specialize (P ltac:(lra)).
  change (round radix2 (SpecFloat.fexp 24 128) (round_mode mode_NE) (round32 (IZR t) / round32 (IZR u))) with (round32 (round32 (IZR t) / round32 (IZR u))) in P.
  assert (B1 : (0 <= round32 (round32 (IZR t) / round32 (IZR u)) <= bpow radix2 32)%R).
  { split; [apply round_ge_generic; [apply FLT_exp_valid; reflexivity|apply valid_rnd_N|exact (format32_int 0 ltac:(lia))|lra]|].
    apply round_le_generic; [apply FLT_exp_valid; reflexivity|apply valid_rnd_N|apply generic_format_bpow; vm_compute; discriminate|lra]. }
  rewrite Rlt_bool_true in P by (rewrite Rabs_pos_eq by lra; eapply Rle_lt_trans; [apply B1|]; apply bpow_lt; lia). destruct P as (P1 & P2 & _).
  change (B2R (getFramerate s) = round32 (round32 (IZR t) / round32 (IZR u))) in P1. change (is_finite (getFramerate s) = is_finite (float_of t)) in P2.
  split; [rewrite P2; exact Ft|]. rewrite P1. split; [|intros H1 H2; rewrite !round32_int by lia; reflexivity].
  destruct (Z.eq_dec t 0) as [T0|T0].
  { unfold exact. rewrite T0. rewrite (round32_int 0) by lia. unfold Rdiv. rewrite !Rmult_0_l. rewrite (round32_int 0) by lia. rewrite Rminus_0_r, Rabs_R0, Rmult_0_r. lra. }
  assert (Eps : forall x, (bpow radix2 (-126) <= Rabs x)%R -> exists e, (Rabs e <= bpow radix2 (-24))%R /\ round32 x = (x * (1 + e))%R).
  { intros x Hx. destruct (relative_error_N_FLT_ex radix2 (-149) 24 ltac:(lia) (fun x => negb (Z.even x)) x Hx) as (e & He & Ee). exists e. split; [|exact Ee].
    apply Rle_trans with (1 := He). right. rewrite (bpow_inv 24 ltac:(lia) : bpow radix2 (-24) = _), (bpow_inv 23 ltac:(lia) : bpow radix2 (- (24) + 1) = _). cbn. lra. }
  assert (Small : forall k : Z, 1 <= k -> (bpow radix2 (-126) <= Rabs (IZR k))%R).
  { intros k Hk. rewrite Rabs_pos_eq by (apply IZR_le; lia). apply Rle_trans with (bpow radix2 0); [apply bpow_le; lia|cbn; apply IZR_le; lia]. }
  destruct (Eps (IZR t) (Small t ltac:(lia))) as (e1 & H1 & E1). destruct (Eps (IZR u) (Small u ltac:(lia))) as (e2 & H2 & E2).
  assert (Q : (bpow radix2 (-126) <= Rabs (round32 (IZR t) / round32 (IZR u)))%R).
  { pose proof (round32_pos t ltac:(lia)) as Pt. rewrite Rabs_pos_eq by lra. apply Rle_trans with (1 / bpow radix2 32)%R.
    - unfold Rdiv. rewrite Rmult_1_l, <- bpow_opp. apply bpow_le. lia.
    - unfold Rdiv. apply Rmult_le_compat; [lra|left; apply Rinv_0_lt_compat, bpow_gt_0|exact Pt|]. apply Rinv_le; [lra|exact Uu]. }
  destruct (Eps _ Q) as (e3 & H3 & E3). rewrite E3, E1, E2.
  assert (Tp : (0 < IZR t)%R) by (apply IZR_lt; lia). assert (Up : (0 < IZR u)%R) by (apply IZR_lt; lia).
  assert (B24 : bpow radix2 (-24) = (/ 16777216)%R) by (exact (bpow_inv 24 ltac:(lia))). assert (B22 : bpow radix2 (-22) = (/ 4194304)%R) by (exact (bpow_inv 22 ltac:(lia))). rewrite B24 in H1, H2, H3. rewrite B22.
  apply Rabs_le_inv in H1, H2, H3.
  assert (X : (IZR t * (1 + e1) / (IZR u * (1 + e2)) * (1 + e3) - exact = exact * (((1 + e1) * (1 + e3) - (1 + e2)) / (1 + e2)))%R) by (unfold exact; field; lra).
  rewrite X. assert (Xp : (0 < exact)%R) by (unfold exact; apply Rdiv_lt_0_compat; assumption). rewrite Rabs_mult, (Rabs_pos_eq exact) by lra. rewrite Rmult_comm. apply Rmult_le_compat_r; [lra|].
  apply Rabs_le. assert (D : (0 < 1 + e2)%R) by lra.
  assert (N1 : (- / 4194304 * (1 + e2) <= (1 + e1) * (1 + e3) - (1 + e2) <= / 4194304 * (1 + e2))%R) by nra.
  split; apply (Rmult_le_reg_r (1 + e2)); try assumption; unfold Rdiv; rewrite Rmult_assoc, Rinv_l by lra; lra.
Qed.
(** Whole frame rates come out exactly. *)
Theorem C81_whole : forall n b s b' fps, wf b -> ParseVuiParameters n b = Ok s b' -> 0 < vui_num_units_in_tick s <= 2 ^ 24 -> vui_time_scale s <= 2 ^ 24 ->
  vui_time_scale s = fps * vui_num_units_in_tick s -> B2R (getFramerate s) = IZR fps.
Proof.
  intros n b s b' fps W E Hu Ht F. destruct (C81_framerate n b s b' W E ltac:(lia)) as (_ & _ & X). rewrite (X ltac:(lia) ltac:(lia)). destruct (u32_fields _ _ _ _ W E) as (Pt & _).
  rewrite F, mult_IZR. unfold Rdiv. rewrite Rmult_assoc, Rinv_r, Rmult_1_r by (apply IZR_neq; lia). apply round32_int. nia.
Qed.
(** Without a tick there is no rate: infinity, or NaN if the time scale is zero, too; so for every VUI without timing information. *)
Theorem C81_no_tick : forall n b s b', wf b -> ParseVuiParameters n b = Ok s b' -> vui_num_units_in_tick s = 0 ->
  getFramerate s = if Z.eqb (vui_time_scale s) 0 then B754_nan else B754_infinity false.
Proof.
  intros n b s b' W E Z0. destruct (u32_fields _ _ _ _ W E) as (Ht & _). unfold getFramerate. rewrite Z0. change (float_of 0) with (@B754_zero 24 128 false).
  destruct (Z.eqb_spec (vui_time_scale s) 0) as [T|T]; [rewrite T; reflexivity|]. destruct (float_of_pos (vui_time_scale s) ltac:(lia)) as (m & e & p & ->). reflexivity.
Qed.
Theorem C81_no_timing : forall n b s b', wf b -> ParseVuiParameters n b = Ok s b' -> nz (vui_timing_info_present_flag s) = false -> getFramerate s = B754_nan.
Proof.
  intros n b s b' W E F. destruct (u32_fields _ _ _ _ W E) as (_ & _ & H). destruct (H F) as [Ht Hu]. rewrite (C81_no_tick n b s b' W E Hu), Ht. reflexivity.
Qed.
(** A stream of 60000/1001 frames per second: the float nearest to 59.94..., 15712927 / 2^18. *)
Example C81_case :
  let v := mkVUI 1 255 4 3 0 0 1 5 0 1 1 1 1 1 2 2 0 0 0 1 3 4 5 6 1 1001 60000 1 0 0 None 1 0 1 0 0 0 0 15 15 in
  (exists b b', wf b /\ ParseVuiParameters 0 b = Ok v b') /\
  match getFramerate v with B754_finite false m e _ => Z.pos m = 15712927 /\ e = -18 | _ => False end.
Proof.
  cbv zeta. split; [|vm_compute; auto].
  let l := eval vm_compute in (pack (enc_vui (mkVUI 1 255 4 3 0 0 1 5 0 1 1 1 1 1 2 2 0 0 0 1 3 4 5 6 1 1001 60000 1 0 0 None 1 0 1 0 0 0 0 15 15))) in exists (mk_bb l).
  eexists. split; [apply PropsBits.wf_mk; [repeat constructor; discriminate|vm_compute; reflexivity]|]. vm_compute. reflexivity.
Qed.

(** * C82 *)
(** A C library's log2f is faithful if it returns floats with an error below one unit in the last place.  (glibc's is: 0.752 ulp.) *)
Definition log2 (x : R) : R := (ln x / ln 2)%R.
Definition faithful (log2f : R -> R) : Prop :=
  forall x, format32 x -> (1 <= x)%R -> format32 (log2f x) /\ (Rabs (log2f x - log2 x) < ulp radix2 (FLT_exp (-149) 24) (log2 x))%R.

Local Instance prec24 : Prec_gt_0 24 := eq_refl.
Local Instance valid32 : Valid_exp (FLT_exp (-149) 24) := FLT_exp_valid (-149) 24.
Local Instance not_ftz32 : Exp_not_FTZ (FLT_exp (-149) 24) := monotone_exp_not_FTZ (FLT_exp (-149) 24).

Lemma ln2_pos : (0 < ln 2)%R.
Proof. rewrite <- ln_1. apply ln_increasing; lra. Qed.
Lemma ln_sub_1 x : (0 < x)%R -> (ln x <= x - 1)%R.
Proof.
  intros H. destruct (Rle_or_lt (ln x) (x - 1)) as [L|L]; [exact L|exfalso]. apply exp_increasing in L. rewrite exp_ln in L by exact H. pose proof (exp_ineq1_le (x - 1)). lra.
Qed.
Lemma ln2_max : (ln 2 <= 0.699)%R.
Proof.
  pose proof (ln_sub_1 1.0109 ltac:(lra)) as L.
  assert (D : forall x y, (0 < y)%R -> (0 < x)%R -> (y <= x * x)%R -> (ln y <= 2 * ln x)%R).
  { intros x y Hy Hx Hxy. replace (2 * ln x)%R with (ln x + ln x)%R by ring. rewrite <- ln_mult by assumption. destruct (Req_dec y (x * x)) as [->|N]; [lra|]. left. apply ln_increasing; lra. }
  pose proof (D 1.0109 1.02191 ltac:(lra) ltac:(lra) ltac:(lra))%R. pose proof (D 1.02191 1.0443 ltac:(lra) ltac:(lra) ltac:(lra))%R.
  pose proof (D 1.0443 1.09056 ltac:(lra) ltac:(lra) ltac:(lra))%R. pose proof (D 1.09056 1.18932 ltac:(lra) ltac:(lra) ltac:(lra))%R.
  pose proof (D 1.18932 1.41448 ltac:(lra) ltac:(lra) ltac:(lra))%R. pose proof (D 1.41448 2 ltac:(lra) ltac:(lra) ltac:(lra))%R. lra.
Qed.
Lemma ln_pow2 k : 0 <= k -> ln (IZR (2 ^ k)) = (IZR k * ln 2)%R.
Proof.
  intros H. pattern k. apply natlike_ind; [| |exact H].
  - change (2 ^ 0) with 1. rewrite ln_1. ring.
  - intros x Hx IH. rewrite Z.pow_succ_r, mult_IZR, ln_mult, IH by (try apply IZR_lt; lia). rewrite succ_IZR. ring.
Qed.
Lemma log2_pow2 k : 0 <= k -> log2 (IZR (2 ^ k)) = IZR k.
Proof. intros H. unfold log2. rewrite ln_pow2 by exact H. field. apply Rgt_not_eq, ln2_pos. Qed.
Lemma log2_le x y : (0 < x <= y)%R -> (log2 x <= log2 y)%R.
Proof.
  intros [H1 H2]. unfold log2. apply Rmult_le_compat_r; [left; apply Rinv_0_lt_compat, ln2_pos|]. destruct (Req_dec x y) as [->|N]; [lra|]. left. apply ln_increasing; lra.
Qed.
Notation ulp32 := (ulp radix2 (FLT_exp (-149) 24)).
Lemma ulp32_small x : (0 <= x <= 24)%R -> (ulp32 x <= bpow radix2 (-19))%R.
Proof.
  intros H. apply Rle_trans with (ulp32 24). { apply ulp_le_pos; [apply FLT_exp_valid; reflexivity|apply FLT_exp_monotone|lra|lra]. }
  rewrite ulp_neq_0 by lra. apply bpow_le. unfold cexp. rewrite (mag_unique_pos radix2 24 5).
  - vm_compute. discriminate.
  - rewrite (bpow_whole 4 ltac:(lia) : bpow radix2 (5 - 1) = _), (bpow_whole 5 ltac:(lia)). change (2 ^ 4) with 16. change (2 ^ 5) with 32. lra.
Qed.
(** The numbers of CTBs whose binary logarithm is too close to an integer for a float are none of these. *)
Definition near (n : Z) : bool := let m := n - 2 ^ Z.log2 n in (0 <? m) && (750000 * m <? n).
Lemma float_log2_exact log2f n : faithful log2f -> 1 <= n <= 2 ^ 23 -> near n = false -> float_ceil_log2 log2f n = ceil_log2 n.
Proof.
  intros F Hn Hnear. unfold float_ceil_log2, ceil_log2. rewrite round32_int by lia. destruct (F (IZR n) (format32_int n ltac:(lia)) ltac:(apply IZR_le; lia)) as [Ff Fe]. set (y := log2f (IZR n)) in *.
  apply Rabs_lt_inv in Fe.
  assert (L0 : (0 <= log2 (IZR n))%R). { rewrite <- (log2_pow2 0) by lia. apply log2_le. split; [apply IZR_lt; lia|apply IZR_le; lia]. }
  assert (L24 : (log2 (IZR n) <= 24)%R). { rewrite <- (log2_pow2 24) by lia. apply log2_le. split; [apply IZR_lt; lia|apply IZR_le; lia]. }
  destruct (Z.eq_dec n 1) as [->|N1].
  { change (Z.log2_up 1) with 0. assert (Z0 : log2 1 = 0%R) by exact (log2_pow2 0 ltac:(lia)). rewrite Z0 in *.
    assert (Y : y = 0%R).
    { destruct (Req_dec y 0) as [|Ny]; [assumption|exfalso]. pose proof (ulp_le_abs radix2 (FLT_exp (-149) 24) y Ny Ff) as U.
      pose proof (ulp_ge_ulp_0 radix2 (FLT_exp (-149) 24) _ y) as U0. assert (Rabs y < ulp32 0)%R by (apply Rabs_lt; lra). lra. }
    rewrite Y. change 0%R with (IZR 0). apply Zceil_IZR. }
  pose proof (Z.log2_up_spec n ltac:(lia)) as S. set (K := Z.log2_up n) in *. assert (Kp : 1 <= K) by (pose proof (Z.log2_up_pos n); lia).
  assert (K23 : K <= 23) by (subst K; rewrite <- (Z.log2_up_pow2 23) by lia; apply Z.log2_up_le_mono; lia).
  assert (LK : (log2 (IZR n) <= IZR K)%R). { rewrite <- (log2_pow2 K) by lia. apply log2_le. split; [apply IZR_lt; lia|apply IZR_le; lia]. }
  apply Zceil_imp. split.
  - (* above K - 1 *)
    rewrite minus_IZR. set (k := K - 1) in *. replace (IZR K - 1)%R with (IZR k) by (subst k; rewrite minus_IZR; ring). assert (Ek : Z.pred K = k) by lia. rewrite Ek in S.
    assert (Cl : n = 2 ^ (k + 1) \/ Z.log2 n = k).
    { destruct (Z.eq_dec n (2 ^ (k + 1))) as [E|E]; [left; exact E|right]. apply Z.log2_unique; [lia|]. replace (Z.succ k) with (k + 1) by lia. replace K with (k + 1) in S by lia. lia. }
    pose proof (ulp32_small (log2 (IZR n)) (conj L0 L24)) as U. rewrite (bpow_inv 19 ltac:(lia) : bpow radix2 (-19) = _) in U. change (2 ^ 19) with 524288 in U.
    assert (Hm : n <= 750000 * (n - 2 ^ k)).
    { destruct Cl as [E|E]; [rewrite E, Z.pow_add_r by lia; change (2 ^ 1) with 2; lia|]. unfold near in Hnear. cbv zeta in Hnear. rewrite E in Hnear. apply Bool.andb_false_iff in Hnear. destruct Hnear as [H|H]; apply Z.ltb_ge in H; lia. }
    (* log2 n - k = - log2 (2^k / n) >= (1 - 2^k / n) / ln 2 *)
    assert (Pn : (0 < IZR n)%R) by (apply IZR_lt; lia). assert (Pk : (0 < IZR (2 ^ k))%R) by (apply IZR_lt; lia).
    pose proof (ln_sub_1 (IZR (2 ^ k) / IZR n) ltac:(apply Rdiv_lt_0_compat; assumption)) as Q. unfold Rdiv in Q. rewrite ln_mult, ln_Rinv, ln_pow2 in Q by (try apply Rinv_0_lt_compat; try assumption; lia).
    assert (G : (1 / 750000 <= 1 - IZR (2 ^ k) * / IZR n)%R).
    { apply (Rmult_le_reg_r (IZR n)); [exact Pn|]. rewrite Rmult_minus_distr_r, Rmult_assoc, Rinv_l by lra. apply IZR_le in Hm. rewrite mult_IZR, minus_IZR in Hm. lra. }
    pose proof ln2_max as L2. pose proof ln2_pos as L2p. assert (E : (log2 (IZR n) * ln 2 = ln (IZR n))%R) by (unfold log2; field; lra).
    assert (D : (1 / 750000 <= (log2 (IZR n) - IZR k) * ln 2)%R) by lra. assert (D2 : (/ 524288 <= log2 (IZR n) - IZR k)%R) by nra. lra.
  - (* at most K *)
    destruct (Rle_or_lt y (IZR K)) as [H|H]; [exact H|exfalso]. assert (FK : format32 (IZR K)) by (apply format32_int; lia). assert (PK : (0 < IZR K)%R) by (apply IZR_lt; lia).
    assert (V : Valid_exp (FLT_exp (-149) 24)) by (apply FLT_exp_valid; reflexivity).
    pose proof (succ_le_lt radix2 (FLT_exp (-149) 24) (IZR K) y FK Ff H) as G. rewrite succ_eq_pos in G by lra.
    pose proof (ulp_le_pos radix2 (FLT_exp (-149) 24) (log2 (IZR n)) (IZR K) L0 LK). lra.
Qed.
Lemma near_products w h : 1 <= w <= 2111 -> 1 <= h <= 2111 -> near (w * h) = false.
Proof.
  intros Hw Hh. destruct (near (w * h)) eqn:E; [exfalso|reflexivity]. unfold near in E. cbv zeta in E. apply andb_prop in E. destruct E as [E1 E2]. apply Z.ltb_lt in E1, E2.
  assert (B : 1 <= w * h <= 4456321) by nia. pose proof (Z.log2_spec (w * h) ltac:(lia)) as S. set (n := w * h) in *. set (k := Z.log2 n) in *.
  assert (k <= 22) by (subst k; change 22 with (Z.log2 4456321); apply Z.log2_le_mono; lia). pose proof (Z.log2_nonneg n).
  assert (20 <= k). { destruct (Z_le_gt_dec 20 k); [assumption|]. assert (2 ^ Z.succ k <= 2 ^ 20) by (apply Z.pow_le_mono_r; lia). pose proof (Z.pow_succ_r 2 k ltac:(lia)). lia. }
  assert (N : In n [1048577; 2097153; 2097154; 4194305; 4194306; 4194307; 4194308; 4194309]).
  { assert (C : k = 20 \/ k = 21 \/ k = 22) by lia. destruct C as [C|[C|C]]; rewrite C in *; cbn in E1, E2, S |- *; lia. }
  assert (T : forallb (fun n => forallb (fun w => negb ((n mod w =? 0) && (n / w <=? 2111))) (map Z.of_nat (List.seq 1 2111)))
    [1048577; 2097153; 2097154; 4194305; 4194306; 4194307; 4194308; 4194309] = true) by (vm_compute; reflexivity).
  rewrite forallb_forall in T. specialize (T n N). cbv beta in T. rewrite forallb_forall in T. specialize (T w).
  assert (I : In w (map Z.of_nat (List.seq 1 2111))). { replace w with (Z.of_nat (Z.to_nat w)) by lia. apply in_map, in_seq. lia. }
  specialize (T I). subst n. rewrite (Z.mul_comm w h), Z.mod_mul, Z.div_mul in T by lia. destruct (Z.leb_spec h 2111); cbn in T; [discriminate|lia].
Qed.
Lemma near_small n : 1 <= n <= 64 -> near n = false.
Proof. intros H. unfold near. cbv zeta. destruct (Z.ltb_spec 0 (n - 2 ^ Z.log2 n)); [|reflexivity]. cbn. apply Z.ltb_ge. lia. Qed.
(** std::ceil of the double quotient by a power of two *)
Lemma float_ceil_div_exact a c : 0 <= a < 2 ^ 32 -> 0 <= c <= 32 -> float_ceil_div a (2 ^ c) = ceil_div a (2 ^ c).
Proof.
  intros Ha Hc. assert (P : 0 < 2 ^ c) by lia. assert (P2 : 2 ^ c <= 2 ^ 32) by (apply Z.pow_le_mono_r; lia). unfold float_ceil_div. rewrite (round64_int a), Rmult_1_l, (round64_int a), (round64_int (2 ^ c)) by lia.
  assert (E : round64 (IZR a / IZR (2 ^ c)) = (IZR a / IZR (2 ^ c))%R).
  { apply round_generic; [apply valid_rnd_N|]. unfold Rdiv. rewrite <- bpow_inv by lia. apply format64_dyadic; lia. }
  rewrite E. pose proof (ceil_div_spec a (2 ^ c) P) as Q. unfold is_ceil in Q. set (q := ceil_div a (2 ^ c)) in *. destruct Q as [Q1 Q2].
  assert (Pr : (0 < IZR (2 ^ c))%R) by (apply IZR_lt; lia). apply Zceil_imp. split.
  - apply (Rmult_lt_reg_r (IZR (2 ^ c))); [exact Pr|]. unfold Rdiv. rewrite Rmult_assoc, Rinv_l, Rmult_1_r, <- mult_IZR by lra. apply IZR_lt. lia.
  - apply (Rmult_le_reg_r (IZR (2 ^ c))); [exact Pr|]. unfold Rdiv. rewrite Rmult_assoc, Rinv_l, Rmult_1_r, <- mult_IZR by lra. apply IZR_le. lia.
Qed.
(** The size in CTBs computed with doubles is the integer one. *)
Theorem C82_ctbs : forall b s x b', wf b -> ParseSps b = Ok (s, x) b' ->
  is_ceil (float_ceil_div (pic_width_in_luma_samples s) (getCtbSizeY s)) (pic_width_in_luma_samples s) (CtbSize s) /\
  is_ceil (float_ceil_div (pic_height_in_luma_samples s) (getCtbSizeY s)) (pic_height_in_luma_samples s) (CtbSize s) /\
  u32 (float_ceil_div (pic_width_in_luma_samples s) (getCtbSizeY s)) = getPicWidthInCtbsY s /\
  u32 (float_ceil_div (pic_height_in_luma_samples s) (getCtbSizeY s)) = getPicHeightInCtbsY s.
Proof.
  intros b s x b' W E. pose proof (C30_ranges b s x b' W E) as H. destruct (C32_geometry b s x b' W E) as (_ & C & _ & R & _).
  assert (Hw : 1 <= pic_width_in_luma_samples s <= 16888) by tauto. assert (Hh : 1 <= pic_height_in_luma_samples s <= 16888) by tauto.
  assert (H1 : 0 <= log2_min_luma_coding_block_size_minus3 s <= 3) by tauto. assert (H2 : 0 <= log2_diff_max_min_luma_coding_block_size s <= 3) by tauto. clear H.
  unfold getPicWidthInCtbsY, getPicHeightInCtbsY. rewrite C. unfold CtbSize in *. rewrite !float_ceil_div_exact by lia.
  split; [apply ceil_div_spec; lia|]. split; [apply ceil_div_spec; lia|]. split; reflexivity.
Qed.
(** The numbers of bits of slice_segment_address, short_term_ref_pic_set_idx and lt_idx_sps computed with floats, whatever faithful log2f the C
    library has, are Ceil(Log2(n)): the least k with n <= 2^k. *)
Definition is_ceil_log2 (k n : Z) : Prop := 0 <= k /\ n <= 2 ^ k /\ forall j, 0 <= j -> n <= 2 ^ j -> k <= j.
Lemma log2_up_least n : 1 <= n -> is_ceil_log2 (Z.log2_up n) n.
Proof.
  intros H. split; [apply Z.log2_up_nonneg|]. split.
  - destruct (Z.eq_dec n 1) as [->|N]; [vm_compute; discriminate|]. apply Z.log2_up_spec. lia.
  - intros j Hj L. rewrite <- (Z.log2_up_pow2 j Hj). apply Z.log2_up_le_mono. exact L.
Qed.
Theorem C82_bits : forall log2f b s x b', faithful log2f -> wf b -> ParseSps b = Ok (s, x) b' ->
  (is_ceil_log2 (float_ceil_log2 log2f (getPicSizeInCtbsY s)) (getPicSizeInCtbsY s) /\
   float_ceil_log2 log2f (getPicSizeInCtbsY s) = ceil_log2 (getPicSizeInCtbsY s)) /\
  (1 <= num_short_term_ref_pic_sets s -> is_ceil_log2 (float_ceil_log2 log2f (num_short_term_ref_pic_sets s)) (num_short_term_ref_pic_sets s) /\
   float_ceil_log2 log2f (num_short_term_ref_pic_sets s) = ceil_log2 (num_short_term_ref_pic_sets s)) /\
  (1 <= num_long_term_ref_pics_sps s -> is_ceil_log2 (float_ceil_log2 log2f (num_long_term_ref_pics_sps s)) (num_long_term_ref_pics_sps s) /\
   float_ceil_log2 log2f (num_long_term_ref_pics_sps s) = ceil_log2 (num_long_term_ref_pics_sps s)).
Proof.
  intros log2f b s x b' F W E. pose proof (C30_ranges b s x b' W E) as H. destruct (C32_geometry b s x b' W E) as (_ & _ & _ & _ & _ & _ & Cw & Ch & -> & _).
  assert (H1 : 0 <= num_short_term_ref_pic_sets s <= 64) by tauto. assert (H2 : 0 <= num_long_term_ref_pics_sps s <= 32) by tauto. clear H.
  assert (G : forall n, 1 <= n <= 2 ^ 23 -> near n = false -> is_ceil_log2 (float_ceil_log2 log2f n) n /\ float_ceil_log2 log2f n = ceil_log2 n).
  { intros n Hn Nn. rewrite (float_log2_exact log2f n F Hn Nn). split; [apply log2_up_least; lia|reflexivity]. }
  split; [apply G; [nia|apply near_products; assumption]|]. split; intros P; apply G; try lia; apply near_small; lia.
Qed.
(** The restriction to sizes of pictures matters: for 2^22 + 1 even a correctly rounded log2f gives one bit too few. *)
Definition log2f_exact (x : R) : R := round32 (log2 x).
Lemma log2f_faithful : faithful log2f_exact.
Proof.
  intros x _ _. unfold log2f_exact. split; [apply generic_format_round; [exact valid32|apply valid_rnd_N]|].
  apply Rle_lt_trans with (/ 2 * ulp32 (log2 x))%R; [apply error_le_half_ulp; exact valid32|].
  assert (0 < ulp32 (log2 x))%R; [|lra]. apply Rlt_le_trans with (bpow radix2 (-149)); [apply bpow_gt_0|]. rewrite <- (ulp_FLT_0 radix2 (-149) 24). apply ulp_ge_ulp_0; typeclasses eauto.
Qed.
Theorem C82_bits_elsewhere : faithful log2f_exact /\ float_ceil_log2 log2f_exact (2 ^ 22 + 1) = 22 /\ is_ceil_log2 23 (2 ^ 22 + 1).
Proof.
  split; [exact log2f_faithful|]. split; [|exact (log2_up_least (2 ^ 22 + 1) ltac:(lia))]. unfold float_ceil_log2. rewrite round32_int by lia. unfold log2f_exact.
  set (v := log2 (IZR (2 ^ 22 + 1))). assert (F22 : format32 22) by exact (format32_int 22 ltac:(lia)).
  assert (V0 : (22 <= v)%R). { rewrite <- (log2_pow2 22) by lia. apply log2_le. split; [apply IZR_lt; lia|apply IZR_le; lia]. }
  assert (E : round32 v = 22%R); [|rewrite E; exact (Zceil_IZR 22)].
  apply Rle_antisym; [|apply round_ge_generic; [exact valid32|apply valid_rnd_N|exact F22|exact V0]].
  apply round_N_le_midp; [exact valid32|exact F22|]. rewrite succ_eq_pos by lra.
  assert (U : ulp32 22 = (/ 524288)%R).
  { rewrite ulp_neq_0 by lra. unfold cexp. rewrite (mag_unique_pos radix2 22 5); [exact (bpow_inv 19 ltac:(lia))|].
    rewrite (bpow_whole 4 ltac:(lia) : bpow radix2 (5 - 1) = _), (bpow_whole 5 ltac:(lia)). change (2 ^ 4) with 16. change (2 ^ 5) with 32. lra. }
  rewrite U. assert (L2 : (1 / 2 <= ln 2)%R). { pose proof (ln_sub_1 (/ 2) ltac:(lra)) as Q. rewrite ln_Rinv in Q by lra. lra. }
  assert (Ev : (v * ln 2 = ln (IZR (2 ^ 22 + 1)))%R) by (unfold v, log2; field; lra).
  assert (El : ln (IZR (2 ^ 22 + 1)) = (22 * ln 2 + ln (1 + / 4194304))%R).
  { rewrite <- (ln_pow2 22), <- ln_mult by (try (apply IZR_lt); try lia; lra). f_equal. change (2 ^ 22 + 1) with 4194305. change (2 ^ 22) with 4194304. lra. }
  pose proof (ln_sub_1 (1 + / 4194304) ltac:(lra)). assert ((v - 22) * ln 2 <= / 4194304)%R by lra. assert (v - 22 <= / 2097152)%R by nra. lra.
Qed.
Example C82_bits_case : float_ceil_log2 log2f_exact (getPicSizeInCtbsY C31_sps) = 9.
Proof. rewrite (float_log2_exact _ _ log2f_faithful); vm_compute; [reflexivity|split; discriminate|reflexivity]. Qed.

(** The decimals of the mastering display colour volume message, computed in double, are the exact ones. *)
Local Instance prec53 : Prec_gt_0 53 := eq_refl.
Lemma float_pr_f_exact d k x : 0 <= x < 2 ^ 32 -> 1 <= k <= 2 -> (d = 4 \/ d = 5)%nat -> float_pr_f d (IZR k / IZR (10 ^ Z.of_nat d)) x = pr_f d k x.
Proof.
  intros Hx Hk Hd. set (D := 10 ^ Z.of_nat d). assert (HD : 10000 <= D <= 100000) by (subst D; destruct Hd as [-> | ->]; cbn; lia). unfold float_pr_f, printf_f, pr_f. fold D. cbv zeta.
  assert (N : ZnearestE (round64 (round64 (IZR x) * round64 (IZR k / IZR D)) * IZR D) = k * x); [|rewrite N; reflexivity].
  rewrite round64_int by lia. destruct (Z.eq_dec x 0) as [->|X0].
  { rewrite Rmult_0_l, (round64_int 0), Rmult_0_l, Z.mul_0_r by lia. change 0%R with (IZR 0). apply Znearest_imp. rewrite Rminus_0_r, Rabs_R0. lra. }
  assert (Eps : forall y, (bpow radix2 (-1022) <= Rabs y)%R -> exists e, (Rabs e <= / 9007199254740992)%R /\ round64 y = (y * (1 + e))%R).
  { intros y Hy. destruct (relative_error_N_FLT_ex radix2 (-1074) 53 ltac:(lia) (fun x => negb (Z.even x)) y Hy) as (e & He & Ee). exists e. split; [|exact Ee].
    apply Rle_trans with (1 := He). right. rewrite (bpow_inv 52 ltac:(lia) : bpow radix2 (- (53) + 1) = _). change (2 ^ 52) with 4503599627370496. lra. }
  assert (Dp : (10000 <= IZR D <= 100000)%R) by (split; apply IZR_le; lia). assert (Kp : (1 <= IZR k <= 2)%R) by (split; apply IZR_le; lia).
  assert (Xp : (1 <= IZR x <= 4294967296)%R) by (split; apply IZR_le; lia).
  assert (C0 : (/ 131072 <= IZR k / IZR D)%R).
  { apply (Rmult_le_reg_r (IZR D)); [lra|]. unfold Rdiv. rewrite Rmult_assoc, Rinv_l by lra. lra. }
  assert (B17 : (bpow radix2 (-1022) <= / 262144)%R). { apply Rle_trans with (bpow radix2 (-18)); [apply bpow_le; lia|]. right. exact (bpow_inv 18 ltac:(lia)). }
  destruct (Eps (IZR k / IZR D)%R ltac:(rewrite Rabs_pos_eq by lra; lra)) as (e1 & H1 & E1). apply Rabs_le_inv in H1. rewrite E1.
  assert (P1 : (/ 262144 <= IZR x * (IZR k / IZR D * (1 + e1)))%R).
  { assert (/ 262144 <= IZR k / IZR D * (1 + e1))%R by nra. nra. }
  destruct (Eps (IZR x * (IZR k / IZR D * (1 + e1)))%R ltac:(rewrite Rabs_pos_eq by lra; lra)) as (e2 & H2 & E2). apply Rabs_le_inv in H2. rewrite E2.
  apply Znearest_imp. rewrite mult_IZR.
  replace (IZR x * (IZR k / IZR D * (1 + e1)) * (1 + e2) * IZR D - IZR k * IZR x)%R with ((IZR k * IZR x) * (e1 + e2 + e1 * e2))%R by (field; lra).
  assert (Q : (Rabs (e1 + e2 + e1 * e2) <= / 2251799813685248)%R) by (apply Rabs_le; nra). rewrite Rabs_mult, (Rabs_pos_eq (IZR k * IZR x)) by nra.
  apply Rle_lt_trans with (8589934592 * / 2251799813685248)%R; [|lra]. apply Rmult_le_compat; [nra|apply Rabs_pos|nra|exact Q].
Qed.
(** "%.5f" of x * 0.00002 and "%.4f" of x * 0.0001 for every uint32_t x: the decimal digits of the exact product. *)
Theorem C82_printed : forall x, 0 <= x < 2 ^ 32 ->
  float_pr_f 5 0.00002 x = pr_f 5 2 x /\ float_pr_f 4 0.0001 x = pr_f 4 1 x.
Proof.
  intros x Hx. split.
  - exact (float_pr_f_exact 5 2 x Hx ltac:(lia) ltac:(auto)).
  - exact (float_pr_f_exact 4 1 x Hx ltac:(lia) ltac:(auto)).
Qed.
Example C82_printed_case : float_pr_f 5 0.00002 34001 = "0.68002"%string.
Proof. rewrite (proj1 (C82_printed 34001 ltac:(lia))). vm_compute. reflexivity. Qed.
