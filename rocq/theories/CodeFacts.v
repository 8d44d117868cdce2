(** Exp-Golomb and non-symmetric writers, and call sequences. *)
From Coq Require Import ZArith List Bool Lia ZifyBool ZifyNat.
From Verif Require Import MBase MBitBuffer Spec BitsFacts Reader ReaderFacts Rules WriterFacts.
Import ListNotations.
Open Scope Z_scope.
Ltac Zify.zify_post_hook ::= Z.div_mod_to_equations.

(** [m] writes the bits [w] at the current position and advances past them; when there is no
    room it changes nothing. *)
Definition writes (m : M unit) (w : list bool) : Prop := forall b, wf b ->
  if Nat.leb (length w) (length (rem b)) then
    exists l', m b = Ok tt (adv (with_bytes b l') (length w))
      /\ length l' = length (bb_bytes b) /\ Forall is_byte l'
      /\ bits_of l' = splice (bits_of (bb_bytes b)) (Z.to_nat (pos b)) w
  else m b = Fail b.

Lemma writes_bits v n : 0 < n <= 64 -> writes (WriteBits v n) (enc_u (Z.to_nat n) v).
Proof.
  intros Hn b W. pose proof (WriteBits_spec v n b W Hn) as S. rewrite length_enc_u.
  destruct (Z.leb_spec n (Z.of_nat (length (rem b)))), (Nat.leb_spec (Z.to_nat n) (length (rem b)));
    try lia; assumption.
Qed.

Lemma CountBits_spec v : 0 <= v < 2 ^ 64 ->
  CountBits v = if v =? 0 then 0 else Z.log2 v + 1.
Proof.
  intros H. unfold CountBits.
  assert (G : forall fuel c v, 0 <= v < 2 ^ Z.of_nat fuel ->
    CountBits_loop fuel c v = c + (if v =? 0 then 0 else Z.log2 v + 1)).
  { clear. induction fuel as [|f IH]; intros c v H; cbn [CountBits_loop].
    - change (2 ^ Z.of_nat 0) with 1 in H. destruct (Z.eqb_spec v 0); lia.
    - destruct (Z.eqb_spec v 0) as [|N]; [lia|].
      rewrite Nat2Z.inj_succ, Z.pow_succ_r in H by lia.
      rewrite Z.shiftr_div_pow2 by lia. change (2 ^ 1) with 2.
      rewrite IH by lia. destruct (Z.eqb_spec (v / 2) 0) as [E|E].
      + assert (v = 1) by lia. subst v. change (Z.log2 1) with 0. lia.
      + assert (L : Z.log2 v = Z.succ (Z.log2 (v / 2))).
        { destruct (Z.eqb_spec (v mod 2) 0) as [P|P].
          - replace v with (2 * (v / 2)) at 1 by lia. apply Z.log2_double. lia.
          - replace v with (2 * (v / 2) + 1) at 1 by lia. apply Z.log2_succ_double. lia. }
        lia. }
  rewrite (G 64%nat) by (exact H). reflexivity.
Qed.

Lemma enc_u_pad n m v : 0 <= v < 2 ^ Z.of_nat m -> enc_u (n + m) v = repeat false n ++ enc_u m v.
Proof.
  intros H. induction n as [|n IH]; [reflexivity|].
  cbn [Nat.add enc_u repeat app]. rewrite IH. f_equal.
  rewrite <- (Z.mod_small v (2 ^ Z.of_nat m)) by assumption.
  apply Z.mod_pow2_bits_high. lia.
Qed.

Lemma ue_zeros_lt k : 0 <= k < 2 ^ 32 - 1 -> (ue_zeros k < 32)%nat.
Proof.
  intros H. unfold ue_zeros. pose proof (Z.log2_nonneg (k + 1)).
  assert (Z.log2 (k + 1) < 32) by (apply Z.log2_lt_pow2; lia). lia.
Qed.

Lemma writes_ue k : 0 <= k < 2 ^ 32 - 1 -> writes (WriteExponentialGolomb k) (enc_ue k).
Proof.
  intros H. unfold WriteExponentialGolomb, u32_max.
  destruct (Z.eqb_spec k (2 ^ 32 - 1)) as [|_]; [lia|].
  rewrite CountBits_spec by lia. destruct (Z.eqb_spec (k + 1) 0) as [|_]; [lia|].
  pose proof (ue_zeros_lt k H) as Z32. pose proof (ue_zeros_spec k ltac:(lia)) as S.
  pose proof (Z.log2_nonneg (k + 1)).
  assert (U : Z.of_nat (ue_zeros k) = Z.log2 (k + 1)) by (unfold ue_zeros; lia).
  unfold enc_ue. rewrite <- enc_u_pad by (rewrite Nat2Z.inj_succ, <- Z.add_1_r; lia).
  replace (ue_zeros k + Datatypes.S (ue_zeros k))%nat with (Z.to_nat ((Z.log2 (k + 1) + 1) * 2 - 1)) by lia.
  apply writes_bits. lia.
Qed.

Lemma writes_se v : - 2 ^ 31 < v < 2 ^ 31 -> writes (WriteSignedExponentialGolomb v) (enc_se v).
Proof.
  intros H. unfold WriteSignedExponentialGolomb, enc_se, ue_of_se.
  destruct (Z.eqb_spec v 0) as [->|N].
  - change (if 0 <? 0 then 2 * 0 - 1 else - 2 * 0) with 0. apply writes_ue. lia.
  - destruct (Z.ltb_spec 0 v).
    + unfold u32. rewrite Z.mod_small by lia. replace (v * 2 - 1) with (2 * v - 1) by lia.
      apply writes_ue. lia.
    + destruct (Z.eqb_spec v (- 2 ^ 31)) as [|_]; [lia|].
      unfold u32. rewrite Z.mod_small by lia. replace (- v * 2) with (- 2 * v) by lia.
      apply writes_ue. lia.
Qed.

(** * Non-symmetric code *)
Lemma ns_bounds n : 2 <= n < 2 ^ 31 ->
  2 <= ns_width n <= 31 /\ 2 ^ (ns_width n - 1) <= n < 2 ^ ns_width n.
Proof.
  intros H. unfold ns_width.
  assert (1 <= Z.log2 n) by (change 1 with (Z.log2 2); apply Z.log2_le_mono; lia).
  assert (Z.log2 n < 31) by (apply Z.log2_lt_pow2; lia).
  pose proof (Z.log2_spec n ltac:(lia)) as S. rewrite <- Z.add_1_r in S.
  replace (Z.log2 n + 1 - 1) with (Z.log2 n) by lia. lia.
Qed.

Lemma ns_min n : 2 <= n < 2 ^ 31 -> u32 (2 ^ CountBits n - n) = 2 ^ ns_width n - n.
Proof.
  intros H. pose proof (ns_bounds n H) as [W B].
  rewrite CountBits_spec by lia. destruct (Z.eqb_spec n 0); [lia|]. fold (ns_width n).
  unfold u32. apply Z.mod_small.
  assert (2 ^ ns_width n <= 2 ^ 31) by (apply Z.pow_le_mono_r; lia). lia.
Qed.

Lemma ns_count n : 2 <= n < 2 ^ 31 -> CountBits n = ns_width n.
Proof.
  intros H. rewrite CountBits_spec by lia. destruct (Z.eqb_spec n 0); [lia|]. reflexivity.
Qed.

Lemma enc_u_snoc m v : enc_u (S m) v = enc_u m (v / 2) ++ enc_u 1 (v mod 2).
Proof.
  apply bval_inj.
  - rewrite app_length, !length_enc_u. lia.
  - rewrite bval_app, !bval_enc_u, length_enc_u. change (Z.of_nat 1) with 1. change (2 ^ 1) with 2.
    rewrite Nat2Z.inj_succ, Z.pow_succ_r by lia.
    rewrite Z.mod_mod by lia. rewrite (Z.mul_comm 2). rewrite (Z.mul_comm _ 2).
    rewrite (Z.rem_mul_r v 2) by lia. lia.
Qed.

Lemma parses_ns n v : 2 <= n < 2 ^ 31 -> 0 <= v < n ->
  parses (ReadNonSymmetric n) (enc_ns n v) v.
Proof.
  intros Hn Hv. pose proof (ns_bounds n Hn) as [W B].
  unfold ReadNonSymmetric. rewrite ns_min, ns_count by assumption.
  destruct (_ || _) eqn:C; [lia|clear C].
  destruct (Z.leb_spec 32 (ns_width n)) as [|_]; [lia|].
  unfold enc_ns. set (w := ns_width n) in *. set (m := 2 ^ w - n) in *. cbv zeta.
  assert (P : 2 ^ w = 2 * 2 ^ (w - 1)).
  { replace w with (Z.succ (w - 1)) at 1 by lia. apply Z.pow_succ_r. lia. }
  destruct (Z.ltb_spec v m) as [L|L].
  - rewrite <- (app_nil_r (enc_u _ _)). eapply parses_bind; [apply parses_u; lia|].
    destruct (Z.ltb_spec v m) as [_|]; [|lia]. apply parses_ret.
  - replace (Z.to_nat w) with (S (Z.to_nat (w - 1))) by lia. rewrite enc_u_snoc.
    eapply parses_bind; [apply parses_u; lia|].
    destruct (Z.ltb_spec ((v + m) / 2) m) as [|_]; [lia|].
    rewrite <- (app_nil_r (enc_u 1 _)). eapply parses_bind; [apply (parses_u 1); lia|].
    apply parses_ret_eq. unfold u32.
    replace ((v + m) / 2 * 2 + (v + m) mod 2 - m) with v by lia.
    apply Z.mod_small. lia.
Qed.

Lemma writes_ns n v : 2 <= n < 2 ^ 31 -> 0 <= v < n ->
  writes (WriteNonSymmetric v n) (enc_ns n v).
Proof.
  intros Hn Hv. pose proof (ns_bounds n Hn) as [W B].
  unfold WriteNonSymmetric. rewrite ns_min, ns_count by assumption.
  destruct (_ || _) eqn:C; [lia|clear C].
  destruct (Z.leb_spec 32 (ns_width n)) as [|_]; [lia|].
  assert (2 ^ ns_width n <= 2 ^ 31) by (apply Z.pow_le_mono_r; lia).
  unfold enc_ns. destruct (Z.ltb_spec v (2 ^ ns_width n - n)) as [L|L].
  - apply writes_bits. lia.
  - unfold u32. rewrite Z.mod_small by lia. apply writes_bits. lia.
Qed.

Lemma size_ns n v : 2 <= n < 2 ^ 31 -> 0 <= v < n ->
  SizeNonSymmetricBits v n = Z.of_nat (length (enc_ns n v)).
Proof.
  intros Hn Hv. pose proof (ns_bounds n Hn) as [W B].
  unfold SizeNonSymmetricBits, enc_ns. rewrite ns_min, ns_count by assumption.
  destruct (Z.ltb_spec v (2 ^ ns_width n - n)); rewrite length_enc_u; lia.
Qed.

(** * Round trip: what [m] writes, [r] reads. *)
Lemma rem_written b l' w : wf b -> (length w <= length (rem b))%nat ->
  length l' = length (bb_bytes b) ->
  bits_of l' = splice (bits_of (bb_bytes b)) (Z.to_nat (pos b)) w ->
  rem (with_bytes b l') = w ++ skipn (length w) (rem b).
Proof.
  intros W Hr Hl E. pose proof (length_rem b W) as L. destruct W as (Hb & Hc & H32 & Hby & Hbi & Hp).
  unfold rem, pos in *. cbn [with_bytes bb_bytes bb_count bb_byte bb_bit].
  rewrite E, skipn_splice by (rewrite length_bits_of; lia). rewrite skipn_skipn'. reflexivity.
Qed.

Lemma write_read {A} (wr : M unit) (rd : M A) w v :
  writes wr w -> parses rd w v ->
  forall b, wf b -> match wr b with
    | Ok _ b' => rd (mkBB (bb_bytes b') (bb_count b') (bb_byte b) (bb_bit b)) = Ok v b'
    | Fail b' => b' = b /\ (length (rem b) < length w)%nat
    | Err _ => False
    end.
Proof.
  intros Hw Hr b W. specialize (Hw b W).
  destruct (Nat.leb_spec (length w) (length (rem b))) as [L|L].
  - destruct Hw as (l' & -> & Hl & Hf & E).
    pose proof (rem_written b l' w W L Hl E) as R.
    cbn [adv with_bytes bb_bytes bb_count bb_byte bb_bit].
    apply (Hr (with_bytes b l') _ (wf_with_bytes b l' W Hl Hf) R).
  - rewrite Hw. auto.
Qed.
