(** Facts about the bit-level vocabulary of [Spec]. *)
From Coq Require Import ZArith List Bool Lia ZifyBool.
From Verif Require Import Spec.
Import ListNotations.
Open Scope Z_scope.

Ltac Zify.zify_post_hook ::= Z.div_mod_to_equations.

Lemma bval_range l : 0 <= bval l < 2 ^ Z.of_nat (length l).
Proof.
  induction l as [|x l IH]; cbn [bval length]; [lia|].
  rewrite Nat2Z.inj_succ, Z.pow_succ_r by lia.
  destruct x; cbn [Z.b2z]; lia.
Qed.

Lemma bval_app l1 l2 : bval (l1 ++ l2) = bval l1 * 2 ^ Z.of_nat (length l2) + bval l2.
Proof.
  induction l1 as [|x l IH]; cbn [bval app]; [lia|].
  rewrite IH, app_length, Nat2Z.inj_add, Z.pow_add_r by lia. ring.
Qed.

Lemma length_enc_u n v : length (enc_u n v) = n.
Proof. induction n; cbn; congruence. Qed.

Lemma length_byte_bits x : length (byte_bits x) = 8%nat.
Proof. reflexivity. Qed.

Lemma length_bits_of l : length (bits_of l) = (8 * length l)%nat.
Proof.
  induction l as [|x l IH]; [reflexivity|].
  unfold bits_of in *. cbn [flat_map]. rewrite app_length, IH, length_byte_bits. cbn. lia.
Qed.

Lemma bits_of_app l1 l2 : bits_of (l1 ++ l2) = bits_of l1 ++ bits_of l2.
Proof. apply flat_map_app. Qed.

Lemma bits_of_cons x l : bits_of (x :: l) = byte_bits x ++ bits_of l.
Proof. reflexivity. Qed.

Lemma bval_enc_u n v : bval (enc_u n v) = v mod 2 ^ Z.of_nat n.
Proof.
  induction n as [|n IH]; cbn [bval enc_u].
  - change (2 ^ Z.of_nat 0) with 1. rewrite Z.mod_1_r. reflexivity.
  - rewrite length_enc_u, IH, Nat2Z.inj_succ, Z.pow_succ_r by lia.
    assert (Hp : 0 < 2 ^ Z.of_nat n) by (apply Z.pow_pos_nonneg; lia).
    rewrite (Z.mul_comm 2 (2 ^ _)), Z.rem_mul_r by lia.
    rewrite Z.testbit_spec' by lia. lia.
Qed.

Lemma enc_u_bval l : enc_u (length l) (bval l) = l.
Proof.
  assert (H : forall n v a, enc_u n (a * 2 ^ Z.of_nat n + v) = enc_u n v).
  { induction n as [|n IH]; intros v a; [reflexivity|].
    cbn [enc_u]. f_equal.
    - rewrite Nat2Z.inj_succ, Z.pow_succ_r by lia.
      apply Z.b2z_inj. rewrite !Z.testbit_spec' by lia.
      replace (a * (2 * 2 ^ Z.of_nat n) + v) with (v + (2 * a) * 2 ^ Z.of_nat n) by ring.
      rewrite Z.div_add by (apply Z.pow_nonzero; lia).
      rewrite Z.add_comm, Z.mul_comm, Z.add_mod, Z.mod_mul by lia.
      rewrite Z.add_0_l, Z.mod_mod by lia. reflexivity.
    - rewrite Nat2Z.inj_succ, Z.pow_succ_r by lia.
      replace (a * (2 * 2 ^ Z.of_nat n) + v) with ((2 * a) * 2 ^ Z.of_nat n + v) by ring.
      apply IH. }
  induction l as [|x l IH]; [reflexivity|].
  cbn [length enc_u bval]. f_equal.
  - apply Z.b2z_inj. rewrite Z.testbit_spec' by lia.
    pose proof (bval_range l).
    rewrite Z.add_comm, Z.div_add by lia. rewrite Z.div_small by lia.
    destruct x; reflexivity.
  - rewrite H. exact IH.
Qed.

Lemma bval_inj l1 l2 : length l1 = length l2 -> bval l1 = bval l2 -> l1 = l2.
Proof.
  intros Hl Hv. rewrite <- (enc_u_bval l1), <- (enc_u_bval l2). congruence.
Qed.

Lemma enc_u_small n v : 0 <= v < 2 ^ Z.of_nat n -> bval (enc_u n v) = v.
Proof. intros. rewrite bval_enc_u. apply Z.mod_small; lia. Qed.

Lemma firstn_app_exact {A} (l1 l2 : list A) n :
  n = length l1 -> firstn n (l1 ++ l2) = l1.
Proof.
  intros ->. rewrite firstn_app, Nat.sub_diag, firstn_all, firstn_O, app_nil_r. reflexivity.
Qed.
Lemma skipn_app_exact {A} (l1 l2 : list A) n :
  n = length l1 -> skipn n (l1 ++ l2) = l2.
Proof.
  intros ->. rewrite skipn_app, Nat.sub_diag, skipn_all. reflexivity.
Qed.
Lemma skipn_skipn' {A} (l : list A) n m : skipn n (skipn m l) = skipn (m + n) l.
Proof.
  revert l; induction m as [|m IH]; intros l; [reflexivity|].
  destruct l; [rewrite !skipn_nil; reflexivity|]. cbn. apply IH.
Qed.

Lemma bits_of_skipn l n : bits_of (skipn n l) = skipn (8 * n) (bits_of l).
Proof.
  revert l; induction n as [|n IH]; intros l; [reflexivity|].
  destruct l as [|x l]; [rewrite skipn_nil, skipn_nil; reflexivity|].
  replace (8 * S n)%nat with (8 + 8 * n)%nat by lia.
  rewrite <- skipn_skipn'. cbn [skipn]. rewrite bits_of_cons. rewrite IH. reflexivity.
Qed.
Lemma bits_of_firstn l n : bits_of (firstn n l) = firstn (8 * n) (bits_of l).
Proof.
  revert l; induction n as [|n IH]; intros l; [reflexivity|].
  destruct l as [|x l]; [rewrite !firstn_nil; reflexivity|].
  replace (8 * S n)%nat with (8 + 8 * n)%nat by lia.
  rewrite firstn_cons, !bits_of_cons, IH.
  rewrite firstn_app, length_byte_bits.
  rewrite (firstn_all2 (byte_bits x)) by (cbn; lia).
  f_equal. f_equal. lia.
Qed.

Lemma bits_of_inj l1 l2 : Forall is_byte l1 -> Forall is_byte l2 ->
  bits_of l1 = bits_of l2 -> l1 = l2.
Proof.
  intros H1; revert l2; induction H1 as [|x l Hx Hl IH]; intros l2 H2 E.
  - destruct l2; [reflexivity|discriminate].
  - destruct H2 as [|y l2 Hy Hl2]; [discriminate|].
    rewrite !bits_of_cons in E.
    assert (Ex : byte_bits x = byte_bits y).
    { apply (f_equal (firstn 8)) in E. rewrite !firstn_app_exact in E by reflexivity. exact E. }
    assert (El : bits_of l = bits_of l2).
    { apply (f_equal (skipn 8)) in E. rewrite !skipn_app_exact in E by reflexivity. exact E. }
    f_equal; [|apply IH; assumption].
    assert (V : forall z, is_byte z -> bval (byte_bits z) = z).
    { intros z Hz. change (byte_bits z) with (enc_u 8 z). apply enc_u_small. exact Hz. }
    rewrite <- (V x), <- (V y) by assumption. congruence.
Qed.

Lemma byte_bits_enc x : byte_bits x = enc_u 8 x.
Proof. reflexivity. Qed.
