(** The bit writer overwrites exactly the addressed bits. *)
From Coq Require Import ZArith List Bool Lia ZifyBool ZifyNat.
From Verif Require Import MBase MBitBuffer Spec BitsFacts Reader ReaderFacts.
Import ListNotations.
Open Scope Z_scope.
Ltac Zify.zify_post_hook ::= Z.div_mod_to_equations.

(** [bs] with the bits from position [at_] on overwritten by [w]. *)
Definition splice (bs : list bool) (at_ : nat) (w : list bool) : list bool :=
  firstn at_ bs ++ w ++ skipn (at_ + length w) bs.

Lemma length_splice bs a w : (a + length w <= length bs)%nat -> length (splice bs a w) = length bs.
Proof. intros H. unfold splice. rewrite !app_length, firstn_length, skipn_length. lia. Qed.

Lemma splice_splice bs a w1 w2 : (a + length w1 + length w2 <= length bs)%nat ->
  splice (splice bs a w1) (a + length w1) w2 = splice bs a (w1 ++ w2).
Proof.
  intros H. unfold splice.
  assert (L : length (firstn a bs ++ w1) = (a + length w1)%nat).
  { rewrite app_length, firstn_length. lia. }
  rewrite (app_assoc (firstn a bs) w1), (firstn_app_exact _ _ _ (eq_sym L)).
  rewrite <- (skipn_skipn' _ (length w2) (a + length w1)).
  rewrite (skipn_app_exact _ _ _ (eq_sym L)).
  rewrite skipn_skipn', app_length, <- !app_assoc, Nat.add_assoc. reflexivity.
Qed.

Lemma firstn_splice bs a w : (a <= length bs)%nat -> firstn a (splice bs a w) = firstn a bs.
Proof. intros H. unfold splice. apply firstn_app_exact. rewrite firstn_length. lia. Qed.

Lemma skipn_splice bs a w : (a + length w <= length bs)%nat ->
  skipn a (splice bs a w) = w ++ skipn (a + length w) bs.
Proof. intros H. unfold splice. apply skipn_app_exact. rewrite firstn_length. lia. Qed.

(** * One byte *)
Lemma set_byte_bits l i x : 0 <= i < Z.of_nat (length l) ->
  exists l', set_byte l i x = Some l' /\ length l' = length l /\
    (is_byte x -> Forall is_byte l -> Forall is_byte l') /\
    bits_of l' = splice (bits_of l) (8 * Z.to_nat i) (byte_bits x).
Proof.
  intros H. unfold set_byte. destruct (_ || _) eqn:C; [lia|]. eexists; split; [reflexivity|].
  split; [|split].
  - rewrite app_length, firstn_length. cbn [length]. rewrite skipn_length. lia.
  - intros Hx Hl. apply Forall_app. split.
    + apply Forall_forall. intros y Hy. rewrite Forall_forall in Hl. apply Hl.
      rewrite <- (firstn_skipn (Z.to_nat i) l). apply in_or_app. auto.
    + constructor; [assumption|]. apply Forall_forall. intros y Hy. rewrite Forall_forall in Hl.
      apply Hl. rewrite <- (firstn_skipn (S (Z.to_nat i)) l). apply in_or_app. auto.
  - unfold splice. rewrite bits_of_app, bits_of_cons, bits_of_firstn, bits_of_skipn.
    f_equal. f_equal. f_equal. rewrite length_byte_bits. lia.
Qed.

Lemma u8_testbit x j : 0 <= j < 8 -> Z.testbit (u8 x) j = Z.testbit x j.
Proof. intros H. unfold u8. rewrite Z.mod_pow2_bits_low by lia. reflexivity. Qed.

Lemma low_zero s k i : s mod 2 ^ k = 0 -> 0 <= i < k -> Z.testbit s i = false.
Proof.
  intros H Hi. rewrite <- (Z.mod_pow2_bits_low s k i) by lia. rewrite H. apply Z.bits_0.
Qed.

Lemma WritePartialByte_bits src cnt x off :
  is_byte src -> 0 <= off < 8 -> 1 <= cnt <= 8 - off ->
  cnt = 8 - off \/ src mod 2 ^ (8 - cnt) = 0 ->
  byte_bits (WritePartialByte src cnt x off)
  = splice (byte_bits x) (Z.to_nat off) (firstn (Z.to_nat cnt) (byte_bits src)).
Proof.
  intros Hsrc Hoff Hcnt Hz.
  assert (B : forall j, 0 <= j < 8 ->
    Z.testbit (WritePartialByte src cnt x off) j =
    (Z.testbit x j && negb (Z.testbit (u8 (Z.shiftl 255 (8 - cnt))) (j + off)))
    || Z.testbit src (j + off)).
  { intros j Hj. unfold WritePartialByte. rewrite u8_testbit by assumption.
    rewrite Z.lor_spec, Z.land_spec, Z.lnot_spec, !Z.shiftr_spec by lia. reflexivity. }
  assert (Z0 : cnt = 8 - off \/ forall i, 0 <= i < 8 - cnt -> Z.testbit src i = false).
  { destruct Hz as [|Hz]; [auto|right]. intros i Hi. eapply low_zero; eassumption. }
  clear Hz.
  assert (Z1 : forall i, 8 <= i -> Z.testbit src i = false).
  { intros i Hi. rewrite <- (Z.mod_small src (2 ^ 8)) by exact Hsrc.
    apply Z.mod_pow2_bits_high. lia. }
  unfold byte_bits at 1. rewrite !B by lia. clear B.
  assert (Hoff' : off = 0 \/ off = 1 \/ off = 2 \/ off = 3 \/ off = 4 \/ off = 5 \/ off = 6 \/ off = 7) by lia.
  assert (Hcnt' : cnt = 1 \/ cnt = 2 \/ cnt = 3 \/ cnt = 4 \/ cnt = 5 \/ cnt = 6 \/ cnt = 7 \/ cnt = 8) by lia.
  destruct Hoff' as [->|[->|[->|[->|[->|[->|[->| ->]]]]]]];
  destruct Hcnt' as [->|[->|[->|[->|[->|[->|[->| ->]]]]]]]; try lia;
  cbv [splice byte_bits firstn skipn app length Nat.add Z.to_nat Pos.to_nat Pos.iter_op];
  rewrite ?(Z1 8), ?(Z1 9), ?(Z1 10), ?(Z1 11), ?(Z1 12), ?(Z1 13), ?(Z1 14) by lia;
  repeat match goal with |- context [Z.testbit (u8 ?e) ?j] =>
    let v := eval vm_compute in (Z.testbit (u8 e) j) in
    change (Z.testbit (u8 e) j) with v end;
  (destruct Z0 as [Z0|Z0]; [try discriminate Z0; clear Z0|]);
  repeat match goal with |- context [Z.testbit src (?a + ?b)] =>
    let v := eval vm_compute in (a + b) in change (a + b) with v end;
  cbn [negb andb orb].
  all: try rewrite (Z0 0) by lia.
  all: try rewrite (Z0 1) by lia.
  all: try rewrite (Z0 2) by lia.
  all: try rewrite (Z0 3) by lia.
  all: try rewrite (Z0 4) by lia.
  all: try rewrite (Z0 5) by lia.
  all: try rewrite (Z0 6) by lia.
  all: rewrite ?andb_false_r, ?andb_true_r, ?(Z1 8), ?(Z1 9), ?(Z1 10), ?(Z1 11), ?(Z1 12), ?(Z1 13), ?(Z1 14) by lia.
  all: rewrite ?orb_false_r, ?orb_false_l; reflexivity.
Qed.

Lemma is_byte_WritePartialByte src cnt x off : is_byte (WritePartialByte src cnt x off).
Proof. unfold WritePartialByte, u8, is_byte. apply Z.mod_pos_bound. reflexivity. Qed.

(** Overwriting inside one segment of a list. *)
Lemma splice_inside A B C off w : (off + length w <= length B)%nat ->
  splice (A ++ B ++ C) (length A) (splice B off w) = splice (A ++ B ++ C) (length A + off) w.
Proof.
  intros H. unfold splice at 1. rewrite length_splice by assumption.
  rewrite firstn_app_exact by reflexivity.
  rewrite (app_assoc A B C), (skipn_app_exact (A ++ B)) by (rewrite app_length; lia).
  unfold splice. rewrite <- !app_assoc.
  rewrite (firstn_app (length A + off) A), (firstn_all2 (n := length A + off)) by lia.
  replace (length A + off - length A)%nat with off by lia.
  rewrite (firstn_app off B).
  replace (off - length B)%nat with 0%nat by lia. rewrite firstn_O, app_nil_r, <- app_assoc.
  do 3 f_equal.
  rewrite (skipn_app _ A), (skipn_all2 A) by lia. cbn [app].
  replace (length A + off + length w - length A)%nat with (off + length w)%nat by lia.
  rewrite skipn_app. replace (off + length w - length B)%nat with 0%nat by lia. reflexivity.
Qed.

Lemma bits_at_byte l p x : nth_error l p = Some x ->
  bits_of l = firstn (8 * p) (bits_of l) ++ byte_bits x ++ skipn (8 * p + 8) (bits_of l).
Proof.
  intros H. rewrite <- (firstn_skipn p l) at 1. rewrite bits_of_app, bits_of_firstn.
  f_equal. rewrite (skipn_nth _ _ _ H), bits_of_cons. f_equal. rewrite bits_of_skipn. f_equal. lia.
Qed.

Lemma splice_byte l p x off w : nth_error l p = Some x -> (off + length w <= 8)%nat ->
  splice (bits_of l) (8 * p) (splice (byte_bits x) off w) = splice (bits_of l) (8 * p + off) w.
Proof.
  intros H Hw.
  assert (L : (p < length l)%nat) by (apply nth_error_Some; congruence).
  pose proof (bits_at_byte l p x H) as E.
  assert (LA : length (firstn (8 * p) (bits_of l)) = (8 * p)%nat).
  { rewrite firstn_length, length_bits_of. lia. }
  revert E LA. generalize (firstn (8 * p) (bits_of l)) (skipn (8 * p + 8) (bits_of l)).
  intros A C -> <-. apply splice_inside. rewrite length_byte_bits. exact Hw.
Qed.

(** * The 64-bit working value: the bits still to write, left justified. *)
Definition just64 (w : list bool) : list bool := w ++ repeat false (64 - length w).
Definition val64 (w : list bool) : Z := bval (just64 w).

Lemma length_just64 w : (length w <= 64)%nat -> length (just64 w) = 64%nat.
Proof. intros H. unfold just64. rewrite app_length, repeat_length. lia. Qed.

Lemma bval_repeat_false n : bval (repeat false n) = 0.
Proof. induction n as [|n IH]; cbn [bval repeat Z.b2z]; [reflexivity|]. rewrite IH. reflexivity. Qed.

Lemma val64_init v n : 0 < n <= 64 ->
  u64 (Z.shiftl v (64 - n)) = val64 (enc_u (Z.to_nat n) v).
Proof.
  intros Hn. unfold val64, just64. rewrite bval_app, bval_repeat_false, Z.add_0_r, repeat_length,
    length_enc_u, bval_enc_u, Z.shiftl_mul_pow2 by lia.
  rewrite Z2Nat.id by lia. replace (Z.of_nat (64 - Z.to_nat n)) with (64 - n) by lia.
  unfold u64. rewrite <- Z.mul_mod_distr_r by lia. rewrite <- Z.pow_add_r by lia.
  do 2 f_equal. lia.
Qed.

Lemma val64_shift w k : (k <= length w <= 64)%nat ->
  u64 (Z.shiftl (val64 w) (Z.of_nat k)) = val64 (skipn k w).
Proof.
  intros H. unfold val64, just64. rewrite <- (firstn_skipn k w) at 1.
  rewrite <- app_assoc. rewrite skipn_length.
  replace (repeat false (64 - (length w - k))) with (repeat false (64 - length w) ++ repeat false k)
    by (rewrite <- repeat_app; f_equal; lia).
  rewrite (bval_app (firstn k w)), (app_assoc (skipn k w)), (bval_app _ (repeat false k)).
  rewrite bval_repeat_false, repeat_length, Z.add_0_r.
  set (S := skipn k w ++ repeat false (64 - length w)).
  assert (LS : length S = (64 - k)%nat).
  { unfold S. rewrite app_length, skipn_length, repeat_length. lia. }
  rewrite LS, Z.shiftl_mul_pow2, Z.mul_add_distr_r by lia.
  rewrite <- Z.mul_assoc, <- Z.pow_add_r by lia.
  replace (Z.of_nat (64 - k) + Z.of_nat k) with 64 by lia.
  unfold u64. rewrite Z.add_comm, Z.mod_add by lia. apply Z.mod_small.
  pose proof (bval_range S) as R. rewrite LS in R.
  split; [nia|].
  replace (2 ^ 64) with (2 ^ Z.of_nat (64 - k) * 2 ^ Z.of_nat k)
    by (rewrite <- Z.pow_add_r by lia; f_equal; lia).
  pose proof (Z.pow_pos_nonneg 2 (Z.of_nat k)). nia.
Qed.

Lemma HighestByte_val64 w : (length w <= 64)%nat ->
  HighestByte (val64 w) = bval (firstn 8 (just64 w)).
Proof.
  intros H. unfold HighestByte, val64. pose proof (length_just64 w H) as L.
  rewrite <- (firstn_skipn 8 (just64 w)) at 1. rewrite bval_app, skipn_length, L.
  rewrite Z.shiftr_div_pow2 by lia. change (Z.of_nat (64 - 8)) with 56.
  pose proof (bval_range (skipn 8 (just64 w))) as R. rewrite skipn_length, L in R.
  change (Z.of_nat (64 - 8)) with 56 in R.
  rewrite Z.add_comm, Z.div_add, Z.div_small by lia. rewrite Z.add_0_l.
  pose proof (bval_range (firstn 8 (just64 w))) as R2. rewrite firstn_length, L in R2.
  unfold u8. apply Z.mod_small. exact R2.
Qed.

Lemma byte_bits_bval l : length l = 8%nat -> byte_bits (bval l) = l.
Proof. intros H. rewrite byte_bits_enc, <- H. apply enc_u_bval. Qed.

Lemma is_byte_HighestByte v : is_byte (HighestByte v).
Proof. unfold HighestByte, u8, is_byte. apply Z.mod_pos_bound. reflexivity. Qed.

Lemma byte_bits_Highest w : (length w <= 64)%nat ->
  byte_bits (HighestByte (val64 w)) = firstn 8 (just64 w).
Proof.
  intros H. rewrite HighestByte_val64 by assumption. apply byte_bits_bval.
  rewrite firstn_length, length_just64 by assumption. reflexivity.
Qed.

Lemma firstn_just64 k w : (k <= length w)%nat -> firstn k (just64 w) = firstn k w.
Proof. intros H. unfold just64. rewrite firstn_app. replace (k - length w)%nat with 0%nat by lia.
  rewrite firstn_O, app_nil_r. reflexivity. Qed.

(** Whole bytes. *)
Lemma write_loop_spec : forall fuel l p w,
  Forall is_byte l -> 0 <= p -> (length w <= 64)%nat -> (length w < 8 * fuel + 8)%nat ->
  8 * p + Z.of_nat (length w) <= 8 * Z.of_nat (length l) ->
  let k := (8 * (length w / 8))%nat in
  exists l', write_loop fuel l p (val64 w) (Z.of_nat (length w))
    = Some (l', p + Z.of_nat (length w / 8), val64 (skipn k w), Z.of_nat (length w mod 8))
    /\ length l' = length l /\ Forall is_byte l'
    /\ bits_of l' = splice (bits_of l) (8 * Z.to_nat p) (firstn k w).
Proof.
  induction fuel as [|f IH]; intros l p w Hl Hp Hw Hf Hr k.
  - assert (D : (length w / 8 = 0)%nat) by (apply Nat.div_small; lia).
    subst k. rewrite D. change (8 * 0)%nat with 0%nat. cbn [write_loop firstn skipn]. rewrite Nat.mod_small by lia.
    exists l. rewrite Z.add_0_r. split; [reflexivity|]. split; [reflexivity|]. split; [assumption|].
    unfold splice. cbn [app length]. rewrite Nat.add_0_r, firstn_skipn. reflexivity.
  - cbn [write_loop]. destruct (Z.leb_spec 8 (Z.of_nat (length w))) as [H8|H8].
    + destruct (set_byte_bits l p (HighestByte (val64 w)) ltac:(lia)) as (l1 & -> & L1 & B1 & E1).
      pose proof (val64_shift w 8 ltac:(lia)) as V8. change (Z.of_nat 8) with 8 in V8. rewrite V8.
      specialize (IH l1 (p + 1) (skipn 8 w) (B1 (is_byte_HighestByte _) Hl) ltac:(lia)).
      assert (LS : length (skipn 8 w) = (length w - 8)%nat) by apply skipn_length.
      rewrite LS in IH. specialize (IH ltac:(lia) ltac:(lia) ltac:(lia)). cbv zeta in IH.
      destruct IH as (l2 & E2 & L2 & F2 & E2b).
      assert (D : (length w / 8 = S ((length w - 8) / 8))%nat).
      { replace (length w) with ((length w - 8) + 1 * 8)%nat at 1 by lia.
        rewrite Nat.div_add by lia. lia. }
      assert (D2 : (length w mod 8 = (length w - 8) mod 8)%nat).
      { replace (length w) with ((length w - 8) + 1 * 8)%nat at 1 by lia.
        apply Nat.mod_add. lia. }
      exists l2. replace (Z.of_nat (length w) - 8) with (Z.of_nat (length w - 8)) by lia.
      rewrite E2. split; [|split; [congruence|split; [assumption|]]].
      * unfold k. rewrite D, D2, skipn_skipn'. replace (8 + 8 * ((length w - 8) / 8))%nat with (8 * S ((length w - 8) / 8))%nat by lia.
        replace (p + 1 + Z.of_nat ((length w - 8) / 8)) with (p + Z.of_nat (S ((length w - 8) / 8))) by lia. reflexivity.
      * rewrite E2b, E1. rewrite byte_bits_Highest, firstn_just64 by lia.
        replace (8 * Z.to_nat (p + 1))%nat with (8 * Z.to_nat p + length (firstn 8 w))%nat
          by (rewrite firstn_length; lia).
        rewrite splice_splice.
        -- f_equal. unfold k. rewrite D.
           replace (8 * S ((length w - 8) / 8))%nat with (8 + 8 * ((length w - 8) / 8))%nat by lia.
           transitivity (firstn (8 + 8 * ((length w - 8) / 8)) (firstn 8 w ++ skipn 8 w)); [|rewrite firstn_skipn; reflexivity].
           rewrite firstn_app.
           assert (LF : length (firstn 8 w) = 8%nat) by (rewrite firstn_length; lia).
           rewrite LF, (firstn_all2 (n := 8 + _)) by lia. f_equal. f_equal. lia.
        -- rewrite !firstn_length, length_bits_of, skipn_length. lia.
    + assert (D : (length w / 8 = 0)%nat) by (apply Nat.div_small; lia).
      subst k. rewrite D. change (8 * 0)%nat with 0%nat. cbn [firstn skipn]. rewrite Nat.mod_small by lia.
      exists l. rewrite Z.add_0_r. split; [reflexivity|]. split; [reflexivity|]. split; [assumption|].
      unfold splice. cbn [app length]. rewrite Nat.add_0_r, firstn_skipn. reflexivity.
Qed.

(** * WriteBits *)
Lemma partial_low w : (length w <= 8)%nat ->
  bval (firstn 8 (just64 w)) mod 2 ^ (8 - Z.of_nat (length w)) = 0.
Proof.
  intros H. unfold just64. rewrite firstn_app, (firstn_all2 w) by lia.
  replace (firstn (8 - length w) (repeat false (64 - length w))) with (repeat false (8 - length w)).
  - rewrite bval_app, bval_repeat_false, repeat_length, Z.add_0_r.
    replace (Z.of_nat (8 - length w)) with (8 - Z.of_nat (length w)) by lia.
    apply Z.mod_mul. lia.
  - replace (64 - length w)%nat with ((8 - length w) + 56)%nat by lia.
    rewrite repeat_app. symmetry. apply firstn_app_exact. rewrite repeat_length. reflexivity.
Qed.

Lemma wf_with_bytes b l' : wf b -> length l' = length (bb_bytes b) -> Forall is_byte l' ->
  wf (with_bytes b l').
Proof.
  intros (Hb & Hc & H32 & Hby & Hbi & Hp) Hl' Hf. unfold wf, pos, with_bytes in *.
  cbn [bb_bytes bb_count bb_byte bb_bit]. repeat split; try assumption; lia.
Qed.

Lemma WriteBits_spec v n b : wf b -> 0 < n <= 64 ->
  if n <=? Z.of_nat (length (rem b)) then
    exists l', WriteBits v n b = Ok tt (adv (with_bytes b l') (Z.to_nat n))
      /\ length l' = length (bb_bytes b) /\ Forall is_byte l'
      /\ bits_of l' = splice (bits_of (bb_bytes b)) (Z.to_nat (pos b)) (enc_u (Z.to_nat n) v)
  else WriteBits v n b = Fail b.
Proof.
  intros W Hn. unfold WriteBits. rewrite remaining_spec by assumption.
  destruct (Z.leb_spec n (Z.of_nat (length (rem b)))) as [Hr|Hr];
    [|destruct (Z.ltb_spec (Z.of_nat (length (rem b))) n); [reflexivity|lia]].
  destruct (Z.ltb_spec (Z.of_nat (length (rem b))) n) as [|_]; [lia|].
  destruct (_ || _) eqn:C0; [lia|clear C0]. rewrite val64_init by lia.
  set (w := enc_u (Z.to_nat n) v).
  assert (Lw : length w = Z.to_nat n) by apply length_enc_u.
  pose proof (length_rem b W) as LR.
  pose proof W as (Hb & Hc & H32 & Hby & Hbi & Hp). unfold pos in *.
  destruct (byte_at_some (bb_bytes b) (bb_byte b)) as (x0 & -> & Hx0); [lia|].
  destruct ((8 <=? bb_bit b) || (9 <=? Z.min n (8 - bb_bit b)) || (8 - bb_bit b <? Z.min n (8 - bb_bit b))) eqn:C1; [lia|clear C1].
  set (k1 := Z.min n (8 - bb_bit b)).
  destruct (set_byte_bits (bb_bytes b) (bb_byte b)
     (WritePartialByte (HighestByte (val64 w)) k1 x0 (bb_bit b)) ltac:(lia)) as (l1 & -> & L1 & B1 & E1).
  specialize (B1 (is_byte_WritePartialByte _ _ _ _) Hb).
  assert (E1' : bits_of l1 = splice (bits_of (bb_bytes b)) (Z.to_nat (8 * bb_byte b + bb_bit b))
                  (firstn (Z.to_nat k1) w)).
  { rewrite E1, WritePartialByte_bits.
    - rewrite byte_bits_Highest by lia. rewrite firstn_firstn.
      replace (Nat.min (Z.to_nat k1) 8) with (Z.to_nat k1) by lia.
      rewrite firstn_just64 by lia.
      rewrite (splice_byte _ _ _ _ _ Hx0) by (rewrite firstn_length; lia).
      f_equal. lia.
    - apply is_byte_HighestByte.
    - assumption.
    - lia.
    - destruct (Z.ltb_spec n (8 - bb_bit b)) as [H|H]; [right|left; lia].
      rewrite HighestByte_val64 by lia.
      replace (8 - k1) with (8 - Z.of_nat (length w)) by lia. apply partial_low. lia. }
  assert (Hcons : forall l', length l' = length (bb_bytes b) -> Forall is_byte l' ->
     ConsumeBits n (with_bytes b l') = Ok tt (adv (with_bytes b l') (Z.to_nat n))).
  { intros l' Hl' Hf. pose proof (wf_with_bytes b l' W Hl' Hf) as W'.
    rewrite ConsumeBits_spec by (assumption || lia).
    destruct (Z.leb_spec n (Z.of_nat (length (rem (with_bytes b l'))))) as [_|H]; [reflexivity|].
    exfalso. rewrite length_rem in H by assumption.
    unfold pos in *. cbn [with_bytes bb_bytes bb_count bb_byte bb_bit] in H. lia. }
  destruct (Z.leb_spec n (8 - bb_bit b)) as [Hs|Hs].
  - exists l1. rewrite Hcons by assumption. split; [reflexivity|]. split; [assumption|].
    split; [assumption|]. rewrite E1'. f_equal. apply firstn_all2. lia.
  - assert (K1 : k1 = Z.of_nat (Z.to_nat k1)) by lia. rewrite K1. rewrite val64_shift by lia. rewrite <- K1.
    assert (LS : length (skipn (Z.to_nat k1) w) = (Z.to_nat n - Z.to_nat k1)%nat)
      by (rewrite skipn_length; lia).
    destruct (write_loop_spec 8 l1 (bb_byte b + 1) (skipn (Z.to_nat k1) w) B1 ltac:(lia) ltac:(lia)
       ltac:(lia) ltac:(lia)) as (l2 & E2 & L2 & F2 & B2).
    replace (Z.of_nat (length (skipn (Z.to_nat k1) w))) with (n - k1) in E2 by lia.
    rewrite E2. clear E2.
    set (w2 := skipn (Z.to_nat k1) w) in *.
    set (q := (8 * (length w2 / 8))%nat) in *.
    assert (Eq : bits_of l2 = splice (bits_of (bb_bytes b)) (Z.to_nat (8 * bb_byte b + bb_bit b))
                  (firstn (Z.to_nat k1) w ++ firstn q w2)).
    { rewrite B2, E1'. rewrite <- splice_splice.
      - f_equal. rewrite firstn_length. lia.
      - rewrite !firstn_length, length_bits_of. lia. }
    destruct (Z.ltb_spec 0 (Z.of_nat (length w2 mod 8))) as [Hm|Hm].
    + destruct (byte_at_some l2 (bb_byte b + 1 + Z.of_nat (length w2 / 8))) as (x2 & -> & Hx2); [lia|].
      destruct (Z.leb_spec 9 (Z.of_nat (length w2 mod 8))) as [|_]; [lia|].
      destruct (set_byte_bits l2 (bb_byte b + 1 + Z.of_nat (length w2 / 8))
        (WritePartialByte (HighestByte (val64 (skipn q w2))) (Z.of_nat (length w2 mod 8)) x2 0) ltac:(lia))
        as (l3 & -> & L3 & B3 & E3).
      specialize (B3 (is_byte_WritePartialByte _ _ _ _) F2).
      exists l3. rewrite Hcons by (assumption || congruence). split; [reflexivity|].
      split; [congruence|]. split; [assumption|].
      assert (LQ : length (skipn q w2) = (length w2 mod 8)%nat) by (rewrite skipn_length; lia).
      rewrite E3, WritePartialByte_bits; [|apply is_byte_HighestByte|lia|lia|right].
      * rewrite byte_bits_Highest by lia. rewrite firstn_firstn, firstn_just64 by lia.
        rewrite firstn_all2 by lia. change (Z.to_nat 0) with 0%nat.
        rewrite (splice_byte _ _ _ _ _ Hx2) by lia.
        rewrite Eq.
        replace (8 * Z.to_nat (bb_byte b + 1 + Z.of_nat (length w2 / 8)) + 0)%nat
          with (Z.to_nat (8 * bb_byte b + bb_bit b) + length (firstn (Z.to_nat k1) w ++ firstn q w2))%nat
          by (rewrite app_length, !firstn_length; lia).
        rewrite splice_splice.
        -- f_equal. rewrite <- app_assoc, firstn_skipn. apply firstn_skipn.
        -- rewrite app_length, !firstn_length, length_bits_of. lia.
      * rewrite HighestByte_val64 by lia. rewrite <- LQ. apply partial_low. lia.
    + exists l2. rewrite Hcons by (assumption || congruence). split; [reflexivity|].
      split; [congruence|]. split; [assumption|].
      rewrite Eq. f_equal. rewrite (firstn_all2 w2) by lia. apply firstn_skipn.
Qed.
