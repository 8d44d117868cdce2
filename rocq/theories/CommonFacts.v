(** Facts about the RBSP helpers and the checksum. *)
From Coq Require Import ZArith List Bool Lia ZifyBool ZifyNat.
From Verif Require Import MBase MBitBuffer MCommon Spec BitsFacts Reader ReaderFacts Rules.
Import ListNotations.
Open Scope Z_scope.
Ltac Zify.zify_post_hook ::= Z.div_mod_to_equations.

(** * UnescapeRbsp *)
Fixpoint unesc (l : list Z) : list Z :=
  match l with
  | [] => []
  | x0 :: r0 =>
    match r0 with
    | x1 :: x2 :: r =>
      if (x0 =? 0) && (x1 =? 0) && (x2 =? 3) then x0 :: x1 :: unesc r else x0 :: unesc r0
    | _ => x0 :: unesc r0
    end
  end.

Lemma byte_at_nth l i : 0 <= i -> byte_at l i = nth_error l (Z.to_nat i).
Proof. intros H. unfold byte_at. destruct (Z.ltb_spec i 0); [lia|reflexivity]. Qed.

Lemma unesc_ind (P : list Z -> Prop) :
  P [] -> (forall x r, P r -> P (skipn 2 r) -> P (x :: r)) -> forall l, P l.
Proof.
  intros H0 H1. assert (forall n l, (length l <= n)%nat -> P l) as G.
  { induction n as [|n IH]; intros [|x r] L; cbn [length] in L; try lia; auto.
    apply H1; apply IH; [lia|]. rewrite skipn_length. lia. }
  intros l. exact (G (length l) l (le_n _)).
Qed.

Lemma unescape_loop_spec : forall fuel data i out,
  0 <= i -> (length data <= Z.to_nat i + fuel)%nat ->
  unescape_loop fuel data i out = Done (rev out ++ unesc (skipn (Z.to_nat i) data)).
Proof.
  induction fuel as [|f IH]; intros data i out Hi Hf; cbn [unescape_loop];
    destruct (Z.ltb_spec i (Z.of_nat (length data))) as [L|L]; cbn [negb]; try lia.
  - rewrite skipn_all2 by lia. cbn. rewrite app_nil_r. reflexivity.
  - destruct (nth_error data (Z.to_nat i)) as [x0|] eqn:E0; [|apply nth_error_None in E0; lia].
    rewrite (skipn_nth _ _ _ E0). rewrite !byte_at_nth by lia. rewrite E0.
    replace (Z.to_nat (i + 1)) with (S (Z.to_nat i)) by lia.
    replace (Z.to_nat (i + 2)) with (S (S (Z.to_nat i))) by lia.
    assert (Q : unescape_loop f data (i + 1) (x0 :: out) =
       Done (rev out ++ x0 :: unesc (skipn (S (Z.to_nat i)) data))).
    { rewrite IH by lia. cbn [rev]. rewrite <- app_assoc. cbn [app].
      replace (Z.to_nat (i + 1)) with (S (Z.to_nat i)) by lia. reflexivity. }
    destruct (Z.leb_spec 3 (Z.of_nat (length data) - i)) as [L3|L3].
    + destruct (nth_error data (S (Z.to_nat i))) as [x1|] eqn:E1; [|apply nth_error_None in E1; lia].
      destruct (nth_error data (S (S (Z.to_nat i)))) as [x2|] eqn:E2; [|apply nth_error_None in E2; lia].
      rewrite Q. rewrite (skipn_nth _ _ _ E1), (skipn_nth _ _ _ E2).
      destruct ((x0 =? 0) && (x1 =? 0) && (x2 =? 3)) eqn:C.
      * rewrite IH by lia. cbn [rev unesc]. rewrite C, <- !app_assoc. cbn [app].
        replace (Z.to_nat (i + 3)) with (S (S (S (Z.to_nat i)))) by lia. reflexivity.
      * change (unesc (x0 :: x1 :: x2 :: skipn (S (S (S (Z.to_nat i)))) data)) with
          (if (x0 =? 0) && (x1 =? 0) && (x2 =? 3) then x0 :: x1 :: unesc (skipn (S (S (S (Z.to_nat i)))) data)
           else x0 :: unesc (x1 :: x2 :: skipn (S (S (S (Z.to_nat i)))) data)).
        rewrite C. reflexivity.
    + rewrite Q. assert (LS : (length (skipn (S (Z.to_nat i)) data) <= 1)%nat) by (rewrite skipn_length; lia).
      destruct (skipn (S (Z.to_nat i)) data) as [|y [|y' t]]; cbn [length] in LS; try lia; reflexivity.
  - rewrite skipn_all2 by lia. cbn. rewrite app_nil_r. reflexivity.
Qed.

Lemma UnescapeRbsp_spec data : UnescapeRbsp data = Done (unesc data).
Proof. unfold UnescapeRbsp. rewrite unescape_loop_spec by lia. reflexivity. Qed.

Lemma unesc_cons x r : unesc (x :: r) =
  match r with
  | x1 :: x2 :: t => if (x =? 0) && (x1 =? 0) && (x2 =? 3) then x :: x1 :: unesc t else x :: unesc r
  | _ => x :: unesc r
  end.
Proof. destruct r as [|x1 [|x2 t]]; reflexivity. Qed.

Lemma unesc_nonzero x r : x <> 0 -> unesc (x :: r) = x :: unesc r.
Proof.
  intros H. rewrite unesc_cons. destruct r as [|x1 [|x2 t]]; try reflexivity.
  destruct (Z.eqb_spec x 0); [contradiction|]. reflexivity.
Qed.
Lemma unesc_zero_nonzero x r : x <> 0 -> unesc (0 :: x :: r) = 0 :: x :: unesc r.
Proof.
  intros H. rewrite unesc_cons. destruct r as [|x2 t].
  - rewrite unesc_nonzero by assumption. reflexivity.
  - destruct (Z.eqb_spec x 0); [contradiction|]. cbn [andb Z.eqb]. rewrite (unesc_nonzero x) by assumption. reflexivity.
Qed.
Lemma unesc_00x x r : x <> 3 -> x <> 0 -> unesc (0 :: 0 :: x :: r) = 0 :: 0 :: x :: unesc r.
Proof.
  intros H H0. rewrite unesc_cons. destruct (Z.eqb_spec x 3); [contradiction|]. cbn [andb Z.eqb].
  rewrite unesc_zero_nonzero by assumption. reflexivity.
Qed.

Lemma unesc_escape fin l : forall z, (z <= 2)%nat -> Forall is_byte l ->
  unesc (repeat 0 z ++ escape fin z l) = repeat 0 z ++ l.
Proof.
  induction l as [|x r IH]; intros z Hz Hb.
  - assert (z = 0 \/ z = 1 \/ z = 2)%nat as [->|[->| ->]] by lia; destruct fin; reflexivity.
  - inversion Hb as [|? ? Hx Hr]; subst. unfold is_byte in Hx. cbn [escape].
    assert (z = 0 \/ z = 1 \/ z = 2)%nat as [->|[->| ->]] by lia; cbn [Nat.eqb repeat app].
    + destruct (Z.eqb_spec x 0) as [->|N].
      * exact (IH 1%nat ltac:(lia) Hr).
      * rewrite unesc_nonzero by assumption. f_equal. exact (IH 0%nat ltac:(lia) Hr).
    + destruct (Z.eqb_spec x 0) as [->|N].
      * exact (IH 2%nat ltac:(lia) Hr).
      * rewrite unesc_zero_nonzero by assumption. do 2 f_equal. exact (IH 0%nat ltac:(lia) Hr).
    + destruct (Z.leb_spec x 3).
      * rewrite unesc_cons. cbn [Z.eqb andb Pos.eqb].
        destruct (Z.eqb_spec x 0) as [->|N].
        -- do 2 f_equal. exact (IH 1%nat ltac:(lia) Hr).
        -- rewrite unesc_nonzero by assumption. do 3 f_equal. exact (IH 0%nat ltac:(lia) Hr).
      * rewrite unesc_00x by lia. do 3 f_equal. exact (IH 0%nat ltac:(lia) Hr).
Qed.

(** No 00 00 00, 00 00 01 or 00 00 02 inside. *)
Fixpoint no_prefix (l : list Z) : Prop :=
  match l with
  | [] => True
  | x0 :: r => match r with x1 :: x2 :: _ => ~ (x0 = 0 /\ x1 = 0 /\ 0 <= x2 <= 2) | _ => True end
               /\ no_prefix r
  end.
Lemma no_prefix_cons x r : no_prefix (x :: r) <->
  (match r with x1 :: x2 :: _ => ~ (x = 0 /\ x1 = 0 /\ 0 <= x2 <= 2) | _ => True end) /\ no_prefix r.
Proof. reflexivity. Qed.

Lemma no_prefix_escape fin l : forall z, (z <= 2)%nat -> Forall is_byte l ->
  no_prefix (repeat 0 z ++ escape fin z l).
Proof.
  assert (NZ : forall x t, x <> 0 -> no_prefix t -> no_prefix (x :: t)).
  { intros x t Hx Ht. rewrite no_prefix_cons. split; [|assumption].
    destruct t as [|x1 [|x2 t]]; auto. tauto. }
  assert (ZN : forall x t, x <> 0 -> no_prefix t -> no_prefix (0 :: x :: t)).
  { intros x t Hx Ht. rewrite no_prefix_cons. split; [|auto]. destruct t; [auto|]. tauto. }
  assert (ZZN : forall x t, 2 < x -> no_prefix t -> no_prefix (0 :: 0 :: x :: t)).
  { intros x t Hx Ht. rewrite no_prefix_cons. split; [lia|]. apply ZN; [lia|assumption]. }
  induction l as [|x r IH]; intros z Hz Hb.
  - assert (z = 0 \/ z = 1 \/ z = 2)%nat as [->|[->| ->]] by lia; destruct fin; cbn; intuition lia.
  - inversion Hb as [|? ? Hx Hr]; subst. unfold is_byte in Hx. cbn [escape].
    assert (z = 0 \/ z = 1 \/ z = 2)%nat as [->|[->| ->]] by lia; cbn [Nat.eqb repeat app].
    + destruct (Z.eqb_spec x 0) as [->|N]; [exact (IH 1%nat ltac:(lia) Hr)|].
      apply NZ; [assumption|]. exact (IH 0%nat ltac:(lia) Hr).
    + destruct (Z.eqb_spec x 0) as [->|N]; [exact (IH 2%nat ltac:(lia) Hr)|].
      apply ZN; [assumption|]. exact (IH 0%nat ltac:(lia) Hr).
    + destruct (Z.leb_spec x 3).
      * apply ZZN; [lia|]. destruct (Z.eqb_spec x 0) as [->|N]; [exact (IH 1%nat ltac:(lia) Hr)|].
        apply NZ; [assumption|]. exact (IH 0%nat ltac:(lia) Hr).
      * apply ZZN; [lia|]. exact (IH 0%nat ltac:(lia) Hr).
Qed.

(** * Trailing bits *)
Lemma bit1 b : wf b -> ReadBits 1 b =
  match rem b with [] => Fail b | x :: _ => Ok (Z.b2z x) (adv b 1) end.
Proof.
  intros W. rewrite ReadBits_spec by (assumption || lia).
  destruct (rem b) as [|x r] eqn:E; [reflexivity|].
  cbn [length]. destruct (_ && _) eqn:C; [|lia]. change (Z.to_nat 1) with 1%nat.
  cbn [firstn bval length Z.of_nat]. f_equal. destruct x; reflexivity.
Qed.

(** Bits to the next byte boundary (0 when aligned). *)
Definition to_boundary (b : bb) : nat := Z.to_nat ((8 - bb_bit b) mod 8).

Lemma to_boundary_le b : wf b -> (to_boundary b <= length (rem b))%nat.
Proof.
  intros W. pose proof (length_rem b W) as L. destruct W as (Hb & Hc & H32 & Hby & Hbi & Hp).
  unfold pos, to_boundary in *. lia.
Qed.

Lemma bit_adv b k : bb_bit (adv b k) = (pos b + Z.of_nat k) mod 8.
Proof. reflexivity. Qed.

Lemma trailing_loop_spec : forall fuel b, wf b -> (to_boundary b <= fuel)%nat ->
  exists b' bs, steps b b' bs /\
  trailing_loop fuel b =
    if forallb negb (firstn (to_boundary b) (rem b)) then Ok tt (adv b (to_boundary b)) else Fail b'.
Proof.
  induction fuel as [|f IH]; intros b W Hf; cbn [trailing_loop]; unfold byte_aligned;
    pose proof W as (Hb & Hc & H32 & Hby & Hbi & Hp).
  - destruct (Z.eqb_spec (bb_bit b) 0) as [E|E].
    + exists b, []. split; [apply steps_refl; assumption|].
      replace (to_boundary b) with 0%nat by lia. cbn. rewrite adv_0 by assumption. reflexivity.
    + unfold to_boundary in Hf. lia.
  - destruct (Z.eqb_spec (bb_bit b) 0) as [E|E].
    + exists b, []. split; [apply steps_refl; assumption|].
      replace (to_boundary b) with 0%nat by (unfold to_boundary; rewrite E; reflexivity).
      cbn. rewrite adv_0 by assumption. reflexivity.
    + pose proof (to_boundary_le b W) as TL.
      assert (T : to_boundary b = S (to_boundary (adv b 1))).
      { unfold to_boundary. rewrite bit_adv. unfold pos. lia. }
      unfold bind. rewrite bit1 by assumption.
      destruct (rem b) as [|x r] eqn:R; [cbn [length] in TL; lia|].
      assert (S1 : steps b (adv b 1) [x]).
      { split; [|reflexivity]. rewrite rem_adv by assumption. rewrite R. reflexivity. }
      assert (W1 : wf (adv b 1)) by (eapply steps_wf; eassumption).
      rewrite T. cbn [firstn forallb].
      destruct x; cbn [Z.b2z Z.eqb negb andb].
      * exists (adv b 1), [true]. auto.
      * destruct (IH (adv b 1) W1 ltac:(lia)) as (b' & bs & S & ->).
        exists b', ([false] ++ bs). split; [eapply steps_trans; eassumption|].
        rewrite rem_adv, R by assumption. cbn [skipn].
        rewrite adv_adv by assumption. reflexivity.
Qed.

(** * Checksum *)
Definition tailb (b : bb) : list Z := skipn (Z.to_nat (bb_byte b)) (bb_bytes b).
Definition at_byte (b : bb) (k : Z) : bb := mkBB (bb_bytes b) (bb_count b) (bb_byte b + k) 0.

Lemma rem_aligned b : wf b -> bb_bit b = 0 -> rem b = bits_of (tailb b).
Proof.
  intros (Hb & Hc & H32 & Hby & Hbi & Hp) E. unfold rem, tailb, pos. rewrite E, bits_of_skipn.
  f_equal. lia.
Qed.

Lemma adv_bytes b k : bb_bit b = 0 -> adv b (8 * k) = at_byte b (Z.of_nat k).
Proof.
  intros E. unfold adv, at_byte, pos. rewrite E. f_equal; lia.
Qed.

Lemma tailb_at b k : 0 <= bb_byte b -> 0 <= k -> tailb (at_byte b k) = skipn (Z.to_nat k) (tailb b).
Proof.
  intros H K. unfold tailb, at_byte. cbn [bb_byte bb_bytes]. rewrite skipn_skipn'. f_equal. lia.
Qed.

Lemma Forall_tailb b : wf b -> Forall is_byte (tailb b).
Proof.
  intros (Hb & _). unfold tailb. apply Forall_forall. intros x Hx. rewrite Forall_forall in Hb.
  apply Hb. rewrite <- (firstn_skipn (Z.to_nat (bb_byte b))). apply in_or_app. auto.
Qed.

Lemma bval_bytes2 x y : is_byte x -> bval (byte_bits x ++ y) = x * 2 ^ Z.of_nat (length y) + bval y.
Proof. intros H. rewrite bval_app, byte_bval by assumption. reflexivity. Qed.

Lemma Read32_aligned b x1 x2 x3 x4 r : wf b -> bb_bit b = 0 -> tailb b = x1 :: x2 :: x3 :: x4 :: r ->
  ReadUInt32 b = Ok (x1 * 2 ^ 24 + x2 * 2 ^ 16 + x3 * 2 ^ 8 + x4) (at_byte b 4).
Proof.
  intros W E T. pose proof (Forall_tailb b W) as F. rewrite T in F.
  inversion F as [|? ? B1 F1]; subst. inversion F1 as [|? ? B2 F2]; subst.
  inversion F2 as [|? ? B3 F3]; subst. inversion F3 as [|? ? B4 F4]; subst.
  unfold ReadUInt32. rewrite ReadBits_spec by (assumption || lia).
  rewrite rem_aligned, T by assumption. rewrite !bits_of_cons.
  destruct (_ && _) eqn:C; [|rewrite !app_length, !length_byte_bits in C; lia].
  change (Z.to_nat 32) with (8 * 4)%nat. rewrite adv_bytes by assumption. f_equal.
  rewrite !app_assoc. rewrite firstn_app_exact by reflexivity.
  rewrite <- !app_assoc. rewrite !bval_bytes2 by assumption. rewrite byte_bval by assumption.
  rewrite !app_length, !length_byte_bits. cbn [Nat.add Z.of_nat Pos.of_succ_nat Pos.succ]. ring.
Qed.

Lemma Read32_short b : wf b -> bb_bit b = 0 -> (length (tailb b) < 4)%nat -> ReadUInt32 b = Fail b.
Proof.
  intros W E T. unfold ReadUInt32. rewrite ReadBits_spec by (assumption || lia).
  rewrite rem_aligned, length_bits_of by assumption.
  destruct (_ && _) eqn:C; [lia|reflexivity].
Qed.

Lemma Read8_aligned b x r : wf b -> bb_bit b = 0 -> tailb b = x :: r ->
  ReadUInt8 b = Ok x (at_byte b 1).
Proof.
  intros W E T. pose proof (Forall_tailb b W) as F. rewrite T in F. inversion F as [|? ? B1 F1]; subst.
  unfold ReadUInt8. rewrite ReadBits_spec by (assumption || lia).
  rewrite rem_aligned, T by assumption. rewrite bits_of_cons.
  destruct (_ && _) eqn:C; [|rewrite !app_length, !length_byte_bits in C; lia].
  change (Z.to_nat 8) with (8 * 1)%nat. rewrite adv_bytes by assumption. f_equal.
  rewrite firstn_app_exact by reflexivity. apply byte_bval. assumption.
Qed.

Lemma wf_at_byte b k : wf b -> bb_bit b = 0 -> 0 <= k <= Z.of_nat (length (tailb b)) -> wf (at_byte b k).
Proof.
  intros (Hb & Hc & H32 & Hby & Hbi & Hp) E K. unfold tailb in K. rewrite skipn_length in K.
  unfold wf, at_byte, pos in *. cbn [bb_bytes bb_count bb_byte bb_bit]. repeat split; try assumption; lia.
Qed.

Lemma at_at b j k : at_byte (at_byte b j) k = at_byte b (j + k).
Proof. unfold at_byte. cbn [bb_bytes bb_count bb_byte]. f_equal. lia. Qed.
Lemma at_0 b : bb_bit b = 0 -> at_byte b 0 = b.
Proof. destruct b as [l c y i]. cbn. intros ->. unfold at_byte. cbn. f_equal. lia. Qed.

Lemma length_tailb b : wf b -> Z.of_nat (length (tailb b)) = bb_count b - bb_byte b.
Proof.
  intros (Hb & Hc & H32 & Hby & Hbi & Hp). unfold tailb, pos in *. rewrite skipn_length. lia.
Qed.

(** Plain sum of the words. *)
Definition sumz (l : list Z) : Z := fold_right Z.add 0 l.

Lemma words32_step a b c d r :
  words32 (a :: b :: c :: d :: r) = (a * 2 ^ 24 + b * 2 ^ 16 + c * 2 ^ 8 + d) :: words32 r.
Proof. reflexivity. Qed.

(** What the two loops add up. *)
Lemma sum32_loop_spec : forall fuel b sum, wf b -> bb_bit b = 0 ->
  (length (tailb b) < 4 * fuel)%nat ->
  0 <= sum -> sum + 2 ^ 32 * Z.of_nat (length (tailb b)) < 2 ^ 64 ->
  exists k s, (k <= length (tailb b))%nat /\ (length (tailb b) - k < 4)%nat /\
    sum32_loop fuel sum b = Ok s (at_byte b (Z.of_nat k)) /\
    sum <= s /\ s + 2 ^ 32 * Z.of_nat (length (tailb b) - k) < 2 ^ 64 /\
    sum + sumz (words32 (tailb b)) = s + sumz (words32 (skipn k (tailb b))).
Proof.
  induction fuel as [|f IH]; intros b sum W E Hf H0 Hs; [lia|].
  cbn [sum32_loop].
  destruct (tailb b) as [|x1 [|x2 [|x3 [|x4 r]]]] eqn:T;
  try (exists 0%nat, sum; cbn [length] in *; split; [lia|]; split; [lia|];
       rewrite Read32_short by (try assumption; rewrite T; cbn [length]; lia);
       change (Z.of_nat 0) with 0; rewrite at_0 by assumption;
       split; [reflexivity|]; split; [lia|]; split; [lia|reflexivity]).
  rewrite (Read32_aligned b x1 x2 x3 x4 r W E T).
  pose proof (Forall_tailb b W) as F. rewrite T in F.
  inversion F as [|? ? B1 F1]; subst. inversion F1 as [|? ? B2 F2]; subst.
  inversion F2 as [|? ? B3 F3]; subst. inversion F3 as [|? ? B4 F4]; subst.
  unfold is_byte in *. cbn [length] in *.
  set (v := x1 * 2 ^ 24 + x2 * 2 ^ 16 + x3 * 2 ^ 8 + x4).
  assert (V : 0 <= v < 2 ^ 32) by (unfold v; lia).
  assert (U : u64 (sum + v) = sum + v) by (unfold u64; apply Z.mod_small; lia). rewrite U.
  assert (W4 : wf (at_byte b 4)) by (apply wf_at_byte; [assumption|assumption|rewrite T; cbn [length]; lia]).
  assert (T4 : tailb (at_byte b 4) = r).
  { rewrite tailb_at, T by (try lia; apply W). reflexivity. }
  specialize (IH (at_byte b 4) (sum + v) W4 eq_refl). rewrite T4 in IH.
  specialize (IH ltac:(lia) ltac:(lia) ltac:(lia)).
  destruct IH as (k & s & K1 & K2 & Ek & K3 & K4 & K5).
  exists (4 + k)%nat, s. split; [lia|]. split; [lia|].
  rewrite Ek, at_at. split; [f_equal; f_equal; lia|]. split; [lia|].
  split; [replace (S (S (S (S (length r)))) - (4 + k))%nat with (length r - k)%nat by lia; assumption|].
  rewrite words32_step. fold v. cbn [sumz fold_right]. change (fold_right Z.add 0) with sumz.
  cbn [Nat.add skipn]. lia.
Qed.

Lemma remaining_aligned b : wf b -> bb_bit b = 0 -> remaining b = 8 * Z.of_nat (length (tailb b)).
Proof.
  intros W E. rewrite remaining_spec, rem_aligned, length_bits_of by assumption. lia.
Qed.

Lemma lor_disjoint a x k : 0 <= k -> 0 <= x < 2 ^ k -> a mod 2 ^ k = 0 -> 0 <= a -> Z.lor a x = a + x.
Proof.
  intros K X A A0. replace a with (Z.shiftl (a / 2 ^ k) k).
  - rewrite lor_add; [rewrite Z.shiftl_mul_pow2 by lia; reflexivity|lia|apply Z.div_pos; lia|lia].
  - rewrite Z.shiftl_mul_pow2 by lia. pose proof (Z.div_mod a (2 ^ k)). lia.
Qed.

Lemma tail_loop_spec b : wf b -> bb_bit b = 0 -> (length (tailb b) < 4)%nat ->
  exists val, tail_loop 6 0 0 0 b
    = Ok (Z.of_nat (length (tailb b)), val) (at_byte b (Z.of_nat (length (tailb b)))) /\
    0 <= val < 2 ^ 32 /\ val = sumz (words32 (tailb b)).
Proof.
  intros W E L. pose proof (Forall_tailb b W) as F.
  assert (Hby : 0 <= bb_byte b) by apply W.
  assert (W1 : forall k, 0 <= k <= Z.of_nat (length (tailb b)) -> wf (at_byte b k))
    by (intros; apply wf_at_byte; assumption).
  assert (R : forall k, 0 <= k <= Z.of_nat (length (tailb b)) ->
     remaining (at_byte b k) = 8 * (Z.of_nat (length (tailb b)) - k)).
  { intros k K. rewrite remaining_aligned by (try apply W1; auto). rewrite tailb_at, skipn_length by lia. lia. }
  assert (R8 : forall k x r, 0 <= k <= Z.of_nat (length (tailb b)) -> skipn (Z.to_nat k) (tailb b) = x :: r ->
     ReadUInt8 (at_byte b k) = Ok x (at_byte b (k + 1))).
  { intros k x r K S. rewrite <- at_at. eapply Read8_aligned; [apply W1; assumption|reflexivity|].
    rewrite tailb_at by lia. exact S. }
  assert (B : forall x k, is_byte x -> 0 <= k <= 3 -> u32 (Z.shiftl x (8 * k)) = x * 2 ^ (8 * k)).
  { intros x k Hx Hk. rewrite Z.shiftl_mul_pow2 by lia. unfold u32, is_byte in *. apply Z.mod_small.
    assert (k = 0 \/ k = 1 \/ k = 2 \/ k = 3) as [->|[->|[->| ->]]] by lia; cbn; lia. }
  assert (TL : tail_loop 6 0 0 0 b = tail_loop 6 0 0 0 (at_byte b 0)) by (rewrite at_0 by assumption; reflexivity).
  rewrite TL. clear TL.
  destruct (tailb b) as [|x1 [|x2 [|x3 [|x4 r]]]]; cbn [length] in *; try lia.
  - exists 0. cbn [tail_loop]. rewrite R by lia. cbn. auto with zarith.
  - inversion F as [|? ? B1 F1]; subst. unfold is_byte in *.
    exists (x1 * 2 ^ 24). cbn [tail_loop].
    rewrite (R 0), (R8 0 x1 []) by (lia || reflexivity).
    rewrite (R (0 + 1)) by (lia || reflexivity).
    change (negb (0 <? 8 * (Z.of_nat 1 - 0))) with false. change (negb (0 <? 8 * (Z.of_nat 1 - (0 + 1)))) with true.
    change (3 <? 0) with false. cbv iota. rewrite (B x1 (3 - 0)) by (assumption || lia).
    rewrite (Z.lor_0_l (x1 * _)).
    change (8 * (3 - 0)) with 24. split; [reflexivity|]. split; [lia|]. unfold words32, sumz, fold_right. lia.
  - inversion F as [|? ? B1 F1]; subst. inversion F1 as [|? ? B2 F2]; subst. unfold is_byte in *.
    exists (x1 * 2 ^ 24 + x2 * 2 ^ 16). cbn [tail_loop].
    rewrite (R 0), (R8 0 x1 [x2]) by (lia || reflexivity).
    rewrite (R (0 + 1)), (R8 (0 + 1) x2 []) by (lia || reflexivity).
    rewrite (R (0 + 1 + 1)) by (lia || reflexivity).
    change (negb (0 <? 8 * (Z.of_nat 2 - 0))) with false.
    change (negb (0 <? 8 * (Z.of_nat 2 - (0 + 1)))) with false.
    change (negb (0 <? 8 * (Z.of_nat 2 - (0 + 1 + 1)))) with true.
    change (3 <? 0) with false. change (3 <? 0 + 1) with false. cbv iota.
    rewrite (B x1 (3 - 0)), (B x2 (3 - (0 + 1))) by (assumption || lia).
    rewrite (Z.lor_0_l (x1 * _)).
    change (8 * (3 - 0)) with 24. change (8 * (3 - (0 + 1))) with 16.
    rewrite (lor_disjoint _ _ 24) by lia.
    split; [reflexivity|]. split; [lia|]. unfold words32, sumz, fold_right. lia.
  - inversion F as [|? ? B1 F1]; subst. inversion F1 as [|? ? B2 F2]; subst.
    inversion F2 as [|? ? B3 F3]; subst. unfold is_byte in *.
    exists (x1 * 2 ^ 24 + x2 * 2 ^ 16 + x3 * 2 ^ 8). cbn [tail_loop].
    rewrite (R 0), (R8 0 x1 [x2; x3]) by (lia || reflexivity).
    rewrite (R (0 + 1)), (R8 (0 + 1) x2 [x3]) by (lia || reflexivity).
    rewrite (R (0 + 1 + 1)), (R8 (0 + 1 + 1) x3 []) by (lia || reflexivity).
    rewrite (R (0 + 1 + 1 + 1)) by (lia || reflexivity).
    change (negb (0 <? 8 * (Z.of_nat 3 - 0))) with false.
    change (negb (0 <? 8 * (Z.of_nat 3 - (0 + 1)))) with false.
    change (negb (0 <? 8 * (Z.of_nat 3 - (0 + 1 + 1)))) with false.
    change (negb (0 <? 8 * (Z.of_nat 3 - (0 + 1 + 1 + 1)))) with true.
    change (3 <? 0) with false. change (3 <? 0 + 1) with false. change (3 <? 0 + 1 + 1) with false. cbv iota.
    rewrite (B x1 (3 - 0)), (B x2 (3 - (0 + 1))), (B x3 (3 - (0 + 1 + 1))) by (assumption || lia).
    rewrite (Z.lor_0_l (x1 * _)).
    change (8 * (3 - 0)) with 24. change (8 * (3 - (0 + 1))) with 16. change (8 * (3 - (0 + 1 + 1))) with 8.
    rewrite (lor_disjoint (x1 * _) _ 24), (lor_disjoint (_ + _) _ 16) by lia.
    split; [reflexivity|]. split; [lia|]. unfold words32, sumz, fold_right. lia.
Qed.

Lemma words32_range l : Forall is_byte l -> Forall (fun w => 0 <= w < 2 ^ 32) (words32 l) /\
  4 * Z.of_nat (length (words32 l)) <= Z.of_nat (length l) + 3.
Proof.
  assert (G : forall n l, (length l <= n)%nat -> Forall is_byte l ->
     Forall (fun w => 0 <= w < 2 ^ 32) (words32 l) /\
     4 * Z.of_nat (length (words32 l)) <= Z.of_nat (length l) + 3).
  { clear. induction n as [|n IH]; intros l L F.
    - destruct l; [|cbn [length] in L; lia]. cbn. split; [constructor|lia].
    - destruct l as [|x1 [|x2 [|x3 [|x4 r]]]]; cbn [length] in L;
      repeat match goal with H : Forall is_byte (_ :: _) |- _ => inversion H; clear H; subst end;
      unfold is_byte in *.
      + cbn. split; [constructor|lia].
      + cbn [words32 length]. split; [constructor; [lia|constructor]|lia].
      + cbn [words32 length]. split; [constructor; [lia|constructor]|lia].
      + cbn [words32 length]. split; [constructor; [lia|constructor]|lia].
      + rewrite words32_step. destruct (IH r ltac:(lia) ltac:(assumption)) as [I1 I2].
        cbn [length]. split; [constructor; [lia|assumption]|lia]. }
  apply (G (length l)); lia.
Qed.

Lemma sumz_range l : Forall (fun w => 0 <= w < 2 ^ 32) l -> 0 <= sumz l <= (2 ^ 32 - 1) * Z.of_nat (length l).
Proof.
  induction 1 as [|x l Hx F IH]; cbn [sumz fold_right length]; [lia|].
  change (fold_right Z.add 0 l) with (sumz l). lia.
Qed.

(** End-around-carry addition computes the sum modulo 2^32-1, never 0 unless all is 0. *)
Definition oc_norm (s : Z) : Z := if s =? 0 then 0 else (s - 1) mod (2 ^ 32 - 1) + 1.

Lemma oc_norm_unique s r : 0 <= s -> 0 <= r < 2 ^ 32 -> (exists q, s = r + q * (2 ^ 32 - 1)) ->
  (r = 0 <-> s = 0) -> r = oc_norm s.
Proof.
  intros Hs Hr [q E] Z0. unfold oc_norm. destruct (Z.eqb_spec s 0); [lia|].
  apply Z.sub_cancel_r with 1. ring_simplify.
  apply Z.mod_unique with q; lia.
Qed.

Lemma oc_fold l : forall a, 0 <= a < 2 ^ 32 -> Forall (fun w => 0 <= w < 2 ^ 32) l ->
  exists q, 0 <= q /\ a + sumz l = fold_left oc_add l a + q * (2 ^ 32 - 1) /\
  0 <= fold_left oc_add l a < 2 ^ 32 /\ (fold_left oc_add l a = 0 <-> a + sumz l = 0).
Proof.
  induction l as [|w l IH]; intros a Ha F; cbn [fold_left].
  - exists 0. cbn. lia.
  - inversion F as [|? ? Hw F']; subst.
    assert (R : 0 <= oc_add a w < 2 ^ 32 /\ (exists q, 0 <= q /\ a + w = oc_add a w + q * (2 ^ 32 - 1)) /\
                (oc_add a w = 0 <-> a + w = 0)).
    { unfold oc_add. split; [lia|]. split; [|lia]. exists ((a + w) / 2 ^ 32). lia. }
    destruct R as (R1 & (q0 & Hq0 & R2) & R3).
    destruct (IH (oc_add a w) R1 F') as (q & Hq & E & B & Z0).
    exists (q0 + q). pose proof (sumz_range l F'). 
    cbn [sumz fold_right]. change (fold_right Z.add 0 l) with (sumz l). split; [lia|].
    split; [lia|]. split; [assumption|]. rewrite Z0. lia.
Qed.

Lemma oc_checksum_norm l : Forall is_byte l ->
  ones_complement_checksum l = 2 ^ 32 - 1 - oc_norm (sumz (words32 l)).
Proof.
  intros F. unfold ones_complement_checksum. f_equal.
  destruct (words32_range l F) as [R _].
  destruct (oc_fold (words32 l) 0 ltac:(lia) R) as (q & Hq & E & B & Z0).
  pose proof (sumz_range _ R).
  apply oc_norm_unique; [lia|assumption|exists q; lia|lia].
Qed.

Lemma GetNaluChecksum_spec b : wf b -> bb_bit b = 0 ->
  GetNaluChecksum b = Ok (ones_complement_checksum (tailb b)) b.
Proof.
  intros W E. unfold GetNaluChecksum. rewrite remaining_aligned by assumption.
  pose proof (length_tailb b W) as LT. pose proof W as (Hb & Hc & H32 & Hby & Hbi & Hp).
  destruct (sum32_loop_spec (S (Z.to_nat (8 * Z.of_nat (length (tailb b))))) b 0 W E ltac:(lia) ltac:(lia) ltac:(lia))
    as (k & s & K1 & K2 & -> & K3 & K4 & K5).
  assert (Wk : wf (at_byte b (Z.of_nat k))) by (apply wf_at_byte; [assumption|assumption|lia]).
  assert (Tk : tailb (at_byte b (Z.of_nat k)) = skipn k (tailb b)).
  { rewrite tailb_at by lia. rewrite Nat2Z.id. reflexivity. }
  destruct (tail_loop_spec (at_byte b (Z.of_nat k)) Wk eq_refl) as (val & -> & V1 & V2).
  { rewrite Tk, skipn_length. lia. }
  rewrite Tk in *. rewrite skipn_length in *.
  rewrite at_at. rewrite oc_checksum_norm by (apply Forall_tailb; assumption).
  replace (if 0 <? Z.of_nat (length (tailb b) - k) then u64 (s + val) else s)
    with (sumz (words32 (tailb b))).
  - set (S := sumz (words32 (tailb b))) in *.
    assert (RS : 0 <= S < 2 ^ 63).
    { destruct (words32_range (tailb b) (Forall_tailb b W)) as [R L].
      pose proof (sumz_range _ R) as R2. fold S in R2. lia. }
    rewrite (Seek_back b) by (try assumption; reflexivity).
    f_equal.
    change 0xffffffff with (Z.ones 32). rewrite Z.land_ones by lia.
    rewrite !Z.shiftr_div_pow2 by lia.
    assert (U1 : u64 (S / 2 ^ 32 + S mod 2 ^ 32) = S / 2 ^ 32 + S mod 2 ^ 32)
      by (unfold u64; apply Z.mod_small; lia).
    rewrite U1. set (t := S / 2 ^ 32 + S mod 2 ^ 32).
    assert (T : 0 <= t < 2 ^ 33 - 1) by (unfold t; lia).
    assert (U2 : u64 (t + t / 2 ^ 32) = t + t / 2 ^ 32) by (unfold u64; apply Z.mod_small; lia).
    rewrite U2.
    assert (N : (t + t / 2 ^ 32) mod 2 ^ 32 = oc_norm S).
    { apply oc_norm_unique; [lia|apply Z.mod_pos_bound; lia| |].
      - exists (S / 2 ^ 32 + t / 2 ^ 32). unfold t in *. lia.
      - unfold t in *. lia. }
    unfold u32. unfold Z.lnot. rewrite <- Z.sub_1_r.
    rewrite <- N. lia.
  - rewrite Z.add_0_l in K5. rewrite <- V2 in K5. destruct (Z.ltb_spec 0 (Z.of_nat (length (tailb b) - k))) as [P|P].
    + unfold u64. rewrite Z.mod_small by lia. exact K5.
    + assert (Q : skipn k (tailb b) = []) by (apply skipn_all2; lia).
      rewrite Q in V2. cbn in V2. lia.
Qed.

(** A single corrupted byte changes the sum by less than 2^32-1, and not by 0. *)
Lemma words32_corrupt : forall n l1 x y l2, (length l1 <= n)%nat ->
  exists k, 0 <= k <= 3 /\
  sumz (words32 (l1 ++ x :: l2)) - sumz (words32 (l1 ++ y :: l2)) = (x - y) * 2 ^ (8 * k).
Proof.
  assert (D : forall z w, (z = 0 \/ z = 1 \/ z = 2 \/ z = 3) -> w = z -> 0 <= w <= 3) by lia. clear D.
  induction n as [|n IH]; intros l1 x y l2 L.
  - destruct l1; [|cbn [length] in L; lia]. exists 3. split; [lia|]. cbn [app].
    destruct l2 as [|a [|b [|c r]]]; cbn [words32 sumz fold_right]; lia.
  - destruct l1 as [|a1 [|a2 [|a3 [|a4 r1]]]]; cbn [app].
    + exists 3. split; [lia|]. destruct l2 as [|a [|b [|c r]]]; cbn [words32 sumz fold_right]; lia.
    + exists 2. split; [lia|]. destruct l2 as [|a [|b r]]; cbn [words32 sumz fold_right]; lia.
    + exists 1. split; [lia|]. destruct l2 as [|a r]; cbn [words32 sumz fold_right]; lia.
    + exists 0. split; [lia|]. cbn [words32 sumz fold_right]; lia.
    + cbn [length] in L. destruct (IH r1 x y l2 ltac:(lia)) as (k & K & E). exists k. split; [assumption|].
      rewrite !words32_step. cbn [sumz fold_right]. change (fold_right Z.add 0) with sumz. lia.
Qed.

Lemma checksum_corrupt l1 x y l2 : Forall is_byte (l1 ++ x :: l2) -> is_byte y -> x <> y ->
  ones_complement_checksum (l1 ++ x :: l2) <> ones_complement_checksum (l1 ++ y :: l2).
Proof.
  intros F Hy N. assert (F' : Forall is_byte (l1 ++ y :: l2)).
  { apply Forall_app in F as [F1 F2]. apply Forall_app. split; [assumption|]. inversion F2; subst. constructor; assumption. }
  assert (Hx : is_byte x) by (apply Forall_app in F as [_ F2]; inversion F2; assumption).
  rewrite !oc_checksum_norm by assumption.
  destruct (words32_corrupt (length l1) l1 x y l2 (le_n _)) as (k & K & E).
  destruct (words32_range _ F) as [R1 _]. destruct (words32_range _ F') as [R2 _].
  pose proof (sumz_range _ R1) as S1. pose proof (sumz_range _ R2) as S2.
  set (A := sumz (words32 (l1 ++ x :: l2))) in *. set (B := sumz (words32 (l1 ++ y :: l2))) in *.
  intros C. assert (Q : oc_norm A = oc_norm B) by lia.
  assert (D : exists q, A - B = q * (2 ^ 32 - 1)).
  { unfold oc_norm in Q. pose proof (Z.div_mod (A - 1) (2 ^ 32 - 1)) as DA. pose proof (Z.div_mod (B - 1) (2 ^ 32 - 1)) as DB.
    pose proof (Z.mod_pos_bound (A - 1) (2 ^ 32 - 1)). pose proof (Z.mod_pos_bound (B - 1) (2 ^ 32 - 1)).
    destruct (Z.eqb_spec A 0), (Z.eqb_spec B 0); [exists 0; lia|lia|lia|].
    exists ((A - 1) / (2 ^ 32 - 1) - (B - 1) / (2 ^ 32 - 1)). lia. }
  destruct D as [q D]. unfold is_byte in *.
  assert (k = 0 \/ k = 1 \/ k = 2 \/ k = 3) as [->|[->|[->| ->]]] by lia;
  [change (2 ^ (8 * 0)) with 1 in E|change (2 ^ (8 * 1)) with 256 in E|change (2 ^ (8 * 2)) with 65536 in E
  |change (2 ^ (8 * 3)) with 16777216 in E]; lia.
Qed.
