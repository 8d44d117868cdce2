(** The word-level reader of [MBitBuffer] refines the bit list of [Spec]. *)
From Coq Require Import ZArith List Bool Lia ZifyBool ZifyNat.
From Verif Require Import MBase MBitBuffer Spec BitsFacts Reader.
Import ListNotations.
Open Scope Z_scope.

Ltac Zify.zify_post_hook ::= Z.div_mod_to_equations.

(** * Positions *)
Lemma length_rem b : wf b -> Z.of_nat (length (rem b)) = 8 * bb_count b - pos b.
Proof.
  intros (Hb & Hc & H32 & Hby & Hbi & Hp). unfold rem. rewrite skipn_length, length_bits_of.
  unfold pos in *. lia.
Qed.

Lemma remaining_spec b : wf b -> remaining b = Z.of_nat (length (rem b)).
Proof.
  intros W. rewrite length_rem by assumption. destruct W as (Hb & Hc & H32 & Hby & Hbi & Hp).
  unfold remaining, u64, pos in *.
  rewrite (Z.mod_small (bb_count b - bb_byte b)) by lia.
  rewrite (Z.mod_small ((bb_count b - bb_byte b) * 8)) by lia.
  rewrite Z.mod_small by lia. lia.
Qed.

Lemma pos_adv b k : pos (adv b k) = pos b + Z.of_nat k.
Proof. unfold pos at 1, adv; cbn [bb_byte bb_bit]. lia. Qed.

Lemma adv_0 b : wf b -> adv b 0 = b.
Proof.
  intros (Hb & Hc & H32 & Hby & Hbi & Hp). destruct b as [l c y t]; unfold adv, pos in *;
  cbn [bb_byte bb_bit bb_bytes bb_count] in *. f_equal; lia.
Qed.

Lemma adv_adv b k1 k2 : adv (adv b k1) k2 = adv b (k1 + k2).
Proof. unfold adv at 1 3. rewrite pos_adv. cbn [adv bb_bytes bb_count]. f_equal; f_equal; lia. Qed.

Lemma wf_adv b k : wf b -> (k <= length (rem b))%nat -> wf (adv b k).
Proof.
  intros W Hk. pose proof (length_rem b W) as L. destruct W as (Hb & Hc & H32 & Hby & Hbi & Hp).
  pose proof (pos_adv b k) as PA. unfold wf.
  assert (0 <= pos b) by (unfold pos; lia).
  repeat split; try rewrite PA; cbn [adv bb_bytes bb_count bb_byte bb_bit]; try assumption; try lia.
Qed.

Lemma rem_adv b k : wf b -> rem (adv b k) = skipn k (rem b).
Proof.
  intros (Hb & Hc & H32 & Hby & Hbi & Hp). unfold rem. rewrite pos_adv. cbn [bb_bytes adv].
  rewrite skipn_skipn'. f_equal. unfold pos in *. lia.
Qed.

Lemma rem_adv_app b bs rest : wf b -> rem b = bs ++ rest -> rem (adv b (length bs)) = rest.
Proof. intros W E. rewrite rem_adv, E by assumption. apply skipn_app_exact. reflexivity. Qed.

Lemma wf_adv_app b bs rest : wf b -> rem b = bs ++ rest -> wf (adv b (length bs)).
Proof. intros W E. apply wf_adv; [assumption|]. rewrite E, app_length. lia. Qed.

Lemma steps_refl b : wf b -> steps b b [].
Proof. intros W. split; [reflexivity|]. cbn. symmetry. apply adv_0, W. Qed.

Lemma steps_wf b b' bs : wf b -> steps b b' bs -> wf b'.
Proof. intros W [E ->]. eapply wf_adv_app; eassumption. Qed.

Lemma steps_trans b1 b2 b3 l1 l2 : steps b1 b2 l1 -> steps b2 b3 l2 -> steps b1 b3 (l1 ++ l2).
Proof.
  intros [E1 A1] [E2 A2]. split.
  - rewrite E1, E2, app_assoc. reflexivity.
  - rewrite A2, A1, adv_adv, app_length. reflexivity.
Qed.

Lemma steps_app b bs rest : wf b -> rem b = bs ++ rest -> steps b (adv b (length bs)) bs.
Proof. intros W E. split; [|reflexivity]. rewrite (rem_adv_app _ _ rest); assumption. Qed.

(** * Bytes *)
Lemma byte_cases (P : Z -> bool) :
  forallb P (map Z.of_nat (seq 0 256)) = true -> forall x, is_byte x -> P x = true.
Proof.
  intros H x Hx. rewrite forallb_forall in H. apply H.
  apply in_map_iff. exists (Z.to_nat x). unfold is_byte in Hx. split; [lia|].
  apply in_seq. lia.
Qed.

Lemma small_cases (P : Z -> bool) n :
  forallb P (map Z.of_nat (seq 0 n)) = true -> forall x, 0 <= x < Z.of_nat n -> P x = true.
Proof.
  intros H x Hx. rewrite forallb_forall in H. apply H.
  apply in_map_iff. exists (Z.to_nat x). split; [lia|]. apply in_seq. lia.
Qed.

Lemma LowestBits_spec x k : is_byte x -> 0 <= k < 8 ->
  LowestBits x (8 - k) = bval (skipn (Z.to_nat k) (byte_bits x)).
Proof.
  intros Hx Hk.
  assert (H := byte_cases (fun x => forallb (fun k =>
     LowestBits x (8 - k) =? bval (skipn (Z.to_nat k) (byte_bits x)))
     (map Z.of_nat (seq 0 8))) ltac:(vm_compute; reflexivity) x Hx).
  cbv beta in H. pose proof (small_cases _ _ H k ltac:(lia)) as E. cbv beta in E. lia.
Qed.

Lemma HighestBits_spec x k : is_byte x -> 0 <= k < 9 ->
  HighestBits x k = bval (firstn (Z.to_nat k) (byte_bits x)).
Proof.
  intros Hx Hk.
  assert (H := byte_cases (fun x => forallb (fun k =>
     HighestBits x k =? bval (firstn (Z.to_nat k) (byte_bits x)))
     (map Z.of_nat (seq 0 9))) ltac:(vm_compute; reflexivity) x Hx).
  cbv beta in H. pose proof (small_cases _ _ H k ltac:(lia)) as E. cbv beta in E. lia.
Qed.

(** The short case: the wanted bits are strictly inside the current byte. *)
Lemma Highest_Lowest_spec x k n : is_byte x -> 0 <= k < 8 -> 0 < n < 8 - k ->
  HighestBits (LowestBits x (8 - k)) (k + n)
  = bval (firstn (Z.to_nat n) (skipn (Z.to_nat k) (byte_bits x))).
Proof.
  intros Hx Hk Hn.
  assert (H := byte_cases (fun x => forallb (fun k => forallb (fun n =>
     negb (k + n <? 8) ||
     (HighestBits (LowestBits x (8 - k)) (k + n)
      =? bval (firstn (Z.to_nat n) (skipn (Z.to_nat k) (byte_bits x)))))
     (map Z.of_nat (seq 0 8))) (map Z.of_nat (seq 0 8))) ltac:(vm_compute; reflexivity) x Hx).
  cbv beta in H. pose proof (small_cases _ _ H k ltac:(lia)) as E. cbv beta in E.
  pose proof (small_cases _ _ E n ltac:(lia)) as F. cbv beta in F. lia.
Qed.

Lemma lor_add a k x : 0 <= k -> 0 <= a -> 0 <= x < 2 ^ k -> Z.lor (Z.shiftl a k) x = a * 2 ^ k + x.
Proof.
  intros Hk Ha Hx. rewrite Z.shiftl_mul_pow2 by lia.
  rewrite <- Z.lxor_lor, <- Z.add_nocarry_lxor; try reflexivity;
  apply Z.bits_inj'; intros n Hn; rewrite Z.land_spec, Z.bits_0;
  (destruct (Z.lt_ge_cases n k) as [L|L];
   [rewrite Z.mul_pow2_bits_low by lia; reflexivity|
    destruct (Z.eq_dec x 0) as [->|Hx0]; [rewrite Z.bits_0, andb_false_r; reflexivity|];
    rewrite (Z.bits_above_log2 x n), andb_false_r; [reflexivity|lia|];
    apply Z.log2_lt_pow2; [lia|]; eapply Z.lt_le_trans; [apply Hx|];
    apply Z.pow_le_mono_r; lia]).
Qed.

Lemma byte_bval x : is_byte x -> bval (byte_bits x) = x.
Proof. intros H. rewrite byte_bits_enc. apply enc_u_small. exact H. Qed.

Lemma nth_error_byte l i x : Forall is_byte l -> nth_error l i = Some x -> is_byte x.
Proof. intros F E. rewrite Forall_forall in F. apply F. eapply nth_error_In, E. Qed.

Lemma skipn_nth {A} (l : list A) i x : nth_error l i = Some x -> skipn i l = x :: skipn (S i) l.
Proof.
  revert l; induction i as [|i IH]; intros [|y l] E; cbn in *; try discriminate.
  - congruence.
  - rewrite IH by assumption. reflexivity.
Qed.

Lemma byte_at_some l i : 0 <= i < Z.of_nat (length l) ->
  exists x, byte_at l i = Some x /\ nth_error l (Z.to_nat i) = Some x.
Proof.
  intros H. unfold byte_at. destruct (Z.ltb_spec i 0); [lia|].
  destruct (nth_error l (Z.to_nat i)) as [x|] eqn:E; [eauto|].
  apply nth_error_None in E. lia.
Qed.

(** * PeekBits *)
Lemma peek_loop_spec w l fuel : Forall is_byte l -> forall p acc n,
  0 <= p -> 0 <= n -> n < 8 * Z.of_nat fuel + 8 ->
  Z.of_nat (length acc) + n <= w ->
  n <= Z.of_nat (length (bits_of (skipn (Z.to_nat p) l))) ->
  peek_loop fuel w l p (bval acc) n =
  Some (p + n / 8,
        bval (acc ++ firstn (Z.to_nat (n / 8 * 8)) (bits_of (skipn (Z.to_nat p) l))),
        n mod 8).
Proof.
  intros HF. induction fuel as [|f IH]; intros p acc n Hp Hn Hf Hw Hl.
  - cbn [peek_loop]. assert (n / 8 = 0) as -> by lia. cbn. rewrite app_nil_r.
    do 2 f_equal; [f_equal; lia|lia].
  - cbn [peek_loop]. destruct (Z.leb_spec 8 n) as [L|L].
    + rewrite length_bits_of, skipn_length in Hl.
      destruct (byte_at_some l p) as (x & E1 & E2); [lia|]. rewrite E1.
      pose proof (nth_error_byte _ _ _ HF E2) as Hx.
      pose proof (bval_range acc) as Ha.
      assert (Hlor : Z.lor (Z.shiftl (bval acc) 8 mod 2 ^ w) x = bval (acc ++ byte_bits x)).
      { rewrite Z.shiftl_mul_pow2 by lia. rewrite Z.mod_small.
        - rewrite <- Z.shiftl_mul_pow2, lor_add by (unfold is_byte in *; lia).
          rewrite bval_app, byte_bval by assumption. reflexivity.
        - split; [lia|]. eapply Z.lt_le_trans with (2 ^ (Z.of_nat (length acc)) * 2 ^ 8).
          + apply Zmult_lt_compat_r; lia.
          + rewrite <- Z.pow_add_r by lia. apply Z.pow_le_mono_r; lia. }
      rewrite Hlor, IH; clear IH.
      * f_equal. f_equal; [f_equal|].
        -- lia.
        -- f_equal. rewrite <- app_assoc. f_equal.
           rewrite (skipn_nth l (Z.to_nat p) x E2), bits_of_cons.
           replace (Z.to_nat (n / 8 * 8)) with (8 + Z.to_nat ((n - 8) / 8 * 8))%nat by lia.
           replace (Z.to_nat (p + 1)) with (S (Z.to_nat p)) by lia.
           rewrite firstn_app, length_byte_bits, (firstn_all2 (byte_bits x)) by (cbn; lia).
           do 2 f_equal. lia.
        -- lia.
      * lia.
      * lia.
      * lia.
      * rewrite app_length, length_byte_bits. lia.
      * rewrite length_bits_of, skipn_length. lia.
    + assert (n / 8 = 0) as -> by lia. cbn [Z.mul Z.to_nat firstn]. rewrite app_nil_r.
      do 2 f_equal; [f_equal; lia|lia].
Qed.

(** The remaining bits start inside the current byte. *)
Lemma rem_split b x : wf b -> nth_error (bb_bytes b) (Z.to_nat (bb_byte b)) = Some x ->
  rem b = skipn (Z.to_nat (bb_bit b)) (byte_bits x)
          ++ bits_of (skipn (Z.to_nat (bb_byte b + 1)) (bb_bytes b)).
Proof.
  intros (Hb & Hc & H32 & Hby & Hbi & Hp) E. unfold rem, pos.
  replace (Z.to_nat (8 * bb_byte b + bb_bit b))
    with (8 * Z.to_nat (bb_byte b) + Z.to_nat (bb_bit b))%nat by lia.
  rewrite <- skipn_skipn', <- bits_of_skipn, (skipn_nth _ _ _ E), bits_of_cons.
  rewrite skipn_app, length_byte_bits.
  replace (Z.to_nat (bb_bit b) - 8)%nat with 0%nat by lia. rewrite skipn_O.
  do 3 f_equal. lia.
Qed.

Lemma PeekBits_w_spec w n b : wf b -> 0 < n -> 8 <= w ->
  PeekBits_w w n b =
  if (n <=? Z.of_nat (length (rem b))) && (n <=? w)
  then Ok (bval (firstn (Z.to_nat n) (rem b))) b else Fail b.
Proof.
  intros W Hn Hw8. unfold PeekBits_w. rewrite remaining_spec by assumption.
  destruct (Z.ltb_spec 0 n) as [_|]; [|lia]. cbn [negb].
  destruct (Z.leb_spec n (Z.of_nat (length (rem b)))) as [Hr|Hr];
    [|destruct (Z.ltb_spec (Z.of_nat (length (rem b))) n); [reflexivity|lia]].
  destruct (Z.ltb_spec (Z.of_nat (length (rem b))) n) as [|_]; [lia|].
  destruct (Z.leb_spec n w) as [Hw|Hw]; [|destruct (Z.ltb_spec w n); [reflexivity|lia]].
  destruct (Z.ltb_spec w n) as [|_]; [lia|]. cbn [orb andb].
  pose proof (length_rem b W) as L.
  pose proof W as (Hb & Hc & H32 & Hby & Hbi & Hp). unfold pos in *.
  destruct (byte_at_some (bb_bytes b) (bb_byte b)) as (x & E1 & E2); [lia|]. rewrite E1.
  pose proof (nth_error_byte _ _ _ Hb E2) as Hx.
  pose proof (rem_split b x W E2) as RS.
  set (k := bb_bit b) in *.
  unfold chk8. destruct (Z.ltb_spec 8 (8 - k)) as [|_]; [lia|].
  destruct (Z.ltb_spec n (8 - k)) as [S|S].
  - destruct (Z.ltb_spec 8 (k + n)) as [|_]; [lia|].
    rewrite Highest_Lowest_spec by (assumption || lia). f_equal. rewrite RS, firstn_app.
    assert (length (skipn (Z.to_nat k) (byte_bits x)) = 8 - Z.to_nat k)%nat as ->
      by (rewrite skipn_length; reflexivity).
    replace (Z.to_nat n - (8 - Z.to_nat k))%nat with 0%nat by lia.
    rewrite firstn_O, app_nil_r. reflexivity.
  - rewrite LowestBits_spec by (assumption || lia).
    set (acc := skipn (Z.to_nat k) (byte_bits x)).
    assert (Lacc : length acc = (8 - Z.to_nat k)%nat)
      by (unfold acc; rewrite skipn_length; reflexivity).
    set (l' := bits_of (skipn (Z.to_nat (bb_byte b + 1)) (bb_bytes b))).
    assert (Ll' : (length (rem b) = length acc + length l')%nat) by (rewrite RS, app_length; reflexivity).
    rewrite peek_loop_spec; try lia; [|assumption|fold l'; lia].
    fold l'. set (m := n - (8 - k)) in *.
    destruct (Z.ltb_spec 0 (m mod 8)) as [P|P].
    + assert (Hm : Z.of_nat (length l') = 8 * (Z.of_nat (length (bb_bytes b)) - (bb_byte b + 1))).
      { unfold l'. rewrite length_bits_of, skipn_length. lia. }
      destruct (byte_at_some (bb_bytes b) (bb_byte b + 1 + m / 8)) as (y & F1 & F2); [lia|].
      rewrite F1. pose proof (nth_error_byte _ _ _ Hb F2) as Hy.
      destruct (Z.ltb_spec 8 (m mod 8)) as [|_]; [lia|].
      rewrite HighestBits_spec by (assumption || lia).
      set (acc' := acc ++ firstn (Z.to_nat (m / 8 * 8)) l').
      set (t := firstn (Z.to_nat (m mod 8)) (byte_bits y)).
      assert (Lt : length t = Z.to_nat (m mod 8)).
      { unfold t. rewrite firstn_length, length_byte_bits. lia. }
      assert (Lacc' : Z.of_nat (length acc') = Z.of_nat (length acc) + m / 8 * 8).
      { unfold acc'. rewrite app_length, firstn_length. lia. }
      pose proof (bval_range acc') as Ra. pose proof (bval_range t) as Rt.
      f_equal.
      rewrite Z.shiftl_mul_pow2 by lia.
      rewrite Z.mod_small.
      2:{ split; [lia|]. eapply Z.lt_le_trans with (2 ^ (Z.of_nat (length acc')) * 2 ^ (m mod 8)).
          - apply Zmult_lt_compat_r; lia.
          - rewrite <- Z.pow_add_r by lia. apply Z.pow_le_mono_r; lia. }
      rewrite <- Z.shiftl_mul_pow2 by lia. rewrite lor_add; try lia.
      2:{ rewrite Lt in Rt. rewrite Z2Nat.id in Rt by lia. exact Rt. }
      assert (E : firstn (Z.to_nat n) (rem b) = acc' ++ t).
      { rewrite RS. fold acc l'. rewrite firstn_app.
        rewrite firstn_all2 by lia. unfold acc'. rewrite <- app_assoc. f_equal.
        replace (Z.to_nat n - length acc)%nat
          with (Z.to_nat (m / 8 * 8) + Z.to_nat (m mod 8))%nat by lia.
        rewrite <- (firstn_skipn (Z.to_nat (m / 8 * 8)) l') at 1.
        rewrite firstn_app. rewrite (firstn_all2 (firstn _ _)) by (rewrite firstn_length; lia).
        f_equal. rewrite firstn_length.
        replace (Z.to_nat (m / 8 * 8) + Z.to_nat (m mod 8) - Nat.min (Z.to_nat (m / 8 * 8)) (length l'))%nat
          with (Z.to_nat (m mod 8)) by lia.
        unfold l', t.
        replace (Z.to_nat (m / 8 * 8)) with (8 * Z.to_nat (m / 8))%nat by lia.
        rewrite <- bits_of_skipn, skipn_skipn'.
        replace (Z.to_nat (bb_byte b + 1) + Z.to_nat (m / 8))%nat
          with (Z.to_nat (bb_byte b + 1 + m / 8)) by lia.
        rewrite (skipn_nth _ _ _ F2), bits_of_cons, firstn_app, length_byte_bits.
        replace (Z.to_nat (m mod 8) - 8)%nat with 0%nat by lia.
        rewrite firstn_O, app_nil_r. reflexivity. }
      rewrite E, bval_app, Lt, Z2Nat.id by lia. reflexivity.
    + f_equal. f_equal. rewrite RS. fold acc l'. rewrite firstn_app.
      rewrite (firstn_all2 acc) by lia. f_equal. f_equal. lia.
Qed.

Lemma ConsumeBits_spec n b : wf b -> 0 <= n ->
  ConsumeBits n b =
  if n <=? Z.of_nat (length (rem b)) then Ok tt (adv b (Z.to_nat n)) else Fail b.
Proof.
  intros W Hn. unfold ConsumeBits. rewrite remaining_spec by assumption.
  destruct (Z.leb_spec n (Z.of_nat (length (rem b)))) as [Hr|Hr];
    [|destruct (Z.ltb_spec (Z.of_nat (length (rem b))) n); [reflexivity|lia]].
  destruct (Z.ltb_spec (Z.of_nat (length (rem b))) n) as [|_]; [lia|].
  destruct W as (Hb & Hc & H32 & Hby & Hbi & Hp).
  unfold adv, pos. do 2 f_equal; lia.
Qed.

Lemma ReadBits_spec n b : wf b -> 0 < n ->
  ReadBits n b =
  if (n <=? Z.of_nat (length (rem b))) && (n <=? 32)
  then Ok (bval (firstn (Z.to_nat n) (rem b))) (adv b (Z.to_nat n)) else Fail b.
Proof.
  intros W Hn. unfold ReadBits, PeekBits, bind.
  rewrite PeekBits_w_spec by (assumption || lia).
  destruct (_ && _) eqn:C; [|reflexivity].
  rewrite ConsumeBits_spec by (assumption || lia).
  destruct (Z.leb_spec n (Z.of_nat (length (rem b)))); [reflexivity|lia].
Qed.

Lemma ReadBits64_spec n b : wf b -> 0 < n ->
  ReadBits64 n b =
  if (n <=? Z.of_nat (length (rem b))) && (n <=? 64)
  then Ok (bval (firstn (Z.to_nat n) (rem b))) (adv b (Z.to_nat n)) else Fail b.
Proof.
  intros W Hn. unfold ReadBits64, PeekBits64, bind.
  rewrite PeekBits_w_spec by (assumption || lia).
  destruct (_ && _) eqn:C; [|reflexivity].
  rewrite ConsumeBits_spec by (assumption || lia).
  destruct (Z.leb_spec n (Z.of_nat (length (rem b)))); [reflexivity|lia].
Qed.

(** * Seek *)
Lemma Seek_back b b' : wf b -> bb_bytes b' = bb_bytes b -> bb_count b' = bb_count b ->
  Seek (bb_byte b) (bb_bit b) b' = Ok tt b.
Proof.
  intros (Hb & Hc & H32 & Hby & Hbi & Hp) E1 E2. unfold Seek, pos in *. rewrite E1, E2.
  destruct (Z.ltb_spec (bb_count b) (bb_byte b)) as [|_]; [lia|].
  destruct (Z.ltb_spec 7 (bb_bit b)) as [|_]; [lia|].
  destruct (Z.eqb_spec (bb_byte b) (bb_count b)); destruct (Z.ltb_spec 0 (bb_bit b));
    cbn [orb andb]; try lia; destruct b; reflexivity.
Qed.

(** * Exp-Golomb *)
Fixpoint lead0 (l : list bool) : nat :=
  match l with
  | false :: r => S (lead0 r)
  | _ => O
  end.

Lemma lead0_le l : (lead0 l <= length l)%nat.
Proof. induction l as [|[] l IH]; cbn; lia. Qed.

Lemma lead0_split l : l = repeat false (lead0 l) ++ skipn (lead0 l) l.
Proof. induction l as [|[] l IH]; cbn; congruence. Qed.

Lemma lead0_next l : match skipn (lead0 l) l with [] => True | x :: _ => x = true end.
Proof. induction l as [|[] l IH]; cbn; auto. Qed.

Lemma Peek1_spec b : wf b ->
  PeekBits 1 b = match rem b with [] => Fail b | x :: _ => Ok (Z.b2z x) b end.
Proof.
  intros W. unfold PeekBits. rewrite PeekBits_w_spec by (assumption || lia).
  destruct (rem b) as [|x r] eqn:E; [reflexivity|].
  cbn [length]. destruct (Z.leb_spec 1 (Z.of_nat (S (length r)))); [|lia].
  destruct x; reflexivity.
Qed.

Lemma zero_loop_spec fuel : forall b z, wf b -> (lead0 (rem b) < fuel)%nat ->
  zero_loop fuel z b = Ok (z + Z.of_nat (lead0 (rem b))) (adv b (lead0 (rem b))).
Proof.
  induction fuel as [|f IH]; intros b z W Hf; [lia|].
  cbn [zero_loop]. rewrite Peek1_spec by assumption.
  destruct (rem b) as [|x r] eqn:E.
  - cbn [lead0]. rewrite adv_0 by assumption. f_equal. lia.
  - destruct x; cbn [Z.b2z Z.eqb lead0].
    + rewrite adv_0 by assumption. f_equal. lia.
    + rewrite ConsumeBits_spec by (assumption || lia). rewrite E. cbn [length].
      destruct (Z.leb_spec 1 (Z.of_nat (S (length r)))); [|lia].
      change (Z.to_nat 1) with 1%nat.
      assert (R : rem (adv b 1) = r) by (rewrite rem_adv, E by assumption; reflexivity).
      assert (W1 : wf (adv b 1)) by (apply wf_adv; [assumption|rewrite E; cbn; lia]).
      cbn [lead0] in Hf.
      rewrite IH by (assumption || rewrite R; lia).
      rewrite R, adv_adv. f_equal. lia.
Qed.

(** Complete characterisation of ReadExponentialGolomb in terms of the remaining bits. *)
Lemma ReadExponentialGolomb_spec b : wf b ->
  ReadExponentialGolomb b =
  let z := lead0 (rem b) in
  if (Z.of_nat z <? 32) && (Nat.leb (S (2 * z)) (length (rem b)))
  then Ok (bval (firstn (S z) (skipn z (rem b))) - 1) (adv b (S (2 * z)))
  else Fail b.
Proof.
  intros W. unfold ReadExponentialGolomb. cbv zeta.
  pose proof (remaining_spec b W) as RR.
  pose proof (lead0_le (rem b)) as LL.
  rewrite zero_loop_spec by (assumption || lia).
  set (z := lead0 (rem b)) in *.
  assert (W1 : wf (adv b z)) by (apply wf_adv; [assumption|lia]).
  assert (R1 : rem (adv b z) = skipn z (rem b)) by (apply rem_adv; assumption).
  rewrite Peek1_spec, R1 by assumption.
  pose proof (lead0_next (rem b)) as NX. fold z in NX.
  assert (RST : forall k : nat,
    match Seek (bb_byte b) (bb_bit b) (adv b k) with
    | Ok _ b2 => Fail (A:=Z) b2
    | Fail _ => Err AssertFail
    | Err e => Err e
    end = Fail b).
  { intros k. rewrite Seek_back by (assumption || reflexivity). reflexivity. }
  assert (LS : (length (skipn z (rem b)) = length (rem b) - z)%nat) by apply skipn_length.
  destruct (skipn z (rem b)) as [|x r] eqn:E.
  - (* ran out of bits *)
    cbn [length] in LS.
    replace (Nat.leb (S (2 * z)) (length (rem b))) with false
      by (symmetry; apply Nat.leb_gt; lia).
    rewrite andb_false_r.
    destruct (Z.ltb_spec 32 (0 + Z.of_nat z + 1)) as [|_]; [apply RST|].
    rewrite ReadBits_spec by (assumption || lia). rewrite R1. cbn [length].
    destruct (Z.leb_spec (0 + Z.of_nat z + 1) (Z.of_nat 0)); [lia|]. cbn [andb]. apply RST.
  - subst x. cbn [Z.b2z Z.eqb Pos.eqb negb].
    destruct (Z.ltb_spec (Z.of_nat z) 32) as [Lz|Lz].
    2:{ destruct (Z.ltb_spec 32 (0 + Z.of_nat z + 1)); [apply RST|lia]. }
    destruct (Z.ltb_spec 32 (0 + Z.of_nat z + 1)); [lia|].
    rewrite ReadBits_spec by (assumption || lia). rewrite R1.
    destruct (Nat.leb_spec (S (2 * z)) (length (rem b))) as [G|G].
    + destruct (Z.leb_spec (0 + Z.of_nat z + 1) (Z.of_nat (length (true :: r)))); [|lia].
      destruct (Z.leb_spec (0 + Z.of_nat z + 1) 32); [|lia]. cbn [andb].
      rewrite adv_adv.
      replace (Z.to_nat (0 + Z.of_nat z + 1)) with (S z) by lia.
      replace (z + S z)%nat with (S (2 * z)) by lia. f_equal.
      pose proof (bval_range (firstn (S z) (true :: r))) as BR.
      rewrite firstn_length in BR.
      assert (Nat.min (S z) (length (true :: r)) = S z) as MM by lia. rewrite MM in BR.
      cbn [firstn bval] in *. 
      pose proof (bval_range (firstn z r)) as BR2.
      unfold u32. apply Z.mod_small.
      assert (2 ^ Z.of_nat (S z) <= 2 ^ 32) by (apply Z.pow_le_mono_r; lia).
      assert (0 < 2 ^ Z.of_nat (length (firstn z r))) by (apply Z.pow_pos_nonneg; lia).
      cbn [Z.b2z] in *. lia.
    + destruct (Z.leb_spec (0 + Z.of_nat z + 1) (Z.of_nat (length (true :: r)))); [lia|].
      cbn [andb]. apply RST.
Qed.

Lemma ue_zeros_spec k : 0 <= k ->
  2 ^ Z.of_nat (ue_zeros k) <= k + 1 < 2 ^ (Z.of_nat (ue_zeros k) + 1).
Proof.
  intros H. unfold ue_zeros. pose proof (Z.log2_nonneg (k + 1)). rewrite Z2Nat.id by lia.
  pose proof (Z.log2_spec (k + 1)). lia.
Qed.

Lemma length_enc_ue k : length (enc_ue k) = S (2 * ue_zeros k).
Proof. unfold enc_ue. rewrite app_length, repeat_length, length_enc_u. lia. Qed.

Lemma enc_u_top n v : 0 <= v < 2 ^ Z.of_nat (S n) -> 2 ^ Z.of_nat n <= v ->
  exists r, enc_u (S n) v = true :: r.
Proof.
  intros H1 H2. cbn [enc_u]. eexists. f_equal. apply Z.b2z_inj.
  rewrite Z.testbit_spec' by lia. rewrite Nat2Z.inj_succ, Z.pow_succ_r in H1 by lia.
  assert (v / 2 ^ Z.of_nat n = 1) as -> by nia. reflexivity.
Qed.

Lemma lead0_repeat n r : lead0 (repeat false n ++ true :: r) = n.
Proof. induction n; cbn; congruence. Qed.

Lemma lead0_enc_ue k rest : 0 <= k -> lead0 (enc_ue k ++ rest) = ue_zeros k.
Proof.
  intros H. pose proof (ue_zeros_spec k H) as S. unfold enc_ue.
  destruct (enc_u_top (ue_zeros k) (k + 1)) as [r E].
  - rewrite Nat2Z.inj_succ. lia.
  - lia.
  - rewrite E, <- app_assoc. apply lead0_repeat.
Qed.

Lemma parses_ue k : 0 <= k < 2 ^ 32 - 1 -> parses ReadExponentialGolomb (enc_ue k) k.
Proof.
  intros Hk b rest W E. pose proof (ue_zeros_spec k ltac:(lia)) as S.
  rewrite ReadExponentialGolomb_spec by assumption. cbv zeta.
  rewrite E, lead0_enc_ue by lia. set (z := ue_zeros k) in *.
  assert (Hz : Z.of_nat z < 32).
  { destruct (Z.lt_ge_cases (Z.of_nat z) 32) as [|G]; [assumption|].
    assert (2 ^ 32 <= 2 ^ Z.of_nat z) by (apply Z.pow_le_mono_r; lia). lia. }
  destruct (Z.ltb_spec (Z.of_nat z) 32); [|lia].
  rewrite app_length, length_enc_ue. fold z.
  destruct (Nat.leb_spec (Datatypes.S (2 * z)) (Datatypes.S (2 * z) + length rest)); [|lia].
  cbn [andb]. f_equal.
  unfold enc_ue. fold z. rewrite <- app_assoc.
  rewrite skipn_app_exact by (rewrite repeat_length; reflexivity).
  rewrite firstn_app_exact by (rewrite length_enc_u; reflexivity).
  rewrite enc_u_small; [lia|]. rewrite Nat2Z.inj_succ. lia.
Qed.

(** Every successful ue(v) read consumed a codeword. *)
Lemma wp_ue : wp no_err ReadExponentialGolomb
  (fun k bs => 0 <= k < 2 ^ 32 - 1 /\ bs = enc_ue k).
Proof.
  intros b W. rewrite ReadExponentialGolomb_spec by assumption. cbv zeta.
  set (z := lead0 (rem b)). destruct (_ && _) eqn:C.
  2:{ exists []. apply steps_refl, W. }
  apply andb_prop in C as [C1 C2]. apply Nat.leb_le in C2. apply Z.ltb_lt in C1.
  pose proof (lead0_split (rem b)) as SP. fold z in SP.
  pose proof (lead0_next (rem b)) as NX. fold z in NX.
  set (t := firstn (S z) (skipn z (rem b))).
  assert (Lt : length t = S z).
  { unfold t. rewrite firstn_length, skipn_length. lia. }
  assert (Ht : exists r, t = true :: r).
  { unfold t. destruct (skipn z (rem b)) as [|x r] eqn:E.
    - apply (f_equal (@length bool)) in E. rewrite skipn_length in E. cbn in E. lia.
    - subst x. eexists. reflexivity. }
  destruct Ht as [r Hr].
  pose proof (bval_range t) as BR. rewrite Lt in BR.
  assert (BL : 2 ^ Z.of_nat z <= bval t).
  { rewrite Hr in Lt |- *. cbn [length] in Lt. cbn [bval Z.b2z].
    replace (length r) with z by lia. pose proof (bval_range r). lia. }
  assert (P32 : 2 ^ Z.of_nat (S z) <= 2 ^ 32) by (apply Z.pow_le_mono_r; lia).
  assert (P0 : 0 < 2 ^ Z.of_nat z) by (apply Z.pow_pos_nonneg; lia).
  assert (Z1 : ue_zeros (bval t - 1) = z).
  { unfold ue_zeros. replace (bval t - 1 + 1) with (bval t) by lia.
    rewrite (Z.log2_unique (bval t) (Z.of_nat z)); [lia|lia|].
    rewrite Nat2Z.inj_succ in BR. lia. }
  assert (EN : enc_ue (bval t - 1) = repeat false z ++ t).
  { unfold enc_ue. rewrite Z1. f_equal. replace (bval t - 1 + 1) with (bval t) by lia.
    rewrite <- Lt. apply enc_u_bval. }
  exists (enc_ue (bval t - 1)). split; [|split; [lia|reflexivity]].
  assert (LE : length (enc_ue (bval t - 1)) = S (2 * z)) by (rewrite length_enc_ue, Z1; reflexivity).
  rewrite <- LE.
  apply steps_app with (rest := skipn (S z) (skipn z (rem b))); [assumption|].
  rewrite EN, <- app_assoc. rewrite SP at 1. f_equal. unfold t. symmetry. apply firstn_skipn.
Qed.

Lemma parses_u n v : 0 < n <= 32 -> 0 <= v < 2 ^ n ->
  parses (ReadBits n) (enc_u (Z.to_nat n) v) v.
Proof.
  intros Hn Hv b rest W E. rewrite ReadBits_spec by (assumption || lia).
  rewrite E, app_length, length_enc_u.
  destruct (Z.leb_spec n (Z.of_nat (Z.to_nat n + length rest))); [|lia].
  destruct (Z.leb_spec n 32); [|lia]. cbn [andb].
  rewrite firstn_app_exact by (rewrite length_enc_u; reflexivity).
  rewrite enc_u_small; [reflexivity|]. rewrite Z2Nat.id by lia. lia.
Qed.

Lemma wp_u n : 0 < n ->
  wp no_err (ReadBits n) (fun v bs => 0 <= v < 2 ^ n /\ n <= 32 /\ bs = enc_u (Z.to_nat n) v).
Proof.
  intros Hn b W. rewrite ReadBits_spec by assumption.
  destruct (_ && _) eqn:C.
  2:{ exists []. apply steps_refl, W. }
  apply andb_prop in C as [C1 C2].
  set (t := firstn (Z.to_nat n) (rem b)).
  assert (Lt : length t = Z.to_nat n) by (unfold t; rewrite firstn_length; lia).
  exists t. split.
  - rewrite <- Lt. apply steps_app with (rest := skipn (Z.to_nat n) (rem b)); [assumption|].
    unfold t. symmetry. apply firstn_skipn.
  - pose proof (bval_range t) as BR. rewrite Lt, Z2Nat.id in BR by lia.
    split; [lia|]. split; [lia|]. rewrite <- Lt. symmetry. apply enc_u_bval.
Qed.

(** * se(v) *)
Lemma se_model_spec k : 0 <= k < 2 ^ 32 - 1 -> k <> 2 ^ 31 - 1 ->
  forall b, (if Z.land k 1 =? 0 then ret (- to_i32 (k / 2))
   else bind (chk_i32 (to_i32 k + 1)) (fun s => ret (Z.quot s 2))) b
  = Ok (if (k <? 2 ^ 31) || Z.even k then se_of_ue k else Z.quot (k + 1 - 2 ^ 32) 2) b.
Proof.
  intros Hk Hne b. change (Z.land k 1) with (Z.land k (Z.ones 1)). rewrite Z.land_ones by lia.
  change (2 ^ 1) with 2. unfold se_of_ue. rewrite (Zmod_even k). unfold to_i32, u32.
  destruct (Z.even k) eqn:Ev.
  - cbn [Z.eqb]. rewrite orb_true_r. rewrite Z.mod_small by lia.
    destruct (Z.ltb_spec (k / 2) (2 ^ 31)); [reflexivity|lia].
  - cbn [Z.eqb]. rewrite orb_false_r. rewrite Z.mod_small by lia.
    destruct (Z.ltb_spec k (2 ^ 31)) as [L|L].
    + unfold chk_i32, in_i32, bind.
      destruct (Z.leb_spec (- 2 ^ 31) (k + 1)); [|lia].
      destruct (Z.ltb_spec (k + 1) (2 ^ 31)); [|lia]. cbn [andb].
      unfold ret. f_equal. apply Z.quot_div_nonneg; lia.
    + unfold chk_i32, in_i32, bind.
      destruct (Z.leb_spec (- 2 ^ 31) (k - 2 ^ 32 + 1)); [|lia].
      destruct (Z.ltb_spec (k - 2 ^ 32 + 1) (2 ^ 31)); [|lia]. cbn [andb].
      unfold ret. f_equal. f_equal. lia.
Qed.

Lemma parses_bind_raw {A B} (m : M A) (f : A -> M B) bs1 bs2 a c :
  parses m bs1 a -> parses (f a) bs2 c -> parses (bind m f) (bs1 ++ bs2) c.
Proof.
  intros P1 P2 b rest W E. unfold bind. rewrite <- app_assoc in E.
  rewrite (P1 b _ W E).
  rewrite (P2 _ rest).
  - rewrite adv_adv, app_length. reflexivity.
  - eapply wf_adv_app; eassumption.
  - eapply rem_adv_app; eassumption.
Qed.

Lemma parses_ret {A} (a : A) : parses (ret a) [] a.
Proof. intros b rest W E. cbn. rewrite adv_0 by assumption. reflexivity. Qed.

(** The range in which the reader implements the standard's mapping. *)
Definition se_ok (v : Z) : Prop := - 2 ^ 31 < v < 2 ^ 30.

Lemma ue_of_se_range v : se_ok v -> 0 <= ue_of_se v < 2 ^ 32 - 1.
Proof. unfold se_ok, ue_of_se. destruct (Z.ltb_spec 0 v); lia. Qed.

Lemma se_of_ue_of_se v : se_of_ue (ue_of_se v) = v.
Proof.
  unfold se_of_ue, ue_of_se. destruct (Z.ltb_spec 0 v).
  - replace (2 * v - 1) with (1 + 2 * (v - 1)) by lia.
    rewrite Z.even_add_mul_2. cbn [Z.even]. lia.
  - replace (- 2 * v) with (0 + 2 * (- v)) by lia. rewrite Z.even_add_mul_2. cbn [Z.even]. lia.
Qed.

Lemma ue_of_se_of_ue k : 0 <= k -> ue_of_se (se_of_ue k) = k.
Proof.
  intros Hk. unfold se_of_ue, ue_of_se. pose proof (Zmod_even k).
  destruct (Z.even k).
  - destruct (Z.ltb_spec 0 (- (k / 2))); lia.
  - destruct (Z.ltb_spec 0 ((k + 1) / 2)); lia.
Qed.

Lemma parses_se v : se_ok v -> parses ReadSignedExponentialGolomb (enc_se v) v.
Proof.
  intros Hv. unfold ReadSignedExponentialGolomb, enc_se.
  rewrite <- (app_nil_r (enc_ue _)).
  pose proof (ue_of_se_range v Hv) as R.
  eapply parses_bind_raw; [apply parses_ue; exact R|].
  intros b rest W E. rewrite se_model_spec.
  - cbn [length]. rewrite adv_0 by assumption. f_equal.
    rewrite se_of_ue_of_se.
    destruct ((ue_of_se v <? 2 ^ 31) || Z.even (ue_of_se v)) eqn:C; [reflexivity|].
    exfalso. apply orb_false_elim in C as [C1 C2].
    unfold se_ok, ue_of_se in *. destruct (Z.ltb_spec 0 v); [lia|].
    replace (-2 * v) with (0 + 2 * (- v)) in C2 by lia. rewrite Z.even_add_mul_2 in C2. discriminate.
  - exact R.
  - unfold se_ok, ue_of_se in *. destruct (Z.ltb_spec 0 v); lia.
Qed.

Lemma i32_quot x : - 2 ^ 31 <= x < 2 ^ 31 -> - 2 ^ 31 <= Z.quot x 2 < 2 ^ 31.
Proof.
  intros H. pose proof (Z.quot_rem x 2 ltac:(lia)) as Q.
  pose proof (Z.rem_bound_abs x 2 ltac:(lia)). lia.
Qed.

(** * Runs of zeros *)
Lemma zrun_app_l n l1 l2 : zrun n l1 -> zrun n (l1 ++ l2).
Proof. intros (pre & post & ->). exists pre, (post ++ l2). rewrite <- !app_assoc. reflexivity. Qed.
Lemma zrun_app_r n l1 l2 : zrun n l2 -> zrun n (l1 ++ l2).
Proof. intros (pre & post & ->). exists (l1 ++ pre), post. rewrite <- !app_assoc. reflexivity. Qed.
Lemma zrun_le n m l : (n <= m)%nat -> zrun m l -> zrun n l.
Proof.
  intros H (pre & post & ->). exists pre, (repeat false (m - n) ++ post). replace m with (n + (m - n))%nat at 1 by lia.
  rewrite repeat_app, <- !app_assoc. reflexivity.
Qed.
Lemma enc_ue_zrun n k : 2 ^ Z.of_nat n - 1 <= k -> zrun n (enc_ue k).
Proof.
  intros Hk. apply (zrun_le n (ue_zeros k)).
  - unfold ue_zeros. assert (Z.of_nat n <= Z.log2 (k + 1)); [|lia]. apply Z.log2_le_pow2; lia.
  - exists [], (enc_u (S (ue_zeros k)) (k + 1)). reflexivity.
Qed.

(** What a successful se(v) read means: an int32; and if it is in the good range of values
    produced by small code numbers, the bits are its codeword. *)
Lemma wp_se : wp ovf_only ReadSignedExponentialGolomb
  (fun v bs => - 2 ^ 31 < v < 2 ^ 31 /\
     exists k, 0 <= k < 2 ^ 32 - 1 /\ bs = enc_ue k /\ (k < 2 ^ 31 -> v = se_of_ue k)).
Proof.
  intros b W. unfold ReadSignedExponentialGolomb, bind at 1.
  pose proof (wp_ue b W) as U.
  destruct (ReadExponentialGolomb b) as [k b'|b'|e]; [|exact U|destruct U].
  destruct U as (bs & St & Hk & ->).
  destruct (Z.eq_dec k (2 ^ 31 - 1)) as [->|Hne].
  - split; [reflexivity|]. destruct St as [-> _]. apply zrun_app_l, enc_ue_zrun. lia.
  - rewrite se_model_spec by assumption.
    exists (enc_ue k). split; [assumption|]. unfold se_of_ue. split.
    + pose proof (Zmod_even k). destruct (Z.even k) eqn:Ev; rewrite ?orb_true_r, ?orb_false_r; [lia|].
      destruct (Z.ltb_spec k (2 ^ 31)); [lia|].
      pose proof (Z.quot_rem (k + 1 - 2 ^ 32) 2 ltac:(lia)) as Q.
      pose proof (Z.rem_bound_abs (k + 1 - 2 ^ 32) 2 ltac:(lia)). lia.
    + exists k. split; [exact Hk|]. split; [reflexivity|]. intros L.
      destruct (Z.ltb_spec k (2 ^ 31)); [reflexivity|lia].
Qed.
