(** C01-C08: the bit reader and writer. *)
From Coq Require Import ZArith List Bool Lia ZifyBool ZifyNat.
From Verif Require Import MBase MBitBuffer Spec BitsFacts Reader ReaderFacts Rules WriterFacts CodeFacts.
Import ListNotations.
Open Scope Z_scope.
Ltac Zify.zify_post_hook ::= Z.div_mod_to_equations.

Lemma wf_mk bytes : Forall is_byte bytes -> Z.of_nat (length bytes) < 2 ^ 32 -> wf (mk_bb bytes).
Proof.
  intros F L. unfold wf, mk_bb, pos. cbn [bb_bytes bb_count bb_byte bb_bit].
  repeat split; try assumption; lia.
Qed.
Ltac bytes_ok := repeat (constructor; [unfold is_byte; lia|]); constructor.

(** C01. [rem b] is the list of bits from the position of [b] to the end of its buffer, [bval] the number a list of bits
    spells, [adv b k] the same buffer [k] bits further. *)
Theorem C01_read_exact : forall b n, wf b -> 1 <= n ->
  ReadBits n b =
    if (n <=? 32) && (n <=? Z.of_nat (length (rem b)))
    then Ok (bval (firstn (Z.to_nat n) (rem b))) (adv b (Z.to_nat n))
    else Fail b.
Proof. intros b n W H. rewrite ReadBits_spec by (assumption || lia). rewrite andb_comm. reflexivity. Qed.

Theorem C01_read64_exact : forall b n, wf b -> 1 <= n ->
  ReadBits64 n b =
    if (n <=? 64) && (n <=? Z.of_nat (length (rem b)))
    then Ok (bval (firstn (Z.to_nat n) (rem b))) (adv b (Z.to_nat n))
    else Fail b.
Proof. intros b n W H. rewrite ReadBits64_spec by (assumption || lia). rewrite andb_comm. reflexivity. Qed.

Theorem C01_peek_exact : forall b n, wf b -> 1 <= n ->
  PeekBits n b =
    if (n <=? 32) && (n <=? Z.of_nat (length (rem b)))
    then Ok (bval (firstn (Z.to_nat n) (rem b))) b else Fail b.
Proof.
  intros b n W H. unfold PeekBits. rewrite PeekBits_w_spec by (assumption || lia).
  rewrite andb_comm. reflexivity.
Qed.

Theorem C01_peek64_exact : forall b n, wf b -> 1 <= n ->
  PeekBits64 n b =
    if (n <=? 64) && (n <=? Z.of_nat (length (rem b)))
    then Ok (bval (firstn (Z.to_nat n) (rem b))) b else Fail b.
Proof.
  intros b n W H. unfold PeekBits64. rewrite PeekBits_w_spec by (assumption || lia).
  rewrite andb_comm. reflexivity.
Qed.

(** After a read the remaining bits are the old ones without the first [n]. *)
Theorem C01_read_advances : forall b k, wf b -> (k <= length (rem b))%nat ->
  wf (adv b k) /\ pos (adv b k) = pos b + Z.of_nat k /\ rem (adv b k) = skipn k (rem b).
Proof.
  intros b k W H. assert (L : Z.of_nat k <= Z.of_nat (length (rem b))) by lia.
  split; [apply wf_adv; assumption|]. split; [apply pos_adv|].
  apply rem_adv, W.
Qed.

Example C01_case : wf (mkBB [0xAB; 0xCD; 0xEF; 0x01; 0x23] 5 0 3) /\
  ReadBits 32 (mkBB [0xAB; 0xCD; 0xEF; 0x01; 0x23] 5 0 3)
    = Ok 0x5E6F7809 (mkBB [0xAB; 0xCD; 0xEF; 0x01; 0x23] 5 4 3) /\
  ReadBits 6 (mkBB [0xAB; 0xCD; 0xEF; 0x01; 0x23] 5 4 3) = Fail (mkBB [0xAB; 0xCD; 0xEF; 0x01; 0x23] 5 4 3).
Proof.
  split; [|vm_compute; auto].
  unfold wf, pos. cbn [bb_bytes bb_count bb_byte bb_bit length]. repeat split; try lia. bytes_ok.
Qed.

(** A width of 0 aborts: the precondition [1 <= n] is needed. *)
Theorem C01_zero_width_aborts : forall b, ReadBits 0 b = Err AssertFail.
Proof. reflexivity. Qed.

(** C02 *)
Theorem C02_ue_exact : forall b, wf b ->
  match ReadExponentialGolomb b with
  | Ok k b' => 0 <= k < 2 ^ 32 - 1 /\ rem b = enc_ue k ++ rem b' /\ b' = adv b (length (enc_ue k))
  | Fail b' => b' = b /\ forall k rest, 0 <= k < 2 ^ 32 - 1 -> rem b <> enc_ue k ++ rest
  | Err _ => False
  end.
Proof.
  intros b W. pose proof (wp_ue b W) as H.
  destruct (ReadExponentialGolomb b) as [k b'|b'|e] eqn:E; [| |exact H].
  - destruct H as (bs & (R & A) & K & ->). auto.
  - split.
    + rewrite ReadExponentialGolomb_spec in E by assumption. cbv zeta in E.
      destruct (_ && _) in E; congruence.
    + intros k rest Hk Er. rewrite (parses_ue k Hk b rest W Er) in E. discriminate.
Qed.

(** The converse reading: every codeword is decoded. *)
Theorem C02_ue_complete : forall b k rest, wf b -> 0 <= k < 2 ^ 32 - 1 -> rem b = enc_ue k ++ rest ->
  ReadExponentialGolomb b = Ok k (adv b (length (enc_ue k))).
Proof. intros b k rest W H E. exact (parses_ue k H b rest W E). Qed.

Example C02_case : enc_ue 7 = [false; false; false; true; false; false; false] /\
  ReadExponentialGolomb (mk_bb [0x11]) = Ok 7 (mkBB [0x11] 1 0 7) /\
  ReadExponentialGolomb (mk_bb [0; 0; 0; 0; 128; 0; 0; 0; 0]) = Fail (mk_bb [0; 0; 0; 0; 128; 0; 0; 0; 0]) /\
  ReadExponentialGolomb (mk_bb [0; 0; 0; 1; 255; 255; 255; 254]) =
    Ok (2 ^ 32 - 2) (mkBB [0; 0; 0; 1; 255; 255; 255; 254] 8 7 7).
Proof. vm_compute. auto. Qed.

(** C03: as stated the property fails for odd code numbers from 2^31-1 on. *)
Theorem C03_se_exact : forall b, wf b ->
  match ReadExponentialGolomb b with
  | Ok k b' => k < 2 ^ 31 - 1 \/ Z.even k = true ->
               ReadSignedExponentialGolomb b = Ok (se_of_ue k) b'
  | Fail b' => b' = b /\ ReadSignedExponentialGolomb b = Fail b
  | Err _ => False
  end.
Proof.
  intros b W. pose proof (C02_ue_exact b W) as H. unfold ReadSignedExponentialGolomb, bind at 1 3.
  destruct (ReadExponentialGolomb b) as [k b'|b'|e]; [| |exact H].
  - destruct H as (K & _). intros C. rewrite se_model_spec; [|assumption|destruct C as [|C]; [lia|intros ->; discriminate]].
    destruct ((k <? 2 ^ 31) || Z.even k) eqn:D; [reflexivity|]. destruct C as [C|C]; [lia|].
    rewrite C, orb_true_r in D. discriminate.
  - destruct H as [-> _]. auto.
Qed.

Theorem C03_se_complete : forall b v rest, wf b -> - 2 ^ 31 < v < 2 ^ 30 ->
  rem b = enc_se v ++ rest ->
  ReadSignedExponentialGolomb b = Ok v (adv b (length (enc_se v))).
Proof. intros b v rest W H E. exact (parses_se v H b rest W E). Qed.

(** Code number 2^31-1 (value 2^30): signed overflow.  Code number 2^31+1 (value 2^30+1): a
    negative value is returned. *)
Theorem C03_se_refuted :
  let over := mk_bb [0; 0; 0; 1; 0; 0; 0; 0] in
  let wrong := mk_bb [0; 0; 0; 1; 0; 0; 0; 4] in
  wf over /\ wf wrong /\
  rem over = enc_se (2 ^ 30) ++ [false] /\
  ReadSignedExponentialGolomb over = Err SignedOverflow /\
  rem wrong = enc_se (2 ^ 30 + 1) ++ [false] /\
  ReadSignedExponentialGolomb wrong = Ok (- (2 ^ 30) + 1) (adv wrong 63).
Proof.
  cbv zeta. split; [apply wf_mk; [bytes_ok|cbn; lia]|]. split; [apply wf_mk; [bytes_ok|cbn; lia]|].
  vm_compute. auto.
Qed.

Example C03_case : enc_se (-2) = [false; false; true; false; true] /\ se_of_ue 4 = -2 /\
  ReadSignedExponentialGolomb (mk_bb [0x28]) = Ok (-2) (mkBB [0x28] 1 0 5).
Proof. vm_compute. auto. Qed.

(** C04 *)
Theorem C04_write_read : forall b v n, wf b -> 1 <= n <= 32 ->
  match WriteBits v n b with
  | Ok _ b' => ReadBits n (mkBB (bb_bytes b') (bb_count b') (bb_byte b) (bb_bit b)) = Ok (v mod 2 ^ n) b'
  | Fail b' => b' = b /\ Z.of_nat (length (rem b)) < n
  | Err _ => False
  end.
Proof.
  intros b v n W Hn.
  assert (P : parses (ReadBits n) (enc_u (Z.to_nat n) v) (v mod 2 ^ n)).
  { replace (enc_u (Z.to_nat n) v) with (enc_u (Z.to_nat n) (v mod 2 ^ n)).
    - apply parses_u; [lia|]. apply Z.mod_pos_bound. lia.
    - apply bval_inj; [rewrite !length_enc_u; reflexivity|]. rewrite !bval_enc_u, Z2Nat.id by lia.
      apply Z.mod_mod. lia. }
  pose proof (write_read _ _ _ _ (writes_bits v n ltac:(lia)) P b W) as H.
  destruct (WriteBits v n b); auto. rewrite length_enc_u in H. split; [tauto|lia].
Qed.

Theorem C04_write_read64 : forall b v n, wf b -> 1 <= n <= 64 ->
  match WriteBits v n b with
  | Ok _ b' => ReadBits64 n (mkBB (bb_bytes b') (bb_count b') (bb_byte b) (bb_bit b)) = Ok (v mod 2 ^ n) b'
  | Fail b' => b' = b /\ Z.of_nat (length (rem b)) < n
  | Err _ => False
  end.
Proof.
  intros b v n W Hn.
  assert (P : parses (ReadBits64 n) (enc_u (Z.to_nat n) v) (v mod 2 ^ n)).
  { intros b1 rest W1 E. rewrite ReadBits64_spec by (assumption || lia).
    rewrite E, app_length, length_enc_u. destruct (_ && _) eqn:C; [|lia].
    rewrite firstn_app_exact by (rewrite length_enc_u; reflexivity).
    rewrite bval_enc_u, Z2Nat.id by lia. reflexivity. }
  pose proof (write_read _ _ _ _ (writes_bits v n ltac:(lia)) P b W) as H.
  destruct (WriteBits v n b); auto. rewrite length_enc_u in H. split; [tauto|lia].
Qed.

Example C04_case : exists b', WriteBits 0x1FE 9 (mkBB [0; 0; 0] 3 0 5) = Ok tt b' /\
  bb_bytes b' = [7; 0xF8; 0] /\ (bb_byte b', bb_bit b') = (1, 6).
Proof. eexists. vm_compute. auto. Qed.

(** C05: the new bits are the old ones with exactly the addressed window replaced. *)
Theorem C05_write_frame : forall b v n, wf b -> 1 <= n <= 64 ->
  match WriteBits v n b with
  | Ok _ b' => Z.of_nat (length (rem b)) >= n /\
      bits_of (bb_bytes b') = firstn (Z.to_nat (pos b)) (bits_of (bb_bytes b))
           ++ enc_u (Z.to_nat n) v
           ++ skipn (Z.to_nat (pos b) + Z.to_nat n) (bits_of (bb_bytes b)) /\
      length (bb_bytes b') = length (bb_bytes b) /\ bb_count b' = bb_count b /\
      pos b' = pos b + n /\ wf b'
  | Fail b' => Z.of_nat (length (rem b)) < n /\ b' = b
  | Err _ => False
  end.
Proof.
  intros b v n W Hn. pose proof (WriteBits_spec v n b W ltac:(lia)) as H.
  destruct (Z.leb_spec n (Z.of_nat (length (rem b)))) as [L|L].
  - destruct H as (l' & -> & Hl & Hf & E).
    split; [lia|]. cbn [adv with_bytes bb_bytes bb_count].
    split; [rewrite E; unfold splice; rewrite length_enc_u; reflexivity|].
    split; [exact Hl|]. split; [reflexivity|].
    split; [rewrite pos_adv, Z2Nat.id by lia; reflexivity|].
    pose proof (wf_with_bytes b l' W Hl Hf) as W'. apply wf_adv; [exact W'|].
    pose proof (length_rem _ W') as L1. pose proof (length_rem _ W) as L2. unfold pos in *.
    cbn [with_bytes bb_bytes bb_count bb_byte bb_bit] in *. lia.
  - rewrite H. auto.
Qed.

(** Byte-wise corollary: bytes that the window does not touch keep their value. *)
Theorem C05_write_frame_bytes : forall b v n b' i, wf b -> 1 <= n <= 64 ->
  WriteBits v n b = Ok tt b' ->
  (8 * Z.of_nat i + 8 <= pos b \/ pos b + n <= 8 * Z.of_nat i) ->
  nth_error (bb_bytes b') i = nth_error (bb_bytes b) i.
Proof.
  intros b v n b' i W Hn E Hi. pose proof (C05_write_frame b v n W Hn) as H. rewrite E in H.
  destruct H as (L & Eb & Hl & _ & _ & W').
  destruct (nth_error (bb_bytes b) i) as [x|] eqn:Ex.
  - assert (Li : (i < length (bb_bytes b))%nat) by (apply nth_error_Some; congruence).
    destruct (nth_error (bb_bytes b') i) as [y|] eqn:Ey;
      [|apply nth_error_None in Ey; lia].
    f_equal.
    assert (B : forall l z, nth_error l i = Some z -> byte_bits z = firstn 8 (skipn (8 * i) (bits_of l))).
    { intros l z Hz. rewrite <- bits_of_skipn, (skipn_nth _ _ _ Hz), bits_of_cons. reflexivity. }
    assert (P : 0 <= pos b) by (destruct W as (_ & _ & _ & ? & ? & _); unfold pos; lia).
    pose proof (length_rem b W) as LR. pose proof W as (_ & Hc & _).
    assert (byte_bits y = byte_bits x) as Eq.
    { rewrite (B _ _ Ey), (B _ _ Ex), Eb.
      set (o := bits_of (bb_bytes b)).
      assert (Lo : length o = (8 * length (bb_bytes b))%nat) by apply length_bits_of.
      destruct Hi as [Hi|Hi].
      - rewrite skipn_app, firstn_app. rewrite !skipn_length, firstn_length.
        replace (8 - _)%nat with 0%nat by lia. rewrite firstn_O, app_nil_r.
        rewrite <- (firstn_skipn (Z.to_nat (pos b)) o) at 2.
        rewrite skipn_app, firstn_app, skipn_length, firstn_length.
        replace (8 - _)%nat with 0%nat by lia. rewrite firstn_O, app_nil_r. reflexivity.
      - rewrite app_assoc. set (A := firstn _ o ++ _).
        assert (LA : length A = (Z.to_nat (pos b) + Z.to_nat n)%nat).
        { unfold A. rewrite app_length, firstn_length, length_enc_u. lia. }
        rewrite skipn_app, (skipn_all2 A) by lia. cbn [app]. rewrite skipn_skipn'. do 2 f_equal. lia. }
    assert (is_byte y /\ is_byte x) as [By Bx].
    { destruct W as (F & _), W' as (F' & _). split; [exact (nth_error_byte _ _ _ F' Ey)|exact (nth_error_byte _ _ _ F Ex)]. }
    rewrite <- (byte_bval y By), <- (byte_bval x Bx), Eq. reflexivity.
  - apply nth_error_None in Ex. apply nth_error_None. lia.
Qed.

(** C06 *)
Theorem C06_ue_round_trip : forall b v, wf b -> 0 <= v < 2 ^ 32 - 1 ->
  match WriteExponentialGolomb v b with
  | Ok _ b' => ReadExponentialGolomb (mkBB (bb_bytes b') (bb_count b') (bb_byte b) (bb_bit b)) = Ok v b'
  | Fail b' => b' = b /\ (length (rem b) < length (enc_ue v))%nat
  | Err _ => False
  end.
Proof. intros b v W H. exact (write_read _ _ _ _ (writes_ue v H) (parses_ue v H) b W). Qed.

(** Not for positive values from 2^30 on, which the reader gets wrong (C06_se_refuted). *)
Theorem C06_se_round_trip : forall b v, wf b -> - 2 ^ 31 < v < 2 ^ 30 ->
  match WriteSignedExponentialGolomb v b with
  | Ok _ b' => ReadSignedExponentialGolomb (mkBB (bb_bytes b') (bb_count b') (bb_byte b) (bb_bit b)) = Ok v b'
  | Fail b' => b' = b /\ (length (rem b) < length (enc_se v))%nat
  | Err _ => False
  end.
Proof.
  intros b v W H.
  exact (write_read _ _ _ _ (writes_se v ltac:(lia)) (parses_se v H) b W).
Qed.

(** The writer does write the standard's codeword for every int32 but INT32_MIN. *)
Theorem C06_se_writer_exact : forall b v, wf b -> - 2 ^ 31 < v < 2 ^ 31 ->
  match WriteSignedExponentialGolomb v b with
  | Ok _ b' => bits_of (bb_bytes b') = firstn (Z.to_nat (pos b)) (bits_of (bb_bytes b)) ++ enc_se v
                 ++ skipn (Z.to_nat (pos b) + length (enc_se v)) (bits_of (bb_bytes b)) /\
               pos b' = pos b + Z.of_nat (length (enc_se v))
  | Fail b' => b' = b /\ (length (rem b) < length (enc_se v))%nat
  | Err _ => False
  end.
Proof.
  intros b v W H. pose proof (writes_se v H b W) as S.
  destruct (Nat.leb_spec (length (enc_se v)) (length (rem b))).
  - destruct S as (l' & -> & _ & _ & E). cbn [adv with_bytes bb_bytes]. split; [exact E|].
    rewrite pos_adv. reflexivity.
  - rewrite S. auto.
Qed.

(** The two values without a 32-bit codeword are refused, and nothing is written. *)
Theorem C06_unwritable : forall b, WriteExponentialGolomb (2 ^ 32 - 1) b = Fail b /\ WriteSignedExponentialGolomb (- 2 ^ 31) b = Fail b.
Proof. intros b. split; reflexivity. Qed.

(** Values from 2^30 on do not survive the round trip: the reader computes with 32-bit ints. *)
Theorem C06_se_refuted :
  let z := mk_bb (repeat 0 8) in
  match WriteSignedExponentialGolomb (2 ^ 30) z with
  | Ok _ b' => ReadSignedExponentialGolomb (mk_bb (bb_bytes b')) = Err SignedOverflow
  | _ => False end /\
  match WriteSignedExponentialGolomb (2 ^ 30 + 1) z with
  | Ok _ b' => exists r, ReadSignedExponentialGolomb (mk_bb (bb_bytes b')) = Ok (- (2 ^ 30) + 1) r
  | _ => False end.
Proof. vm_compute. eauto. Qed.

Example C06_case : exists b', WriteSignedExponentialGolomb (-5) (mkBB [0; 0] 2 0 6) = Ok tt b' /\
  bb_bytes b' = [0; 0x58] /\ length (enc_se (-5)) = 7%nat.
Proof. eexists. vm_compute. auto. Qed.

(** C07: proved for 2 <= n < 2^31; missing: the two ends of the documented range, where the
    code aborts or shifts out of range (C07_refuted). *)
Theorem C07_nonsymmetric_round_trip : forall b n v, wf b -> 2 <= n < 2 ^ 31 -> 0 <= v < n ->
  match WriteNonSymmetric v n b with
  | Ok _ b' => ReadNonSymmetric n (mkBB (bb_bytes b') (bb_count b') (bb_byte b) (bb_bit b)) = Ok v b' /\
               pos b' = pos b + SizeNonSymmetricBits v n
  | Fail b' => b' = b /\ Z.of_nat (length (rem b)) < SizeNonSymmetricBits v n
  | Err _ => False
  end.
Proof.
  intros b n v W Hn Hv. pose proof (write_read _ _ _ _ (writes_ns n v Hn Hv) (parses_ns n v Hn Hv) b W) as H.
  pose proof (writes_ns n v Hn Hv b W) as S.
  rewrite size_ns by assumption.
  destruct (Nat.leb_spec (length (enc_ns n v)) (length (rem b))).
  - destruct S as (l' & E & _). rewrite E in *. split; [exact H|]. rewrite pos_adv. reflexivity.
  - rewrite S in H |- *. destruct H as [_ H]. split; [reflexivity|lia].
Qed.

Theorem C07_bits_exact : forall b n v, wf b -> 2 <= n < 2 ^ 31 -> 0 <= v < n ->
  forall rest, rem b = enc_ns n v ++ rest -> ReadNonSymmetric n b = Ok v (adv b (length (enc_ns n v))).
Proof. intros b n v W Hn Hv rest E. exact (parses_ns n v Hn Hv b rest W E). Qed.

Theorem C07_refuted : forall b, (1 <= Z.of_nat (length (rem b))) -> wf b ->
  ReadNonSymmetric 1 b = Err AssertFail /\ WriteNonSymmetric 0 1 b = Err BadShift /\
  ReadNonSymmetric (2 ^ 31) b = Err BadShift /\ WriteNonSymmetric 0 (2 ^ 31) b = Err BadShift.
Proof.
  intros b L W. split; [reflexivity|]. split; [|split; reflexivity].
  unfold WriteNonSymmetric. change (negb (0 <? 1) || (2 ^ 31 <? 1)) with false. cbv iota.
  change (32 <=? CountBits 1) with false. cbv iota zeta.
  change (u32 (2 ^ CountBits 1 - 1)) with 1. change (0 <? 1) with true. cbv iota.
  change (CountBits 1 - 1) with 0. unfold WriteBits. rewrite remaining_spec by assumption.
  destruct (Z.ltb_spec (Z.of_nat (length (rem b))) 0); [lia|]. reflexivity.
Qed.

Example C07_case : enc_ns 5 2 = [true; false] /\ enc_ns 5 4 = [true; true; true] /\
  SizeNonSymmetricBits 2 5 = 2 /\ SizeNonSymmetricBits 4 5 = 3.
Proof. vm_compute. auto. Qed.

(** C08: calls of the reading API, arguments in the documented ranges. *)
Inductive call : Type :=
| CPeek (n : Z) | CPeek64 (n : Z) | CRead (n : Z) | CRead64 (n : Z) | CReadBytes (n : Z)
| CReadUInt8 | CReadUInt16 | CReadUInt32
| CConsumeBits (n : Z) | CConsumeBytes (n : Z) | CSeek (byte bit : Z)
| CUe | CSe | CNonSymmetric (n : Z) | CGetOffset.

Definition call_ok (c : call) : Prop :=
  match c with
  | CPeek n | CPeek64 n | CRead n | CRead64 n => 1 <= n < 2 ^ 64
  | CReadBytes n | CConsumeBits n | CConsumeBytes n => 0 <= n < 2 ^ 64
  | CSeek x y => 0 <= x < 2 ^ 64 /\ 0 <= y < 2 ^ 64
  | CNonSymmetric n => 2 <= n < 2 ^ 31
  | _ => True
  end.

Definition state_of {A} (r : res A) : res unit :=
  match r with Ok _ b => Ok tt b | Fail b => Ok tt b | Err e => Err e end.
Definition run_call (c : call) (b : bb) : res unit :=
  match c with
  | CPeek n => state_of (PeekBits n b)
  | CPeek64 n => state_of (PeekBits64 n b)
  | CRead n => state_of (ReadBits n b)
  | CRead64 n => state_of (ReadBits64 n b)
  | CReadBytes n => state_of (ReadBytes n b)
  | CReadUInt8 => state_of (ReadUInt8 b)
  | CReadUInt16 => state_of (ReadUInt16 b)
  | CReadUInt32 => state_of (ReadUInt32 b)
  | CConsumeBits n => state_of (ConsumeBits n b)
  | CConsumeBytes n => state_of (ConsumeBytes n b)
  | CSeek x y => state_of (Seek x y b)
  | CUe => state_of (ReadExponentialGolomb b)
  | CSe => state_of (ReadSignedExponentialGolomb b)
  | CNonSymmetric n => state_of (ReadNonSymmetric n b)
  | CGetOffset => state_of (GetCurrentOffset b)
  end.
(** A history of calls; the results of the calls are ignored, as a caller may do. *)
Fixpoint run_calls (cs : list call) (b : bb) : res unit :=
  match cs with
  | [] => Ok tt b
  | c :: r => match run_call c b with Ok _ b' => run_calls r b' | Fail b' => Fail b' | Err e => Err e end
  end.

Lemma wp_state E {A} (m : M A) Q b : wp E m Q -> wf b ->
  match state_of (m b) with
  | Ok _ b' => wf b' /\ bb_bytes b' = bb_bytes b | Fail _ => False | Err e => E e (rem b) end.
Proof.
  intros H W. specialize (H b W). unfold state_of. destruct (m b) as [a b'|b'|e]; [| |exact H].
  - destruct H as (bs & S & _). split; [eapply steps_wf; eassumption|]. destruct S as [_ ->]. reflexivity.
  - destruct H as (bs & S). split; [eapply steps_wf; eassumption|]. destruct S as [_ ->]. reflexivity.
Qed.

Lemma ns_safe n : 2 <= n < 2 ^ 31 -> wp no_err (ReadNonSymmetric n) (fun _ _ => True).
Proof.
  intros Hn. pose proof (ns_bounds n Hn) as [W B].
  unfold ReadNonSymmetric. rewrite ns_min, ns_count by assumption.
  destruct (_ || _) eqn:C; [lia|clear C].
  destruct (Z.leb_spec 32 (ns_width n)) as [|_]; [lia|].
  eapply wp_bind; [apply wp_u; lia|]. intros a bs _.
  apply wp_if; intros _; [apply wp_ret; auto|].
  eapply wp_bind; [apply (wp_u 1); lia|]. intros a2 bs2 _. apply wp_ret. auto.
Qed.

Lemma run_call_ok c b : wf b -> call_ok c ->
  match run_call c b with
  | Ok _ b' => wf b' /\ bb_bytes b' = bb_bytes b
  | Fail _ => False
  | Err e => c = CSe /\ e = SignedOverflow
  end.
Proof.
  intros W Hc.
  assert (K : forall r : res unit, match r with Ok _ b' => wf b' /\ bb_bytes b' = bb_bytes b | Fail _ => False | Err e => no_err e (rem b) end ->
     match r with Ok _ b' => wf b' /\ bb_bytes b' = bb_bytes b | Fail _ => False | Err e => c = CSe /\ e = SignedOverflow end).
  { intros [a b'|b'|e] H; auto. destruct H. }
  assert (PK : forall w n, 1 <= n -> 8 <= w -> match state_of (PeekBits_w w n b) with
     Ok _ b' => wf b' /\ bb_bytes b' = bb_bytes b | Fail _ => False | Err e => no_err e (rem b) end).
  { intros w n Hn Hw. rewrite PeekBits_w_spec by (assumption || lia). destruct (_ && _); cbn; auto. }
  destruct c as [n|n|n|n|n| | | |n|n|x y| | |n|]; cbn [run_call call_ok] in *.
  - apply K, PK; lia.
  - apply K, PK; lia.
  - apply K. eapply wp_state; [apply wp_u; lia|assumption].
  - apply K. rewrite ReadBits64_spec by (assumption || lia).
    destruct (_ && _) eqn:C; cbn [state_of]; [|auto]. split; [|reflexivity]. apply wf_adv; [assumption|lia].
  - apply K. eapply wp_state; [|assumption]. unfold ReadBytes.
    apply (wp_collect_rel no_err (fun _ => ReadUInt8) (fun _ _ _ => True)).
    intros j _. eapply wp_weaken; [apply (wp_u 8); lia|auto].
  - apply K. eapply wp_state; [apply (wp_u 8); lia|assumption].
  - apply K. eapply wp_state; [apply (wp_u 16); lia|assumption].
  - apply K. eapply wp_state; [apply (wp_u 32); lia|assumption].
  - apply K. rewrite ConsumeBits_spec by (assumption || lia).
    destruct (Z.leb_spec n (Z.of_nat (length (rem b)))); cbn [state_of]; [|auto].
    split; [apply wf_adv; [assumption|lia]|reflexivity].
  - apply K. unfold ConsumeBytes. destruct (_ <? _); [cbn; auto|].
    rewrite ConsumeBits_spec by (assumption || lia).
    destruct (Z.leb_spec (n * 8) (Z.of_nat (length (rem b)))); cbn [state_of]; [|auto].
    split; [apply wf_adv; [assumption|lia]|reflexivity].
  - apply K. unfold Seek. destruct (_ || _) eqn:C; cbn [state_of]; [auto|]. split; [|reflexivity].
    destruct W as (Hb & Hcc & H32 & Hby & Hbi & Hp). unfold wf, pos.
    cbn [bb_bytes bb_count bb_byte bb_bit]. repeat split; try assumption; lia.
  - apply K. eapply wp_state; [apply wp_ue|assumption].
  - pose proof (wp_state _ _ _ b wp_se W) as H. destruct (state_of _) as [|b'|e]; [exact H|exact H|destruct H; auto].
  - apply K. eapply wp_state; [apply ns_safe; lia|assumption].
  - cbn. auto.
Qed.

(** After any history of calls the position is inside the buffer, RemainingBitCount is the
    number of bits after it and the bytes are those the buffer was created with.  The only
    undefined behaviour a history can meet is the signed overflow of se(v) (C03). *)
Theorem C08_position_invariant : forall bytes cs,
  Forall is_byte bytes -> Z.of_nat (length bytes) < 2 ^ 32 -> Forall call_ok cs ->
  match run_calls cs (mk_bb bytes) with
  | Ok _ b => bb_bytes b = bytes /\ 0 <= bb_byte b /\ 0 <= bb_bit b < 8 /\
              8 * bb_byte b + bb_bit b <= 8 * Z.of_nat (length bytes) /\
              remaining b = 8 * Z.of_nat (length bytes) - (8 * bb_byte b + bb_bit b)
  | Fail _ => False
  | Err e => In CSe cs /\ e = SignedOverflow
  end.
Proof.
  intros bytes cs F L. assert (W := wf_mk bytes F L).
  assert (E0 : bb_bytes (mk_bb bytes) = bytes) by reflexivity.
  revert W E0. generalize (mk_bb bytes) as b. induction cs as [|c cs IH]; intros b W E0 H.
  - cbn [run_calls]. rewrite remaining_spec, length_rem by assumption.
    destruct W as (Hb & Hc & H32 & Hby & Hbi & Hp). unfold pos in *. rewrite E0 in *. repeat split; try assumption; lia.
  - inversion H as [|? ? H1 H2]; subst. cbn [run_calls].
    pose proof (run_call_ok c b W H1) as R. destruct (run_call c b) as [a b'|b'|e]; [|exact R|].
    + destruct R as [W' E']. rewrite <- E' in *. specialize (IH b' W' eq_refl H2).
      destruct (run_calls cs b') as [|x|e]; auto. destruct IH. split; [right|]; auto.
    + destruct R as [-> ->]. split; [left|]; auto.
Qed.

Example C08_case : run_calls [CRead 3; CUe; CSeek 1 2; CRead 40; CReadBytes 9; CSe; CConsumeBits 1]
    (mk_bb [0xAA; 0x55; 0x0F; 0x80])
  = Ok tt (mkBB [0xAA; 0x55; 0x0F; 0x80] 4 3 3).
Proof. vm_compute. reflexivity. Qed.
