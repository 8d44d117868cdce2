(** C09-C14, C53: emulation prevention, RBSP helpers, checksum, NAL unit types. *)
From Coq Require Import ZArith List Bool Lia ZifyBool ZifyNat.
From Verif Require Import MBase MBitBuffer MCommon Spec BitsFacts Reader ReaderFacts Rules WriterFacts CommonFacts PropsBits.
Import ListNotations.
Open Scope Z_scope.
Ltac Zify.zify_post_hook ::= Z.div_mod_to_equations.

(** C09: [escape] is the standard's emulation prevention (Spec.v). *)
Theorem C09_unescape_inverts_escape : forall fin rbsp, Forall is_byte rbsp ->
  UnescapeRbsp (escape fin 0 rbsp) = Done rbsp.
Proof.
  intros fin rbsp F. rewrite UnescapeRbsp_spec. f_equal.
  exact (unesc_escape fin rbsp 0 ltac:(lia) F).
Qed.

(** The specification is the right one: an escaped payload cannot contain a start code prefix
    (or 00 00 00, 00 00 02). *)
Theorem C09_escaped_has_no_start_code : forall fin rbsp p x q, Forall is_byte rbsp ->
  escape fin 0 rbsp = p ++ 0 :: 0 :: x :: q -> 2 < x \/ x < 0.
Proof.
  intros fin rbsp p x q F E. pose proof (no_prefix_escape fin rbsp 0 ltac:(lia) F) as N.
  cbn [repeat app] in N. rewrite E in N. clear E.
  induction p as [|y p IH]; cbn [app] in N; rewrite no_prefix_cons in N; destruct N as [N1 N2]; [lia|auto].
Qed.

Example C09_case : escape true 0 [0; 0; 0; 0; 1; 0; 0; 3; 5; 0; 0]
    = [0; 0; 3; 0; 0; 3; 1; 0; 0; 3; 3; 5; 0; 0; 3] /\
  UnescapeRbsp [0; 0; 3; 0; 0; 3; 1; 0; 0; 3; 3; 5; 0; 0; 3] = Done [0; 0; 0; 0; 1; 0; 0; 3; 5; 0; 0].
Proof. vm_compute. auto. Qed.

(** C10: [removed l l']: [l'] is [l] with some 03 bytes that follow 00 00 removed. *)
Inductive removed : list Z -> list Z -> Prop :=
| removed_nil : removed [] []
| removed_keep x l l' : removed l l' -> removed (x :: l) (x :: l')
| removed_drop l l' : removed l l' -> removed (0 :: 0 :: 3 :: l) (0 :: 0 :: l').

Lemma removed_unesc l : removed l (unesc l).
Proof.
  induction l as [|x r IH1 IH2] using unesc_ind; [constructor|].
  rewrite unesc_cons. destruct r as [|x1 [|x2 t]]; try (constructor; exact IH1).
  destruct ((x =? 0) && (x1 =? 0) && (x2 =? 3)) eqn:C; [|constructor; exact IH1].
  assert (x = 0 /\ x1 = 0 /\ x2 = 3) as (-> & -> & ->) by lia. apply removed_drop. exact IH2.
Qed.

Theorem C10_unescape_only_removes : forall data, exists out,
  UnescapeRbsp data = Done out /\ removed data out /\
  (length out <= length data)%nat /\ (2 * length data <= 3 * length out)%nat.
Proof.
  intros data. exists (unesc data). split; [apply UnescapeRbsp_spec|].
  pose proof (removed_unesc data) as R. split; [exact R|].
  induction R; cbn [length]; lia.
Qed.

(** Every removed byte is the leftmost possible: an input with the pattern loses that byte. *)
Theorem C10_pattern_removed : forall p q, (forall p1 q1, p ++ [0; 0] <> p1 ++ 0 :: 0 :: 3 :: q1) ->
  exists out, UnescapeRbsp q = Done out /\
  UnescapeRbsp (p ++ 0 :: 0 :: 3 :: q) = Done (p ++ 0 :: 0 :: out).
Proof.
  intros p q N. exists (unesc q). rewrite !UnescapeRbsp_spec. split; [reflexivity|]. f_equal.
  induction p as [|x p IH]; [reflexivity|].
  cbn [app]. rewrite unesc_cons.
  assert (IH' : unesc (p ++ 0 :: 0 :: 3 :: q) = p ++ 0 :: 0 :: unesc q).
  { apply IH. intros p1 q1 E. apply (N (x :: p1) q1). cbn [app]. rewrite E. reflexivity. }
  destruct p as [|x1 [|x2 t]]; cbn [app] in *.
  - destruct (_ && _) eqn:C; [lia|]. rewrite IH'. reflexivity.
  - destruct (_ && _) eqn:C; [lia|]. rewrite IH'. reflexivity.
  - destruct (_ && _) eqn:C.
    + assert (x = 0 /\ x1 = 0 /\ x2 = 3) as (-> & -> & ->) by lia.
      exfalso. apply (N [] (t ++ [0; 0])). reflexivity.
    + rewrite IH'. reflexivity.
Qed.

Theorem C10_no_pattern_unchanged : forall data,
  (forall p q, data <> p ++ 0 :: 0 :: 3 :: q) -> UnescapeRbsp data = Done data.
Proof.
  intros data N. rewrite UnescapeRbsp_spec. f_equal.
  pose proof (removed_unesc data) as R. remember (unesc data) as o. clear Heqo.
  induction R as [|x l l' R IH|l l' R IH].
  - reflexivity.
  - rewrite IH; [reflexivity|]. intros p q E. apply (N (x :: p) q). rewrite E. reflexivity.
  - exfalso. apply (N [] l). reflexivity.
Qed.

Example C10_case : UnescapeRbsp [1; 0; 0; 3; 0; 0; 3; 0; 3] = Done [1; 0; 0; 0; 0; 0; 3].
Proof. reflexivity. Qed.

(** C11: when the rest of the RBSP is data [d] followed by rbsp_trailing_bits (a one, then fewer
    than 8 zeros), the answer is whether there are data. *)
Theorem C11_more_rbsp_data : forall b d k, wf b -> (k < 8)%nat ->
  rem b = d ++ true :: repeat false k ->
  more_rbsp_data b = Ok (match d with [] => false | _ => true end) b.
Proof.
  intros b d k W Hk E. unfold more_rbsp_data. rewrite remaining_spec by assumption.
  assert (L : length (rem b) = (length d + S k)%nat).
  { rewrite E, app_length. cbn [length]. rewrite repeat_length. lia. }
  destruct (Z.eqb_spec (Z.of_nat (length (rem b))) 0) as [|_]; [lia|].
  destruct (Z.ltb_spec 8 (Z.of_nat (length (rem b)))) as [H8|H8].
  - destruct d; [cbn [length] in L; lia|reflexivity].
  - unfold PeekBits. rewrite PeekBits_w_spec by (assumption || lia).
    destruct (_ && _) eqn:C; [|lia]. rewrite Nat2Z.id, firstn_all.
    f_equal. rewrite Z.shiftl_1_l.
    replace (Z.of_nat (length (rem b)) - 1) with (Z.of_nat (length d + k)) by lia.
    rewrite E, bval_app. cbn [bval Z.b2z length]. rewrite repeat_length, bval_repeat_false.
    assert (P1 : 2 ^ Z.of_nat (S k) = 2 * 2 ^ Z.of_nat k) by (rewrite Nat2Z.inj_succ, Z.pow_succ_r; lia).
    assert (P2 : 2 ^ Z.of_nat (length d + k) = 2 ^ Z.of_nat (length d) * 2 ^ Z.of_nat k)
      by (rewrite Nat2Z.inj_add, Z.pow_add_r; lia).
    rewrite P1, P2.
    pose proof (bval_range d) as R.
    pose proof (Z.pow_pos_nonneg 2 (Z.of_nat k) ltac:(lia) ltac:(lia)).
    destruct d as [|x d]; [cbn; lia|].
    assert (D : bval (x :: d) * (2 * 2 ^ Z.of_nat k) + (1 * 2 ^ Z.of_nat k + 0)
             <> 2 ^ Z.of_nat (length (x :: d)) * 2 ^ Z.of_nat k).
    { cbn [length]. rewrite Nat2Z.inj_succ, Z.pow_succ_r by lia. intros Q.
      assert (Q2 : 2 * bval (x :: d) + 1 = 2 * 2 ^ Z.of_nat (length d)); [|lia].
      apply (Z.mul_reg_r _ _ (2 ^ Z.of_nat k)); [lia|]. rewrite <- Q. ring. }
    destruct (Z.eqb_spec (bval (x :: d) * (2 * 2 ^ Z.of_nat k) + (1 * 2 ^ Z.of_nat k + 0))
       (2 ^ Z.of_nat (length (x :: d)) * 2 ^ Z.of_nat k)); [contradiction|reflexivity].
Qed.

(** At the end of the buffer: false.  Anywhere: an answer, and the position has not moved. *)
Theorem C11_end_of_buffer : forall b, wf b -> rem b = [] -> more_rbsp_data b = Ok false b.
Proof.
  intros b W E. unfold more_rbsp_data. rewrite remaining_spec, E by assumption. reflexivity.
Qed.
Theorem C11_never_moves : forall b, wf b -> exists v, more_rbsp_data b = Ok v b.
Proof.
  intros b W. unfold more_rbsp_data. rewrite remaining_spec by assumption.
  destruct (Z.eqb_spec (Z.of_nat (length (rem b))) 0); [eauto|].
  destruct (Z.ltb_spec 8 (Z.of_nat (length (rem b)))); [eauto|].
  unfold PeekBits. rewrite PeekBits_w_spec by (assumption || lia). destruct (_ && _); eauto.
Qed.
(** With cabac_zero_words after the trailing bits the standard's answer is false (the last one
    bit is the stop bit); the code says true. *)
Theorem C11_cabac_zero_words_refuted :
  rem (mk_bb [0x80; 0; 0]) = [] ++ true :: repeat false 23 /\ more_rbsp_data (mk_bb [0x80; 0; 0]) = Ok true (mk_bb [0x80; 0; 0]).
Proof. vm_compute. auto. Qed.

Example C11_case : more_rbsp_data (mkBB [0x57; 0x58] 2 1 4) = Ok false (mkBB [0x57; 0x58] 2 1 4) /\
  more_rbsp_data (mkBB [0x57; 0x58] 2 1 3) = Ok true (mkBB [0x57; 0x58] 2 1 3).
Proof. vm_compute. auto. Qed.

(** C12: the bits from the position to the next byte boundary (8 of them if aligned). *)
Definition bits_to_boundary (b : bb) : nat := Z.to_nat (8 - bb_bit b).

Theorem C12_rbsp_trailing_bits : forall b, wf b ->
  match rbsp_trailing_bits b with
  | Ok _ b' => exists k, bits_to_boundary b = S k /\
      firstn (bits_to_boundary b) (rem b) = true :: repeat false k /\ b' = adv b (bits_to_boundary b) /\
      bb_bit b' = 0
  | Fail b' => (forall k rest, bits_to_boundary b = S k -> rem b <> true :: repeat false k ++ rest) /\
      exists bs, steps b b' bs
  | Err _ => False
  end.
Proof.
  intros b W. pose proof W as (Hb & Hc & H32 & Hby & Hbi & Hp).
  unfold rbsp_trailing_bits, bind. rewrite bit1 by assumption.
  pose proof (length_rem b W) as LR. unfold pos in LR.
  destruct (rem b) as [|x r] eqn:R.
  - split; [intros; discriminate|]. exists []. apply steps_refl. assumption.
  - assert (S1 : steps b (adv b 1) [x]).
    { split; [|reflexivity]. rewrite rem_adv by assumption. rewrite R. reflexivity. }
    assert (W1 : wf (adv b 1)) by (eapply steps_wf; eassumption).
    assert (R1 : rem (adv b 1) = r) by (rewrite rem_adv, R by assumption; reflexivity).
    assert (B : bits_to_boundary b = S (to_boundary (adv b 1))).
    { unfold bits_to_boundary, to_boundary. rewrite bit_adv. unfold pos. lia. }
    destruct x; cbn [Z.b2z Z.eqb Pos.eqb negb].
    + assert (TB : (to_boundary (adv b 1) <= 8)%nat) by (unfold to_boundary; lia).
      pose proof (to_boundary_le _ W1) as TL.
      destruct (trailing_loop_spec 8 (adv b 1) W1 TB) as (b' & bs & S & E).
      rewrite E. clear E.
      rewrite R1 in *.
      destruct (forallb negb (firstn (to_boundary (adv b 1)) r)) eqn:F.
      * exists (to_boundary (adv b 1)). split; [exact B|]. rewrite B. cbn [firstn].
        split; [|split].
        -- f_equal. assert (LF : length (firstn (to_boundary (adv b 1)) r) = to_boundary (adv b 1))
             by (rewrite firstn_length; lia).
           rewrite <- LF at 2. revert F. generalize (firstn (to_boundary (adv b 1)) r).
           induction l as [|y l IH]; cbn; [reflexivity|]. destruct y; cbn; [discriminate|].
           intros F. f_equal. exact (IH F).
        -- rewrite adv_adv by assumption. reflexivity.
        -- rewrite bit_adv. unfold to_boundary. rewrite bit_adv, pos_adv. unfold pos. lia.
      * split.
        -- intros k rest Bk Er. injection Er as Er. rewrite Bk in B. injection B as B'. rewrite Er, <- B' in F.
           rewrite firstn_app_exact in F by (rewrite repeat_length; reflexivity).
           assert (forallb negb (repeat false k) = true) by (clear; induction k; cbn; auto). congruence.
        -- exists ([true] ++ bs). eapply steps_trans; eassumption.
    + split; [intros k rest _ Er; discriminate|]. exists [false]. exact S1.
Qed.

Theorem C12_complete : forall b k rest, wf b -> bits_to_boundary b = S k ->
  rem b = true :: repeat false k ++ rest -> rbsp_trailing_bits b = Ok tt (adv b (S k)).
Proof.
  intros b k rest W B E. pose proof (C12_rbsp_trailing_bits b W) as H.
  destruct (rbsp_trailing_bits b) as [u b'|b'|e]; [| |contradiction].
  - destruct H as (k' & _ & _ & -> & _). rewrite B. destruct u. reflexivity.
  - exfalso. destruct H as [H _]. exact (H k rest B E).
Qed.

Example C12_case : rbsp_trailing_bits (mkBB [0x57; 0x58] 2 1 4) = Ok tt (mkBB [0x57; 0x58] 2 2 0) /\
  bits_to_boundary (mkBB [0x57; 0x58] 2 1 4) = 4%nat.
Proof. vm_compute. auto. Qed.

(** C13.  [tailb b]: the bytes from the position to the end. *)
Theorem C13_checksum_value : forall b, wf b -> bb_bit b = 0 ->
  GetNaluChecksum b = Ok (ones_complement_checksum (tailb b)) b.
Proof. exact GetNaluChecksum_spec. Qed.

Theorem C13_detects_one_byte : forall l1 x y l2,
  Forall is_byte (l1 ++ x :: l2) -> is_byte y -> x <> y ->
  Z.of_nat (length (l1 ++ x :: l2)) < 2 ^ 32 ->
  exists c1 c2, GetNaluChecksum (mk_bb (l1 ++ x :: l2)) = Ok c1 (mk_bb (l1 ++ x :: l2)) /\
    GetNaluChecksum (mk_bb (l1 ++ y :: l2)) = Ok c2 (mk_bb (l1 ++ y :: l2)) /\ c1 <> c2.
Proof.
  intros l1 x y l2 F Hy N L.
  assert (F' : Forall is_byte (l1 ++ y :: l2)).
  { apply Forall_app in F as [F1 F2]. apply Forall_app. split; [assumption|]. inversion F2; subst. constructor; assumption. }
  assert (L' : Z.of_nat (length (l1 ++ y :: l2)) < 2 ^ 32).
  { rewrite app_length in *. cbn [length] in *. lia. }
  exists (ones_complement_checksum (l1 ++ x :: l2)), (ones_complement_checksum (l1 ++ y :: l2)).
  rewrite !GetNaluChecksum_spec by (try (apply wf_mk; assumption); reflexivity).
  split; [reflexivity|]. split; [reflexivity|]. apply checksum_corrupt; assumption.
Qed.

(** Not every corruption: swapping two words goes unnoticed. *)
Theorem C13_swap_undetected : exists c,
  GetNaluChecksum (mk_bb [1; 2; 3; 4; 5; 6; 7; 8]) = Ok c (mk_bb [1; 2; 3; 4; 5; 6; 7; 8]) /\
  GetNaluChecksum (mk_bb [5; 6; 7; 8; 1; 2; 3; 4]) = Ok c (mk_bb [5; 6; 7; 8; 1; 2; 3; 4]).
Proof. eexists. vm_compute. auto. Qed.

(** Off a byte boundary the byte loop never ends and shifts by a negative amount. *)
Theorem C13_unaligned_refuted : wf (mkBB [1; 2; 3] 3 0 4) /\ GetNaluChecksum (mkBB [1; 2; 3] 3 0 4) = Err BadShift.
Proof.
  split; [|reflexivity]. unfold wf, pos. cbn [bb_bytes bb_count bb_byte bb_bit length]. repeat split; try lia. bytes_ok.
Qed.

Example C13_case : GetNaluChecksum (mk_bb [0xFF; 0xFF; 0xFF; 0xFF; 0; 0; 0; 2; 1])
  = Ok 0xFEFFFFFD (mk_bb [0xFF; 0xFF; 0xFF; 0xFF; 0; 0; 0; 2; 1]).
Proof. vm_compute. reflexivity. Qed.

(** C14 *)
Lemma type_cases (P : Z -> bool) : forallb P (map Z.of_nat (seq 0 64)) = true ->
  forall t, 0 <= t < 64 -> P t = true.
Proof.
  intros H t Ht. rewrite forallb_forall in H. apply H. rewrite <- (Z2Nat.id t) by lia.
  apply in_map, in_seq. lia.
Qed.
Theorem C14_type_predicates : forall t, 0 <= t < 64 ->
  IsNalUnitTypeVcl t = (t <=? 31) /\ IsNalUnitTypeNonVcl t = (32 <=? t) /\
  IsNalUnitTypeUnspecified t = (48 <=? t) /\
  IsSliceSegment t = ((t <=? 9) || (16 <=? t) && (t <=? 21)) /\
  xorb (IsNalUnitTypeVcl t) (IsNalUnitTypeNonVcl t) = true.
Proof.
  intros t Ht.
  pose proof (type_cases (fun t => Bool.eqb (IsNalUnitTypeVcl t) (t <=? 31) && Bool.eqb (IsNalUnitTypeNonVcl t) (32 <=? t)
    && Bool.eqb (IsNalUnitTypeUnspecified t) (48 <=? t) && Bool.eqb (IsSliceSegment t) ((t <=? 9) || (16 <=? t) && (t <=? 21))
    && xorb (IsNalUnitTypeVcl t) (IsNalUnitTypeNonVcl t)) eq_refl t Ht) as H. cbv beta in H.
  apply andb_prop in H as [H H5]. apply andb_prop in H as [H H4]. apply andb_prop in H as [H H3].
  apply andb_prop in H as [H1 H2]. apply eqb_prop in H1, H2, H3, H4. auto.
Qed.
(** For values that are no 6-bit type, every predicate is false. *)
Theorem C14_other_values : forall t, t < 0 \/ 64 <= t ->
  IsNalUnitTypeVcl t = false /\ IsNalUnitTypeNonVcl t = false /\
  IsNalUnitTypeUnspecified t = false /\ IsSliceSegment t = false.
Proof.
  intros t Ht.
  assert (G : forall l, forallb (fun x => (0 <=? x) && (x <? 64)) l = true -> case_of l t = false).
  { intros l H. unfold case_of. destruct (existsb (Z.eqb t) l) eqn:E; [|reflexivity].
    apply existsb_exists in E as (x & I & Q). rewrite forallb_forall in H. specialize (H x I). lia. }
  repeat split; apply G; reflexivity.
Qed.

(** C53 *)
Definition hex_digit_of (d : Z) : Z := nth (Z.to_nat d)
  [48; 49; 50; 51; 52; 53; 54; 55; 56; 57; 97; 98; 99; 100; 101; 102] 0. (* "0123456789abcdef" *)
Definition hex_of_bytes (l : list Z) : list Z :=
  flat_map (fun x => [hex_digit_of (x / 16); hex_digit_of (x mod 16)]) l.

Lemma hex2_spec x : is_byte x -> hex2 x = [hex_digit_of (x / 16); hex_digit_of (x mod 16)] /\
  hex_char (Z.shiftr x 4) <> 0 /\ hex_char (Z.land x 15) <> 0.
Proof.
  intros H.
  pose proof (byte_cases (fun x => forallb (fun p => fst p =? snd p) (combine (hex2 x) [hex_digit_of (x / 16); hex_digit_of (x mod 16)])
    && negb (hex_char (Z.shiftr x 4) =? 0) && negb (hex_char (Z.land x 15) =? 0)) eq_refl x H) as B. cbv beta in B.
  apply andb_prop in B as [B B3]. apply andb_prop in B as [B1 B2].
  unfold hex2 in *. cbn [combine forallb fst snd] in B1. split; [f_equal; [lia|f_equal; lia]|lia].
Qed.

Lemma store_mid p y q x : store (p ++ y :: q) (Z.of_nat (length p)) x = Done (p ++ x :: q).
Proof.
  unfold store, set_byte. rewrite app_length. cbn [length].
  destruct (_ || _) eqn:C; [lia|]. rewrite Nat2Z.id. f_equal.
  rewrite firstn_app_exact by reflexivity. f_equal. f_equal.
  replace (S (length p)) with (length (p ++ [y])) by (rewrite app_length; cbn; lia).
  change (p ++ y :: q) with (p ++ [y] ++ q). rewrite (app_assoc p [y] q).
  apply skipn_app_exact. reflexivity.
Qed.

Lemma snprintf_spec p a b c q size x : 3 <= size ->
  snprintf02x (p ++ a :: b :: c :: q) (Z.of_nat (length p)) size x
  = Done (p ++ hex2 x ++ 0 :: q).
Proof.
  intros H. unfold snprintf02x, hex2. cbn [app].
  destruct (Z.ltb_spec 0 (size - 1)) as [_|]; [|lia]. rewrite Z.add_0_r, store_mid.
  destruct (Z.ltb_spec 1 (size - 1)) as [_|]; [|lia].
  set (h := hex_char (Z.shiftr x 4)). set (l := hex_char (Z.land x 15)).
  replace (Z.of_nat (length p) + 1) with (Z.of_nat (length (p ++ [h]))) by (rewrite app_length; cbn; lia).
  rewrite (app_assoc p [h] (b :: c :: q) : p ++ h :: b :: c :: q = (p ++ [h]) ++ b :: c :: q), store_mid.
  replace (Z.of_nat (length p) + 2) with (Z.of_nat (length ((p ++ [h]) ++ [l]))) by (rewrite !app_length; cbn; lia).
  rewrite (app_assoc (p ++ [h]) [l] (c :: q) : (p ++ [h]) ++ l :: c :: q = ((p ++ [h]) ++ [l]) ++ c :: q).
  rewrite store_mid.
  replace (((p ++ [h]) ++ [l]) ++ 0 :: q) with (p ++ h :: l :: 0 :: q) by (rewrite <- !app_assoc; reflexivity).
  destruct (Z.ltb_spec 2 (size - 1)); [reflexivity|]. destruct (Z.eqb_spec 2 (size - 1)); [reflexivity|lia].
Qed.

Lemma rest3 {A} (l : list A) : (3 <= length l)%nat -> exists a b c q, l = a :: b :: c :: q.
Proof. destruct l as [|a [|b [|c q]]]; cbn [length]; try lia. eauto. Qed.

Lemma printable_loop_spec cs : forall p r, Forall is_byte cs ->
  (2 * length cs + 1 <= length r)%nat -> Z.of_nat (length p + length r) <= BUFFER_LEN ->
  exists r', printable_loop cs (Z.of_nat (length p)) (p ++ r)
    = Done (p ++ flat_map hex2 cs ++ r', Z.of_nat (length p + 2 * length cs)) /\
    length r = (2 * length cs + length r')%nat.
Proof.
  induction cs as [|x cs IH]; intros p r F L B; cbn [printable_loop flat_map].
  - exists r. rewrite Nat.add_0_r. auto.
  - inversion F as [|? ? Hx F']; subst. cbn [length] in *.
    destruct (rest3 r ltac:(lia)) as (a & b & c & q & ->). cbn [length] in *.
    rewrite snprintf_spec by lia.
    replace (p ++ hex2 x ++ 0 :: q) with ((p ++ hex2 x) ++ 0 :: q) by (rewrite <- app_assoc; reflexivity).
    replace (Z.of_nat (length p) + 2) with (Z.of_nat (length (p ++ hex2 x))) by (rewrite app_length; cbn; lia).
    destruct (IH (p ++ hex2 x) (0 :: q) F') as (r' & E & Lr).
    + cbn [length]. lia.
    + rewrite app_length. cbn [length hex2]. lia.
    + exists r'. rewrite E. rewrite <- !app_assoc. split; [|cbn [length] in *; lia].
      f_equal. f_equal. rewrite app_length. cbn [length hex2]. lia.
Qed.

Lemma c_string_app h q : Forall (fun x => x <> 0) h -> c_string (h ++ 0 :: q) = h.
Proof.
  induction 1 as [|x h Hx F IH]; [reflexivity|]. cbn [app c_string].
  destruct (Z.eqb_spec x 0); [contradiction|]. rewrite IH. reflexivity.
Qed.
Lemma hex_nonzero cs : Forall is_byte cs -> Forall (fun x => x <> 0) (flat_map hex2 cs) /\ flat_map hex2 cs = hex_of_bytes cs.
Proof.
  induction 1 as [|x cs Hx F [IH1 IH2]]; cbn [flat_map hex_of_bytes]; [auto|].
  destruct (hex2_spec x Hx) as (E & N1 & N2). split.
  - apply Forall_app. split; [|assumption]. unfold hex2. auto.
  - rewrite E. fold (hex_of_bytes cs). rewrite IH2. reflexivity.
Qed.
Lemma length_hex2 cs : length (flat_map hex2 cs) = (2 * length cs)%nat.
Proof. induction cs; cbn [flat_map length]; [reflexivity|]. rewrite app_length, IHcs. cbn. lia. Qed.

(** Whatever the uninitialised buffer holds, the printable form of up to 32 checksum bytes is
    their lowercase hexadecimal. *)
Theorem C53_printable_checksum : forall junk cs, Z.of_nat (length junk) = BUFFER_LEN ->
  Forall is_byte cs -> Z.of_nat (length cs) <= kMaxLength ->
  GetPrintableChecksum junk cs = Done (hex_of_bytes cs).
Proof.
  intros junk cs J F L. unfold GetPrintableChecksum.
  unfold BUFFER_LEN, kMaxLength in *.
  destruct (printable_loop_spec cs [] junk F) as (r' & E & Lr); [lia|cbn [length]; unfold BUFFER_LEN, kMaxLength; lia|].
  cbn [app length Z.of_nat] in E. rewrite E.
  destruct r' as [|y r']; [cbn [length] in *; lia|].
  replace (Z.of_nat (0 + 2 * length cs)) with (Z.of_nat (length (flat_map hex2 cs))) by (rewrite length_hex2; lia).
  rewrite store_mid. destruct (hex_nonzero cs F) as [N Eq]. rewrite c_string_app, Eq by assumption. reflexivity.
Qed.

Theorem C53_printable_of_nalu : forall junk answer, Z.of_nat (length junk) = BUFFER_LEN ->
  GetPrintableChecksum junk (checksum_bytes answer) = Done (hex_of_bytes (checksum_bytes answer)).
Proof.
  intros junk answer J. apply C53_printable_checksum; [assumption| |].
  - repeat constructor; unfold is_byte, u8; lia.
  - cbn. unfold kMaxLength. lia.
Qed.

Lemma fdump_loop_spec cs : forall p r n, Forall is_byte cs ->
  n = Z.of_nat (length p + length r) -> 1 <= Z.of_nat (length r) ->
  exists out, checksum_fdump_loop cs (Z.of_nat (length p)) (p ++ r) n = Done out /\
    Z.of_nat (length out) = n /\
    ((2 * length cs + 1 <= length r)%nat -> cs <> [] ->
      exists q, out = p ++ flat_map hex2 cs ++ 0 :: q).
Proof.
  induction cs as [|x cs IH]; intros p r n F En R; cbn [checksum_fdump_loop flat_map].
  - exists (p ++ r). split; [reflexivity|]. split; [rewrite app_length; lia|congruence].
  - inversion F as [|? ? Hx F']; subst. cbn [length] in *.
    destruct (Z.leb_spec (Z.of_nat (length p + length r)) (Z.of_nat (length p) + 2)) as [H|H].
    + assert (X : exists u y v, p ++ r = u ++ y :: v /\ Z.of_nat (length p + length r) - 1 = Z.of_nat (length u)).
      { destruct (exists_last (l := p ++ r)) as (u & y & E).
        - intros E. apply (f_equal (@length Z)) in E. rewrite app_length in E. cbn [length] in E. lia.
        - exists u, y, []. split; [exact E|]. apply (f_equal (@length Z)) in E. rewrite !app_length in E. cbn [length] in E. lia. }
      destruct X as (u & y & v & E & Lu). rewrite Lu, E, store_mid. eexists. split; [reflexivity|].
      split; [|intros; lia].
      apply (f_equal (@length Z)) in E. rewrite !app_length in *. cbn [length] in *. lia.
    + destruct (rest3 r ltac:(lia)) as (a & b & c & q & ->). cbn [length] in *.
      rewrite snprintf_spec by lia.
      replace (p ++ hex2 x ++ 0 :: q) with ((p ++ hex2 x) ++ 0 :: q) by (rewrite <- app_assoc; reflexivity).
      replace (Z.of_nat (length p) + 2) with (Z.of_nat (length (p ++ hex2 x))) by (rewrite app_length; cbn; lia).
      destruct (IH (p ++ hex2 x) (0 :: q) (Z.of_nat (length p + S (S (S (length q))))) F') as (out & E & Lo & Eo).
      * rewrite app_length. cbn [length hex2]. lia.
      * cbn [length]. lia.
      * exists out. split; [exact E|]. split; [exact Lo|]. intros Lr _.
        destruct cs as [|x' cs].
        -- cbn [checksum_fdump_loop] in E. injection E as <-. exists q. rewrite <- app_assoc. reflexivity.
        -- destruct (Eo) as [q' Eq]; [cbn [length] in *; lia|discriminate|].
           exists q'. rewrite Eq. rewrite <- !app_assoc. reflexivity.
Qed.

(** fdump into a buffer of its declared size (at least 1) stays inside; when it is large enough
    it holds the hexadecimal form, NUL-terminated. *)
Theorem C53_fdump_in_bounds : forall cs output, Forall is_byte cs -> (1 <= length output)%nat ->
  exists out, checksum_fdump cs output (Z.of_nat (length output)) = Done out /\
    length out = length output /\
    ((2 * length cs + 1 <= length output)%nat -> cs <> [] -> c_string out = hex_of_bytes cs).
Proof.
  intros cs output F L. destruct (fdump_loop_spec cs [] output (Z.of_nat (length output)) F) as (out & E & Lo & Eo);
    [reflexivity|lia|].
  exists out. split; [exact E|]. split; [lia|]. intros H1 H2. destruct (Eo H1 H2) as [q ->].
  destruct (hex_nonzero cs F) as [N Eq]. cbn [app]. rewrite c_string_app, Eq by assumption. reflexivity.
Qed.
(** A size of 0 writes before the buffer. *)
Theorem C53_fdump_refuted : forall x cs, checksum_fdump (x :: cs) [] 0 = Bad OutOfBounds.
Proof. reflexivity. Qed.

Example C53_case : GetPrintableChecksum (repeat 170 65) (checksum_bytes 0x0A1B2CFF)
  = Done [48; 97; 49; 98; 50; 99; 102; 102].
Proof. vm_compute. reflexivity. Qed.
