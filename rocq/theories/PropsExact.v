(** Complete descriptions of calls for which the textbook property fails on part of the inputs: what happens on every input.
    Properties C54 to C56, C64 to C68. *)
From Coq Require Import ZArith List Bool Lia ZifyBool ZifyNat.
From Verif Require Import MBase MBitBuffer Spec BitsFacts Reader ReaderFacts Rules WriterFacts CodeFacts PropsBits Syntax SyntaxSe MCommon CommonFacts PropsCommon
  MFraming FramingFacts PropsFraming MSyntaxA SpecA FactsA Api PropsA MSyntaxB SpecB FactsB FactsRps PropsB MSps SpecSps FactsSps PropsSps
  MPps SpecPps FactsPps PropsPps MSlice SpecSlice FactsSlice PropsSlice MSei SpecSei FactsSei PropsSei MNal FactsNal PropsNal MRtp FactsRtp PropsRtp PropsQp.
Import ListNotations.
Open Scope Z_scope.
Ltac Zify.zify_post_hook ::= Z.div_mod_to_equations.

(** * C54: signed Exp-Golomb codes, every code number *)
(** What the 32-bit arithmetic of the reader makes of the code number [k]: [None] is undefined behaviour. *)
Definition se_value (k : Z) : option Z :=
  if Z.even k then Some (- (k / 2))
  else if k <? 2 ^ 31 - 1 then Some ((k + 1) / 2)
  else if k =? 2 ^ 31 - 1 then None
  else Some ((k + 1) / 2 - 2 ^ 31).
Theorem C54_se_every_code : forall b, wf b ->
  match ReadExponentialGolomb b with
  | Ok k b' => 0 <= k < 2 ^ 32 - 1 /\ ReadSignedExponentialGolomb b = match se_value k with Some v => Ok v b' | None => Err SignedOverflow end
  | Fail b' => b' = b /\ ReadSignedExponentialGolomb b = Fail b
  | Err _ => False
  end.
Proof.
  intros b W. pose proof (C02_ue_exact b W) as H. unfold ReadSignedExponentialGolomb, bind at 1 3.
  destruct (ReadExponentialGolomb b) as [k b'|b'|e]; [| |exact H].
  - destruct H as (K & _). split; [lia|]. unfold se_value. destruct (Z.eq_dec k (2 ^ 31 - 1)) as [->|N]; [reflexivity|]. rewrite se_model_spec by assumption. unfold se_of_ue.
    destruct (Z.even k) eqn:Ev; [rewrite orb_true_r; reflexivity|]. rewrite orb_false_r. replace (k =? 2 ^ 31 - 1) with false by lia.
    destruct (Z.ltb_spec k (2 ^ 31)); [replace (k <? 2 ^ 31 - 1) with true by lia; reflexivity|]. replace (k <? 2 ^ 31 - 1) with false by lia. f_equal.
    pose proof (Zmod_even k) as M. rewrite Ev in M.
    replace (k + 1 - 2 ^ 32) with (((k + 1) / 2 - 2 ^ 31) * 2) by lia. apply Z.quot_mul. lia.
  - destruct H as [-> _]. auto.
Qed.
(** The value is the standard's exactly for the even code numbers and the odd ones below 2^31 - 1, i.e. for values below 2^30. *)
Theorem C54_se_right_iff : forall k, 0 <= k < 2 ^ 32 - 1 -> (se_value k = Some (se_of_ue k) <-> se_of_ue k < 2 ^ 30).
Proof.
  intros k Hk. unfold se_value, se_of_ue. pose proof (Zmod_even k) as M. destruct (Z.even k); [split; [lia|reflexivity]|].
  destruct (Z.ltb_spec k (2 ^ 31 - 1)); [split; [lia|reflexivity]|]. destruct (Z.eqb_spec k (2 ^ 31 - 1)); [split; [discriminate|lia]|].
  split; [|lia]. intros E. injection E as E. lia.
Qed.
(** Whatever is returned fits in an int32_t. *)
Theorem C54_se_range : forall b, wf b -> match ReadSignedExponentialGolomb b with Ok v _ => - 2 ^ 31 < v < 2 ^ 31 | _ => True end.
Proof.
  intros b W. pose proof (C54_se_every_code b W) as H. destruct (ReadExponentialGolomb b) as [k b'|b'|e]; [|destruct H as [_ ->]; exact I|destruct H].
  destruct H as [K ->]. unfold se_value. pose proof (Zmod_even k) as M. destruct (Z.even k); [lia|]. destruct (k <? 2 ^ 31 - 1) eqn:E; [lia|]. destruct (k =? 2 ^ 31 - 1) eqn:E'; [exact I|lia].
Qed.
Example C54_case : se_value 0 = Some 0 /\ se_value 1 = Some 1 /\ se_value 2 = Some (-1) /\ se_value (2 ^ 31 - 1) = None /\ se_value (2 ^ 31 + 1) = Some (1 - 2 ^ 30) /\
  se_value (2 ^ 32 - 2) = Some (1 - 2 ^ 31) /\ ReadSignedExponentialGolomb (mk_bb [0; 0; 0; 1; 0; 0; 0; 4]) = Ok (1 - 2 ^ 30) (adv (mk_bb [0; 0; 0; 1; 0; 0; 0; 4]) 63).
Proof. vm_compute. auto 10. Qed.

(** * C55: what the signed reader returns of what the signed writer wrote, every int32 *)
Theorem C55_se_round_trip_every_value : forall b v, wf b -> - 2 ^ 31 <= v < 2 ^ 31 ->
  match WriteSignedExponentialGolomb v b with
  | Ok _ b' => v <> - 2 ^ 31 /\ ReadSignedExponentialGolomb (mkBB (bb_bytes b') (bb_count b') (bb_byte b) (bb_bit b)) =
      if v <? 2 ^ 30 then Ok v b' else if v =? 2 ^ 30 then Err SignedOverflow else Ok (v - 2 ^ 31) b'
  | Fail b' => b' = b /\ (v = - 2 ^ 31 \/ (length (rem b) < length (enc_se v))%nat)
  | Err _ => False
  end.
Proof.
  intros b v W Hv. destruct (Z.eq_dec v (- 2 ^ 31)) as [->|N]; [exact (conj eq_refl (or_introl eq_refl))|].
  set (k := ue_of_se v). assert (K : 0 <= k < 2 ^ 32 - 1) by (unfold k, ue_of_se; destruct (Z.ltb_spec 0 v); lia).
  assert (Hr : parses ReadExponentialGolomb (enc_ue k) k).
  { intros b0 rest W0 E0. apply (C02_ue_complete b0 k rest W0 K E0). }
  pose proof (writes_se v ltac:(lia)) as Hw. pose proof (write_read _ _ _ _ Hw Hr b W) as H. specialize (Hw b W). unfold enc_se in *. fold k in Hw, H |- *.
  destruct (Nat.leb_spec (length (enc_ue k)) (length (rem b))).
  - destruct Hw as (l' & E & Hl & Fl & Eb). rewrite E in *. split; [exact N|].
    set (b2 := mkBB _ _ _ _) in *. assert (W2 : wf b2).
    { destruct W as (W1 & W3 & W4). unfold wf, b2, pos in *. cbn [adv with_bytes bb_bytes bb_count bb_byte bb_bit] in *. split; [|split]; try assumption; try (rewrite Hl); assumption. }
    pose proof (C54_se_every_code b2 W2) as G. rewrite H in G. destruct G as [_ ->]. unfold se_value, k, ue_of_se.
    destruct (Z.ltb_spec 0 v) as [P|P].
    + replace (2 * v - 1) with (1 + 2 * (v - 1)) by lia. rewrite Z.even_add_mul_2. change (Z.even 1) with false. cbv iota.
      destruct (Z.ltb_spec v (2 ^ 30)).
      * replace (_ <? _) with true by lia. f_equal. lia.
      * replace (1 + 2 * (v - 1) <? _) with false by lia. destruct (Z.eqb_spec v (2 ^ 30)).
        { replace (_ =? _) with true by lia. reflexivity. }
        { replace (_ =? _) with false by lia. f_equal. lia. }
    + replace (-2 * v) with (0 + 2 * - v) by lia. rewrite Z.even_add_mul_2. change (Z.even 0) with true. cbv iota. replace (v <? 2 ^ 30) with true by lia. f_equal. lia.
  - rewrite Hw in H |- *. destruct H as [_ H]. split; [reflexivity|right; lia].
Qed.
Example C55_case : match WriteSignedExponentialGolomb (2 ^ 30 + 7) (mk_bb (repeat 0 8)) with
  | Ok _ b' => exists b'', ReadSignedExponentialGolomb (mk_bb (bb_bytes b')) = Ok (7 - 2 ^ 30) b'' | _ => False end.
Proof. vm_compute. eauto. Qed.

(** * C56: the non-symmetric code, every number of values and every value *)
Definition ns_domain (n : Z) : option err :=
  if n <=? 1 then Some AssertFail else if n <? 2 ^ 31 then None else if n =? 2 ^ 31 then Some BadShift else Some AssertFail.
(** Reading: a value below n or no bits left for it, and outside 2..2^31-1 never a value. *)
Theorem C56_read_every_count : forall b n, wf b -> 0 <= n < 2 ^ 32 ->
  match ReadNonSymmetric n b with
  | Ok v b' => 2 <= n < 2 ^ 31 /\ 0 <= v < n /\ rem b = enc_ns n v ++ rem b' /\ b' = adv b (length (enc_ns n v))
  | Fail _ => 2 <= n < 2 ^ 31 /\ forall v rest, 0 <= v < n -> rem b <> enc_ns n v ++ rest
  | Err e => ns_domain n = Some e
  end.
Proof.
  intros b n W Hn. unfold ns_domain.
  destruct (Z.eq_dec n 0) as [->|N0]; [reflexivity|]. destruct (Z.eq_dec n 1) as [->|N1]; [reflexivity|]. destruct (Z.eq_dec n (2 ^ 31)) as [->|N31]; [reflexivity|].
  destruct (Z_lt_le_dec n (2 ^ 31)) as [L|L].
  2:{ unfold ReadNonSymmetric. replace (negb (0 <? n) || (2 ^ 31 <? n)) with true by lia. replace (n <=? 1) with false by lia. replace (n <? 2 ^ 31) with false by lia. replace (n =? 2 ^ 31) with false by lia. reflexivity. }
  assert (D : 2 <= n < 2 ^ 31) by lia. pose proof (ns_bounds n D) as [Bw B].
  assert (Dec : (exists v rest, 0 <= v < n /\ rem b = enc_ns n v ++ rest) \/ ((forall v rest, 0 <= v < n -> rem b <> enc_ns n v ++ rest) /\
    (Z.of_nat (length (rem b)) < ns_width n - 1 \/ (Z.of_nat (length (rem b)) = ns_width n - 1 /\ 2 ^ ns_width n - n <= bval (firstn (Z.to_nat (ns_width n - 1)) (rem b)))))).
  { clear - W D Bw B. set (w := ns_width n) in *. set (m := 2 ^ w - n) in *.
    assert (P : 2 ^ w = 2 * 2 ^ (w - 1)) by (replace w with (Z.succ (w - 1)) at 1 by lia; apply Z.pow_succ_r; lia).
    destruct (le_lt_dec (Z.to_nat (w - 1)) (length (rem b))) as [L1|L1].
    2:{ right. split; [|left; lia]. intros v rest Hv E. apply (f_equal (@length bool)) in E. rewrite app_length in E. unfold enc_ns in E. fold w in E. destruct (v <? _) in E; rewrite length_enc_u in E; lia. }
    set (h := firstn (Z.to_nat (w - 1)) (rem b)). assert (Lh : length h = Z.to_nat (w - 1)) by (unfold h; rewrite firstn_length; lia).
    pose proof (bval_range h) as Rh. rewrite Lh, Z2Nat.id in Rh by lia.
    destruct (Z_lt_le_dec (bval h) m) as [S|S].
    - left. exists (bval h), (skipn (Z.to_nat (w - 1)) (rem b)). split; [lia|]. unfold enc_ns. fold w. fold m. replace (bval h <? m) with true by lia.
      assert (Q : enc_u (Z.to_nat (w - 1)) (bval h) = h) by (rewrite <- Lh; apply enc_u_bval). rewrite Q. symmetry. apply firstn_skipn.
    - destruct (le_lt_dec (Z.to_nat w) (length (rem b))) as [L2|L2].
      + left. set (h2 := firstn (Z.to_nat w) (rem b)). assert (Lh2 : length h2 = Z.to_nat w) by (unfold h2; rewrite firstn_length; lia).
        assert (E2 : exists x, h2 = h ++ [x]).
        { unfold h2, h. replace (Z.to_nat w) with (Z.to_nat (w - 1) + 1)%nat by lia. remember (Z.to_nat (w - 1)) as q eqn:Hq.
          replace (firstn (q + 1) (rem b)) with (firstn (q + 1) (firstn q (rem b) ++ skipn q (rem b))) by (rewrite firstn_skipn; reflexivity). rewrite firstn_app.
          rewrite firstn_firstn. replace (Nat.min (q + 1) q) with q by lia. rewrite firstn_length.
          replace (q + 1 - Nat.min q (length (rem b)))%nat with 1%nat by lia.
          destruct (skipn q (rem b)) as [|x r] eqn:Es; [|exists x; reflexivity]. apply (f_equal (@length bool)) in Es. rewrite skipn_length in Es. cbn in Es. lia. }
        destruct E2 as [x E2]. assert (V : bval h2 = 2 * bval h + (if x then 1 else 0)) by (rewrite E2, bval_app; change (2 ^ Z.of_nat (length [x])) with 2; replace (bval [x]) with (if x then 1 else 0) by (destruct x; reflexivity); destruct x; lia).
        exists (bval h2 - m), (skipn (Z.to_nat w) (rem b)). split; [destruct x; lia|]. unfold enc_ns. fold w. fold m. replace (bval h2 - m <? m) with false by (destruct x; lia).
        replace (bval h2 - m + m) with (bval h2) by lia. assert (Q : enc_u (Z.to_nat w) (bval h2) = h2) by (rewrite <- Lh2; apply enc_u_bval). rewrite Q. symmetry. apply firstn_skipn.
      + right. split; [|right; split; [lia|exact S]]. intros v rest Hv E. unfold enc_ns in E. fold w in E. fold m in E. destruct (Z.ltb_spec v m) as [C|C].
        * assert (h = enc_u (Z.to_nat (w - 1)) v).
          { unfold h. rewrite E, firstn_app, length_enc_u, Nat.sub_diag, firstn_all2 by (rewrite length_enc_u; lia). apply app_nil_r. }
          assert (bval h = v) by (rewrite H, bval_enc_u, Z2Nat.id by lia; apply Z.mod_small; lia). lia.
        * apply (f_equal (@length bool)) in E. rewrite app_length, length_enc_u in E. lia. }
  destruct Dec as [(v & rest & Hv & E)|[No Short]].
  - rewrite (parses_ns n v D Hv b rest W E). split; [exact D|]. split; [exact Hv|]. split; [|reflexivity].
    rewrite (rem_adv_app _ _ _ W E). exact E.
  - replace (ReadNonSymmetric n b) with (@Fail Z (if Z.of_nat (length (rem b)) <? ns_width n - 1 then b else adv b (Z.to_nat (ns_width n - 1)))); [split; assumption|].
    symmetry. unfold ReadNonSymmetric. rewrite ns_min, ns_count by exact D. replace (negb (0 <? n) || (2 ^ 31 <? n)) with false by lia. replace (32 <=? ns_width n) with false by lia.
    unfold bind at 1. rewrite C01_read_exact by (assumption || lia). destruct Short as [S|[S1 S2]].
    + replace (_ && _) with false by lia. replace (_ <? _) with true by lia. reflexivity.
    + replace (_ && _) with true by lia. replace (Z.of_nat (length (rem b)) <? ns_width n - 1) with false by lia. replace (bval _ <? _) with false by lia.
      destruct (C01_read_advances b (Z.to_nat (ns_width n - 1)) W ltac:(lia)) as (W' & _ & R'). unfold bind. rewrite C01_read_exact by (assumption || lia).
      rewrite R', skipn_length. replace (_ && _) with false by lia. reflexivity.
Qed.
(** Writing: undefined outside 2..2^31-1, the standard's codeword or nothing inside. *)
Theorem C56_write_every_count : forall b n v, wf b -> 0 <= n < 2 ^ 32 -> 0 <= v < 2 ^ 32 ->
  match WriteNonSymmetric v n b with
  | Ok _ b' => 2 <= n < 2 ^ 31 /\ v < n /\ pos b' = pos b + Z.of_nat (length (enc_ns n v)) /\
      bits_of (bb_bytes b') = firstn (Z.to_nat (pos b)) (bits_of (bb_bytes b)) ++ enc_ns n v ++ skipn (Z.to_nat (pos b) + length (enc_ns n v)) (bits_of (bb_bytes b))
  | Fail b' => 2 <= n < 2 ^ 31 /\ v < n /\ b' = b /\ (length (rem b) < length (enc_ns n v))%nat
  | Err e => (n <= v \/ 2 ^ 31 < n) /\ e = AssertFail \/ v < n /\ (n = 1 \/ n = 2 ^ 31) /\ e = BadShift
  end.
Proof.
  intros b n v W Hn Hv. destruct (Z_le_gt_dec n v) as [A|A].
  { unfold WriteNonSymmetric. replace (negb (v <? n) || (2 ^ 31 <? n)) with true by lia. left. split; [lia|reflexivity]. }
  destruct (Z_lt_le_dec (2 ^ 31) n) as [B|B].
  { unfold WriteNonSymmetric. replace (negb (v <? n) || (2 ^ 31 <? n)) with true by lia. left. split; [lia|reflexivity]. }
  destruct (Z.eq_dec n (2 ^ 31)) as [->|N31].
  { unfold WriteNonSymmetric. replace (negb (v <? 2 ^ 31) || (2 ^ 31 <? 2 ^ 31)) with false by lia. change (32 <=? CountBits (2 ^ 31)) with true. right. split; [lia|]. auto. }
  destruct (Z.eq_dec n 1) as [->|N1].
  { assert (v = 0) as -> by lia. unfold WriteNonSymmetric. change (negb (0 <? 1) || (2 ^ 31 <? 1)) with false. change (32 <=? CountBits 1) with false. cbv iota zeta.
    change (u32 (2 ^ CountBits 1 - 1)) with 1. change (0 <? 1) with true. cbv iota. change (CountBits 1 - 1) with 0. unfold WriteBits. rewrite remaining_spec by assumption.
    destruct (Z.ltb_spec (Z.of_nat (length (rem b))) 0); [lia|]. right. split; [lia|]. auto. }
  assert (D : 2 <= n < 2 ^ 31) by lia. pose proof (writes_ns n v D ltac:(lia) b W) as S.
  destruct (Nat.leb_spec (length (enc_ns n v)) (length (rem b))).
  - destruct S as (l' & -> & _ & _ & E). cbn [adv with_bytes bb_bytes]. split; [exact D|]. split; [lia|]. rewrite pos_adv. split; [reflexivity|exact E].
  - rewrite S. split; [exact D|]. split; [lia|]. auto.
Qed.
Example C56_case : ReadNonSymmetric 5 (mk_bb [0xE0]) = Ok 4 (adv (mk_bb [0xE0]) 3) /\ ReadNonSymmetric 1 (mk_bb [0xE0]) = Err AssertFail /\ ReadNonSymmetric 0 (mk_bb [0xE0]) = Err AssertFail /\
  ReadNonSymmetric (2 ^ 31) (mk_bb [0xE0]) = Err BadShift /\ ReadNonSymmetric (2 ^ 31 + 1) (mk_bb [0xE0]) = Err AssertFail.
Proof. vm_compute. auto 10. Qed.

(** * C64: more_rbsp_data on every buffer *)
(** No more data iff nothing is left or what is left is exactly a one and fewer than eight zeros.  In particular every rest of more than eight
    bits counts as data, whatever it is. *)
Theorem C64_more_rbsp_data_every_buffer : forall b, wf b -> exists v, more_rbsp_data b = Ok v b /\
  (v = false <-> rem b = [] \/ exists k, (k < 8)%nat /\ rem b = true :: repeat false k).
Proof.
  intros b W. destruct (C11_never_moves b W) as [v E]. exists v. split; [exact E|]. split.
  - intros ->. unfold more_rbsp_data in E. rewrite remaining_spec in E by exact W. destruct (Z.eqb_spec (Z.of_nat (length (rem b))) 0) as [Z0|N0].
    { left. destruct (rem b); [reflexivity|cbn in Z0; lia]. }
    destruct (Z.ltb_spec 8 (Z.of_nat (length (rem b)))) as [|L8]; [discriminate|]. rewrite C01_peek_exact in E by (assumption || lia).
    replace (_ && _) with true in E by lia. injection E as E. rewrite Nat2Z.id, firstn_all in E. rewrite Z.shiftl_1_l in E.
    right. exists (length (rem b) - 1)%nat. split; [lia|]. apply bval_inj; [cbn [length]; rewrite repeat_length; lia|].
    cbn [bval]. rewrite repeat_length, bval_repeat_false. replace (Z.of_nat (length (rem b) - 1)) with (Z.of_nat (length (rem b)) - 1) by lia.
    change (Z.b2z true) with 1. apply negb_false_iff, Z.eqb_eq in E. lia.
  - intros [R|(k & K & R)].
    + rewrite (C11_end_of_buffer b W R) in E. congruence.
    + rewrite (C11_more_rbsp_data b [] k W K R) in E. congruence.
Qed.
Example C64_case : more_rbsp_data (mk_bb [0x90; 0x80]) = Ok true (mk_bb [0x90; 0x80]) /\ more_rbsp_data (adv (mk_bb [0x90; 0x80]) 8) = Ok false (adv (mk_bb [0x90; 0x80]) 8) /\
  more_rbsp_data (mk_bb [0; 0]) = Ok true (mk_bb [0; 0]).
Proof. vm_compute. auto. Qed.

(** * C65: the access unit delimiter *)
(** ParseAud succeeds iff three bits are left, returns them, and has then consumed the trailing bits if they are well formed. *)
Theorem C65_aud_every_buffer : forall b, wf b ->
  match ParseAud b with
  | Ok pt b' => 3 <= remaining b /\ firstn 3 (rem b) = enc_u 3 pt /\ 0 <= pt < 8 /\ wf b' /\
      exists bs, rem b = enc_u 3 pt ++ bs ++ rem b' /\
        match rbsp_trailing_bits (adv b 3) with Ok _ b1 => b' = b1 | Fail b1 => b' = b1 | Err _ => False end
  | Fail b' => remaining b < 3
  | Err _ => False
  end.
Proof.
  intros b W. rewrite remaining_spec by exact W. unfold ParseAud. unfold bind at 1. rewrite C01_read_exact by (assumption || lia).
  destruct (Z.leb_spec 3 (Z.of_nat (length (rem b)))) as [L|L]; [|rewrite andb_false_r; lia].
  change (3 <=? 32) with true. cbv iota beta. change (true && true) with true. cbv iota. change (Z.to_nat 3) with 3%nat.
  destruct (C01_read_advances b 3 W ltac:(lia)) as (W3 & _ & R3).
  assert (F3 : firstn 3 (rem b) = enc_u 3 (bval (firstn 3 (rem b)))).
  { rewrite <- (enc_u_bval (firstn 3 (rem b))) at 1. f_equal. rewrite firstn_length. lia. }
  pose proof (bval_range (firstn 3 (rem b))) as BR. rewrite firstn_length in BR. replace (Nat.min 3 (length (rem b))) with 3%nat in BR by lia. change (2 ^ Z.of_nat 3) with 8 in BR.
  pose proof (wp_trailing (adv b 3) W3) as T. unfold bind, attempt.
  destruct (rbsp_trailing_bits (adv b 3)) as [u b2|b2|e]; [destruct T as (bs & S2 & _)|destruct T as (bs & S2)|destruct T];
    (unfold ret; cbv beta iota; split; [exact L|]; split; [exact F3|]; split; [exact BR|]; split; [eapply steps_wf; [exact W3|exact S2]|]; exists bs; split; [|reflexivity];
     destruct S2 as [E2 _]; rewrite <- F3, <- E2, R3; symmetry; apply firstn_skipn).
Qed.
Example C65_case : ParseAud (mk_bb [0x50]) = Ok 2 (adv (mk_bb [0x50]) 8) /\ ParseAud (mk_bb [0x40]) = Ok 2 (adv (mk_bb [0x40]) 4).
Proof. vm_compute. auto. Qed.

(** * C66: the cropped size *)
(** For every accepted SPS getResolution returns the standard's cropped size; it is positive iff the window leaves a sample in each direction,
    and never above the coded size. *)
Theorem C66_resolution : forall b s x b' b0, wf b -> ParseSps b = Ok (s, x) b' -> exists w h, getResolution s b0 = Ok (w, h) b0 /\
  w = pic_width_in_luma_samples s - SubWidthC s * (conf_win_left_offset s + conf_win_right_offset s) /\
  h = pic_height_in_luma_samples s - SubHeightC s * (conf_win_top_offset s + conf_win_bottom_offset s) /\
  - 4 * 16888 < w <= 16888 /\ - 4 * 16888 < h <= 16888 /\
  (0 < w <-> SubWidthC s * (conf_win_left_offset s + conf_win_right_offset s) < pic_width_in_luma_samples s) /\
  (0 < h <-> SubHeightC s * (conf_win_top_offset s + conf_win_bottom_offset s) < pic_height_in_luma_samples s).
Proof.
  intros b s x b' b0 W E. exists (cropped_width s), (cropped_height s). split; [eapply C33_cropped_size; eassumption|].
  destruct (C30_ranges b s x b' W E) as (_ & Hc & Hw & Hh & _ & _ & H1 & H2 & H3 & H4 & _). unfold cropped_width, cropped_height, SubWidthC, SubHeightC.
  split; [reflexivity|]. split; [reflexivity|]. destruct ((chroma_format_idc s =? 1) || (chroma_format_idc s =? 2)), (chroma_format_idc s =? 1); lia.
Qed.

(** * C67: GetSliceQpY on every stream *)
(** If the stream parses: the call is undefined iff some slice's sum with the PPS of its id at the end of the stream leaves int32_t; otherwise
    it returns these sums, one per slice, in order, and the state after the stream. *)
Theorem C67_qp_every_stream : forall data st bs st', byte_string data -> store_ok st -> ParseBitstream qp_options data st = Done (bs, st') ->
  ((forall u h, In u (bs_units bs) -> np_slice (nu_payload u) = Some h -> qp_ok (st_pps st') h) ->
     GetSliceQpY data st = Done (flat_map (unit_qp (st_pps st')) (bs_units bs), st')) /\
  ((exists u h, In u (bs_units bs) /\ np_slice (nu_payload u) = Some h /\ ~ qp_ok (st_pps st') h) -> GetSliceQpY data st = Bad SignedOverflow) /\
  Forall (fun u => match np_slice (nu_payload u) with Some h => exists p x, st_pps st' (slice_pic_parameter_set_id h) = Some (p, x) /\ 
                     unit_qp (st_pps st') u = [26 + init_qp_minus26 p + slice_qp_delta h] | None => unit_qp (st_pps st') u = [] end) (bs_units bs).
Proof.
  intros data st bs st' D S E. unfold GetSliceQpY. rewrite E. pose proof D as [F L]. rewrite ParseBitstream_spec in E by lia.
  destruct (parse_all qp_options (map (payload data) (annexb_units data)) st) as [[us st1]|e] eqn:E1; [|discriminate]. injection E as <- <-. cbn [bs_units].
  pose proof (placed_history _ _ _ D (annexb_in_bounds data ltac:(lia)) _ _ _ S E1) as Hi. pose proof (history_one _ _ _ _ Hi) as O.
  pose proof (qp_loop_spec st1 _ (history_slice_type _ _ _ _ Hi)) as Q. split; [|split].
  - intros A. destruct (qp_loop (placed (annexb_units data) us) st1) as [l|e]; [destruct Q as [-> _]; reflexivity|]. exfalso. destruct Q as [_ (u & h & I & Hh & N)]. exact (N (A u h I Hh)).
  - intros (u & h & I & Hh & N). destruct (qp_loop (placed (annexb_units data) us) st1) as [l|e]; [exfalso; exact (N (proj2 Q u h I Hh))|]. destruct Q as [-> _]. reflexivity.
  - apply Forall_forall. intros u I. specialize (O u). unfold unit_qp, slice_qp. destruct (np_slice (nu_payload u)) as [h|]; [|reflexivity]. specialize (O h I eq_refl).
    destruct (st_pps st1 (slice_pic_parameter_set_id h)) as [[p x]|]; [|contradiction (O eq_refl)]. eauto.
Qed.
Example C67_case : byte_string (annexb_stream C24_nals) /\ store_ok empty_state /\
  match ParseBitstream qp_options (annexb_stream C24_nals) empty_state with
  | Done (bs, st) => flat_map (unit_qp (st_pps st)) (bs_units bs) = [21]
  | Bad _ => False
  end /\
  match GetSliceQpY (annexb_stream C24_nals) empty_state with Done (l, _) => l = [21] | Bad _ => False end.
Proof. split; [exact (proj1 C24_case)|]. split; [apply empty_store_ok|]. split; vm_compute; reflexivity. Qed.
Example C66_case : let b := mk_bb (pack (enc_sps false C31_sps ++ [true])) in
  match ParseSps b with Ok (s, _) b' => s = C31_sps /\ getResolution s b' = Ok (cropped_width C31_sps, cropped_height C31_sps) b' /\ 0 < cropped_width C31_sps | _ => False end.
Proof. vm_compute. auto. Qed.
