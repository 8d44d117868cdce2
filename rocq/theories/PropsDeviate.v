(** Exact behaviour where C03, C06, C07, C17 fail as first worded: what the code returns on every remaining input. *)
From Coq Require Import ZArith List Bool Lia ZifyBool ZifyNat.
From Verif Require Import MBase MBitBuffer MCommon MFraming Spec BitsFacts Reader ReaderFacts Rules WriterFacts CodeFacts FramingFacts PropsBits PropsFraming.
Import ListNotations.
Open Scope Z_scope.
Ltac Zify.zify_post_hook ::= Z.div_mod_to_equations.

(** * C03: every code number
    [ReadExponentialGolomb] gives the code number k (C02).  Odd code numbers from 2^31-1 on: the sum k+1 is taken on int32. *)
Theorem C03_se_every_code : forall b, wf b ->
  match ReadExponentialGolomb b with
  | Ok k b' => ReadSignedExponentialGolomb b =
                 if Z.even k || (k <? 2 ^ 31 - 1) then Ok (se_of_ue k) b'
                 else if k =? 2 ^ 31 - 1 then Err SignedOverflow
                 else Ok (se_of_ue k - 2 ^ 31) b'
  | Fail b' => b' = b /\ ReadSignedExponentialGolomb b = Fail b
  | Err _ => False
  end.
Proof.
  intros b W. pose proof (C02_ue_exact b W) as H. pose proof (C03_se_exact b W) as P.
  destruct (ReadExponentialGolomb b) as [k b'|b'|e] eqn:E; [|exact P|exact P].
  destruct H as (K & _).
  destruct (Z.even k) eqn:Ev; [apply P; right; reflexivity|]. cbn [orb].
  destruct (Z.ltb_spec k (2 ^ 31 - 1)) as [L|L]; [apply P; left; exact L|]. clear P.
  unfold ReadSignedExponentialGolomb, bind at 1. rewrite E.
  destruct (Z.eqb_spec k (2 ^ 31 - 1)) as [->|N].
  - reflexivity.
  - rewrite se_model_spec by assumption.
    destruct (Z.ltb_spec k (2 ^ 31)) as [L'|L']; [lia|]. rewrite Ev. cbn [orb].
    f_equal. unfold se_of_ue. rewrite Ev.
    pose proof (Zmod_even k) as M. rewrite Ev in M.
    assert (Q : k + 1 - 2 ^ 32 = 2 * ((k + 1) / 2 - 2 ^ 31)) by lia.
    rewrite Q, Z.mul_comm, Z.quot_mul by lia. reflexivity.
Qed.

(** In terms of the values: -2^31 < v < 2^31 is what a 32-bit code number can stand for. *)
Theorem C03_se_every_value : forall b v rest, wf b -> - 2 ^ 31 < v < 2 ^ 31 -> rem b = enc_se v ++ rest ->
  ReadSignedExponentialGolomb b =
    if v <? 2 ^ 30 then Ok v (adv b (length (enc_se v)))
    else if v =? 2 ^ 30 then Err SignedOverflow
    else Ok (v - 2 ^ 31) (adv b (length (enc_se v))).
Proof.
  intros b v rest W H R. destruct (Z.ltb_spec v (2 ^ 30)) as [L|L].
  { apply (C03_se_complete b v rest W); [lia|exact R]. }
  pose proof (C03_se_every_code b W) as S. unfold enc_se in *.
  assert (K : 0 <= ue_of_se v < 2 ^ 32 - 1) by (unfold ue_of_se; destruct (Z.ltb_spec 0 v); lia).
  rewrite (parses_ue (ue_of_se v) K b rest W R) in S. rewrite S. rewrite se_of_ue_of_se.
  unfold ue_of_se in *. destruct (Z.ltb_spec 0 v) as [_|]; [|lia].
  replace (Z.even (2 * v - 1)) with false by (symmetry; replace (2 * v - 1) with (1 + 2 * (v - 1)) by lia; rewrite Z.even_add_mul_2; reflexivity).
  cbn [orb]. destruct (Z.ltb_spec (2 * v - 1) (2 ^ 31 - 1)); [lia|].
  destruct (Z.eqb_spec (2 * v - 1) (2 ^ 31 - 1)), (Z.eqb_spec v (2 ^ 30)); try lia; reflexivity.
Qed.

(** * C06: what a written value is read back as, for every int32 *)
Theorem C06_se_round_trip_every_value : forall b v, wf b -> - 2 ^ 31 <= v < 2 ^ 31 ->
  match WriteSignedExponentialGolomb v b with
  | Ok _ b' => ReadSignedExponentialGolomb (mkBB (bb_bytes b') (bb_count b') (bb_byte b) (bb_bit b)) =
                 if v <? 2 ^ 30 then Ok v b' else if v =? 2 ^ 30 then Err SignedOverflow else Ok (v - 2 ^ 31) b'
  | Fail b' => b' = b /\ (v = - 2 ^ 31 \/ (length (rem b) < length (enc_se v))%nat)
  | Err _ => False
  end.
Proof.
  intros b v W H. destruct (Z.eq_dec v (- 2 ^ 31)) as [->|N].
  { destruct (C06_unwritable b) as [_ ->]. auto. }
  assert (H' : - 2 ^ 31 < v < 2 ^ 31) by lia.
  pose proof (writes_se v H' b W) as S.
  destruct (Nat.leb_spec (length (enc_se v)) (length (rem b))) as [L|L].
  - destruct S as (l' & -> & Hl & Hf & E).
    pose proof (rem_written b l' (enc_se v) W L Hl E) as R.
    cbn [adv with_bytes bb_bytes bb_count bb_byte bb_bit].
    pose proof (C03_se_every_value (with_bytes b l') v _ (wf_with_bytes b l' W Hl Hf) H' R) as G.
    exact G.
  - rewrite S. auto.
Qed.

(** * C07: the ends of the documented range, and beyond.  n is a uint32_t, v < 2^32. *)
Theorem C07_outside : forall b n v, wf b -> 0 <= n < 2 ^ 32 -> 0 <= v < 2 ^ 32 ->
  (n = 0 \/ 2 ^ 31 < n -> ReadNonSymmetric n b = Err AssertFail /\ WriteNonSymmetric v n b = Err AssertFail) /\
  (n <= v -> WriteNonSymmetric v n b = Err AssertFail) /\
  (n = 1 -> ReadNonSymmetric n b = Err AssertFail /\ (v < n -> WriteNonSymmetric v n b = Err BadShift)) /\
  (n = 2 ^ 31 -> ReadNonSymmetric n b = Err BadShift /\ (v < n -> WriteNonSymmetric v n b = Err BadShift)).
Proof.
  intros b n v W Hn Hv. repeat split.
  - unfold ReadNonSymmetric. destruct (Z.ltb_spec 0 n), (Z.ltb_spec (2 ^ 31) n); try lia; reflexivity.
  - unfold WriteNonSymmetric. destruct (Z.ltb_spec v n), (Z.ltb_spec (2 ^ 31) n); try lia; reflexivity.
  - intros L. unfold WriteNonSymmetric. destruct (Z.ltb_spec v n); [lia|reflexivity].
  - subst n. reflexivity.
  - intros L. subst n. assert (v = 0) by lia. subst v.
    unfold WriteNonSymmetric. change (negb (0 <? 1) || (2 ^ 31 <? 1)) with false. cbv iota.
    change (32 <=? CountBits 1) with false. cbv iota zeta.
    change (u32 (2 ^ CountBits 1 - 1)) with 1. change (0 <? 1) with true. cbv iota.
    change (CountBits 1 - 1) with 0. unfold WriteBits. rewrite remaining_spec by assumption.
    destruct (Z.ltb_spec (Z.of_nat (length (rem b))) 0); [lia|]. reflexivity.
  - subst n. reflexivity.
  - intros L. subst n. unfold WriteNonSymmetric. destruct (Z.ltb_spec v (2 ^ 31)); [|lia]. reflexivity.
Qed.

(** * C17: buffers of any size *)
(** One round of the loop in a buffer below 2^63 bytes. *)
Lemma explicit_round data i f acc : Z.of_nat (length data) < 2 ^ 63 -> Forall is_byte data -> (i < length data)%nat ->
  let s := be_val (firstn 4 (skipn i data)) in
  explicit_loop (S f) data (Z.of_nat i) acc =
    if (length data <? i + 4)%nat then Done (rev acc)
    else if Z.of_nat (length data) <? Z.of_nat i + 4 + s then Done (rev acc)
    else explicit_loop f data (Z.of_nat i + (4 + s) mod 2 ^ 32) (mkIx (Z.of_nat i) (Z.of_nat i + 4) s :: acc).
Proof.
  intros L B Hi s. cbn [explicit_loop].
  destruct (Z.ltb_spec (Z.of_nat i) (Z.of_nat (length data))) as [_|]; [|lia]. cbn [negb].
  unfold u64. rewrite (Z.mod_small (Z.of_nat i + 4)) by lia.
  destruct (Nat.ltb_spec (length data) (i + 4)), (Z.ltb_spec (Z.of_nat (length data)) (Z.of_nat i + 4)); try lia; [reflexivity|].
  rewrite read_be32_spec by lia. fold s.
  rewrite (Z.mod_small (Z.of_nat (length data) - Z.of_nat i - 4)) by lia.
  destruct (Z.ltb_spec (Z.of_nat (length data) - Z.of_nat i - 4) s), (Z.ltb_spec (Z.of_nat (length data)) (Z.of_nat i + 4 + s)); try lia; [reflexivity|].
  unfold u32. rewrite (Z.mod_small (Z.of_nat i + _)); [reflexivity|].
  pose proof (Z.mod_pos_bound (4 + s) (2 ^ 32) ltac:(lia)). lia.
Qed.
Lemma header_range data i : Forall is_byte data -> 0 <= be_val (firstn 4 (skipn i data)) < 2 ^ 32.
Proof.
  intros B. assert (F : Forall is_byte (firstn 4 (skipn i data))) by (apply Forall_firstn, Forall_skipn; exact B).
  pose proof (be_val_range _ F) as H. assert (length (firstn 4 (skipn i data)) <= 4)%nat by apply firstn_le_length.
  split; [lia|]. eapply Z.lt_le_trans; [apply H|]. change (2 ^ 32) with (256 ^ 4). apply Z.pow_le_mono_r; lia.
Qed.

(** The units of the walk come first, whatever follows them. *)
Lemma explicit_prefix nals : forall fuel pre tail acc,
  let data := pre ++ framed 4 nals ++ tail in
  Z.of_nat (length data) < 2 ^ 63 -> Forall is_byte data -> Forall (fun x => Z.of_nat (length x) < 2 ^ 32 - 4) nals ->
  explicit_loop (length nals + fuel) data (Z.of_nat (length pre)) acc
  = explicit_loop fuel data (Z.of_nat (length (pre ++ framed 4 nals))) (rev (framed_indices 4 (Z.of_nat (length pre)) nals) ++ acc).
Proof.
  induction nals as [|x nals IH]; intros fuel pre tail acc data L B Hn.
  { cbn [framed flat_map app length Nat.add framed_indices framed_ranges map rev]. rewrite app_nil_r. reflexivity. }
  inversion Hn as [|? ? Hx Hr]; subst.
  set (pre' := pre ++ be_bytes 4 (Z.of_nat (length x)) ++ x).
  assert (Ed : data = pre' ++ framed 4 nals ++ tail) by (unfold data, pre'; rewrite framed_cons, <- !app_assoc; reflexivity).
  assert (Lp : length pre' = (length pre + 4 + length x)%nat) by (unfold pre'; rewrite !app_length, be_bytes_length; lia).
  assert (Ld : length data = (length pre' + length (framed 4 nals) + length tail)%nat) by (rewrite Ed, !app_length; lia).
  cbn [length Nat.add]. rewrite explicit_round by (assumption || lia).
  assert (Ev : be_val (firstn 4 (skipn (length pre) data)) = Z.of_nat (length x)).
  { unfold data. rewrite skipn_length_app, framed_cons. rewrite <- !app_assoc.
    rewrite <- (be_bytes_length 4 (Z.of_nat (length x))) at 1. rewrite firstn_length_app.
    apply be_bytes_val. lia. }
  rewrite Ev. destruct (Nat.ltb_spec (length data) (length pre + 4)); [lia|].
  destruct (Z.ltb_spec (Z.of_nat (length data)) (Z.of_nat (length pre) + 4 + Z.of_nat (length x))); [lia|].
  rewrite Z.mod_small by lia.
  replace (Z.of_nat (length pre) + (4 + Z.of_nat (length x))) with (Z.of_nat (length pre')) by lia.
  rewrite Ed. rewrite IH; [|rewrite <- Ed; assumption|rewrite <- Ed; assumption|assumption].
  replace (length (pre' ++ framed 4 nals)) with (length (pre ++ framed 4 (x :: nals)))
    by (rewrite framed_cons, !app_length, Lp, be_bytes_length; lia).
  f_equal. unfold framed_indices. cbn [framed_ranges map fst snd rev]. rewrite <- app_assoc. cbn [app].
  change (Z.of_nat 4) with 4. f_equal; [|f_equal; f_equal; lia].
  replace (Z.of_nat (length pre')) with (Z.of_nat (length pre) + 4 + Z.of_nat (length x)) by lia. reflexivity.
Qed.
Lemma framed_payloads nals : forall pre tail, map (payload (pre ++ framed 4 nals ++ tail)) (framed_indices 4 (Z.of_nat (length pre)) nals) = nals.
Proof.
  induction nals as [|x nals IH]; intros pre tail; [reflexivity|].
  unfold framed_indices. cbn [framed_ranges map fst snd]. f_equal.
  - unfold payload. cbn [payload_start_offset payload_size]. rewrite framed_cons.
    replace (Z.to_nat (Z.of_nat (length pre) + Z.of_nat 4)) with (length (pre ++ be_bytes 4 (Z.of_nat (length x))))
      by (rewrite app_length, be_bytes_length; lia).
    rewrite <- (app_assoc (be_bytes _ _)), app_assoc, skipn_length_app, Nat2Z.id, <- app_assoc. apply firstn_length_app.
  - specialize (IH (pre ++ be_bytes 4 (Z.of_nat (length x)) ++ x) tail).
    rewrite framed_cons, <- !app_assoc.
    rewrite !app_length, be_bytes_length in IH. rewrite <- !app_assoc in IH.
    replace (Z.of_nat (length pre) + Z.of_nat 4 + Z.of_nat (length x)) with (Z.of_nat (length pre + (4 + length x))) by lia.
    exact IH.
Qed.

(** Units below 2^32-4 bytes come back exactly, in a buffer of any size, whatever incomplete unit follows. *)
Theorem C17_round_trip nals tail :
  Z.of_nat (length (framed 4 nals ++ tail)) < 2 ^ 63 -> Forall is_byte (framed 4 nals ++ tail) ->
  Forall (fun x => Z.of_nat (length x) < 2 ^ 32 - 4) nals -> incomplete true 4 tail ->
  FindNaluIndicesExplicitFraming (framed 4 nals ++ tail) = Done (framed_indices 4 0 nals) /\
  map (payload (framed 4 nals ++ tail)) (framed_indices 4 0 nals) = nals.
Proof.
  intros L B N I. split; [|exact (framed_payloads nals [] tail)].
  unfold FindNaluIndicesExplicitFraming.
  pose proof (framed_length 4 nals ltac:(lia)) as Lf.
  assert (Ef : exists f, S (length (framed 4 nals ++ tail)) = (length nals + S f)%nat).
  { exists (length (framed 4 nals ++ tail) - length nals)%nat. rewrite app_length. lia. }
  destruct Ef as (f & ->). pose proof (explicit_prefix nals (S f) [] tail []) as P. cbn [app length] in P.
  change (Z.of_nat 0) with 0 in P. rewrite P by assumption. rewrite app_nil_r.
  destruct (Nat.eq_dec (length tail) 0) as [Z0|Z0].
  { cbn [explicit_loop]. rewrite app_length, Z0, Nat.add_0_r. rewrite Z.ltb_irrefl. cbn [negb]. rewrite rev_involutive. reflexivity. }
  rewrite explicit_round; [|assumption|assumption|rewrite app_length; lia].
  rewrite skipn_length_app, !app_length.
  destruct (Nat.ltb_spec (length (framed 4 nals) + length tail) (length (framed 4 nals) + 4)); [rewrite rev_involutive; reflexivity|].
  destruct I as [I|[I|[I _]]]; [lia| |discriminate].
  destruct (Z.ltb_spec (Z.of_nat (length (framed 4 nals) + length tail)) (Z.of_nat (length (framed 4 nals)) + 4 + be_val (firstn 4 tail))); [|lia].
  rewrite rev_involutive. reflexivity.
Qed.

(** Every buffer: the entries found are inside the buffer, each with the size its header announces, in increasing order; the loop ends
    unless it comes to a header of 2^32-4 with that many bytes behind it, where it stays for ever. *)
Definition entry_in (data : list Z) (e : nalu_index) : Prop :=
  0 <= start_offset e /\ payload_start_offset e = start_offset e + 4 /\
  payload_size e = be_val (firstn 4 (skipn (Z.to_nat (start_offset e)) data)) /\
  payload_start_offset e + payload_size e <= Z.of_nat (length data).
Fixpoint increasing (from : Z) (l : list nalu_index) : Prop :=
  match l with [] => True | e :: r => from <= start_offset e /\ increasing (start_offset e + 1) r end.
Definition stays (data : list Z) (k : Z) : Prop :=
  0 <= k /\ be_val (firstn 4 (skipn (Z.to_nat k) data)) = 2 ^ 32 - 4 /\ k + 2 ^ 32 <= Z.of_nat (length data) /\
  forall fuel acc, explicit_loop fuel data k acc = Bad OutOfFuel.
Lemma explicit_stays data k : Z.of_nat (length data) < 2 ^ 63 -> Forall is_byte data ->
  be_val (firstn 4 (skipn k data)) = 2 ^ 32 - 4 -> Z.of_nat k + 2 ^ 32 <= Z.of_nat (length data) ->
  forall fuel acc, explicit_loop fuel data (Z.of_nat k) acc = Bad OutOfFuel.
Proof.
  intros L B V K. induction fuel as [|f IH]; intros acc.
  - cbn [explicit_loop]. destruct (Z.ltb_spec (Z.of_nat k) (Z.of_nat (length data))); [reflexivity|lia].
  - rewrite explicit_round by (assumption || lia). rewrite V.
    destruct (Nat.ltb_spec (length data) (k + 4)); [lia|].
    destruct (Z.ltb_spec (Z.of_nat (length data)) (Z.of_nat k + 4 + (2 ^ 32 - 4))); [lia|].
    change ((4 + (2 ^ 32 - 4)) mod 2 ^ 32) with 0. rewrite Z.add_0_r. apply IH.
Qed.
Lemma explicit_walk data : Z.of_nat (length data) < 2 ^ 63 -> Forall is_byte data ->
  forall fuel i acc, (length data < i + fuel)%nat ->
  (exists l, explicit_loop fuel data (Z.of_nat i) acc = Done (rev acc ++ l) /\ Forall (entry_in data) l /\ increasing (Z.of_nat i) l) \/
  (explicit_loop fuel data (Z.of_nat i) acc = Bad OutOfFuel /\ exists k, stays data k).
Proof.
  intros L B. induction fuel as [|f IH]; intros i acc F.
  - left. exists []. rewrite app_nil_r. split; [|split; [constructor|exact I]]. cbn [explicit_loop].
    destruct (Z.ltb_spec (Z.of_nat i) (Z.of_nat (length data))); [lia|reflexivity].
  - destruct (le_lt_dec (length data) i) as [Hi|Hi].
    { left. exists []. rewrite app_nil_r. split; [|split; [constructor|exact I]]. cbn [explicit_loop].
      destruct (Z.ltb_spec (Z.of_nat i) (Z.of_nat (length data))); [lia|reflexivity]. }
    rewrite explicit_round by assumption.
    set (s := be_val (firstn 4 (skipn i data))). pose proof (header_range data i B) as Rs. fold s in Rs.
    destruct (Nat.ltb_spec (length data) (i + 4)).
    { left. exists []. rewrite app_nil_r. split; [reflexivity|split; [constructor|exact I]]. }
    destruct (Z.ltb_spec (Z.of_nat (length data)) (Z.of_nat i + 4 + s)).
    { left. exists []. rewrite app_nil_r. split; [reflexivity|split; [constructor|exact I]]. }
    destruct (Z.eq_dec s (2 ^ 32 - 4)) as [Es|Es].
    { right. pose proof (explicit_stays data i L B Es ltac:(lia)) as St. split.
      - rewrite Es. change ((4 + (2 ^ 32 - 4)) mod 2 ^ 32) with 0. rewrite Z.add_0_r. apply St.
      - exists (Z.of_nat i). split; [lia|]. rewrite Nat2Z.id. split; [exact Es|]. split; [lia|exact St]. }
    assert (Hm : 1 <= (4 + s) mod 2 ^ 32).
    { destruct (Z_lt_le_dec (4 + s) (2 ^ 32)); [rewrite Z.mod_small by lia; lia|].
      replace (4 + s) with (4 + s - 2 ^ 32 + 1 * 2 ^ 32) by lia. rewrite Z.mod_add, Z.mod_small by lia. lia. }
    set (d := (4 + s) mod 2 ^ 32) in *. clearbody d.
    replace (Z.of_nat i + d) with (Z.of_nat (i + Z.to_nat d)) by lia.
    destruct (IH (i + Z.to_nat d)%nat (mkIx (Z.of_nat i) (Z.of_nat i + 4) s :: acc) ltac:(lia)) as [(l & E & Fl & Il)|R]; [left|right; exact R].
    exists (mkIx (Z.of_nat i) (Z.of_nat i + 4) s :: l). split; [rewrite E; cbn [rev]; rewrite <- app_assoc; reflexivity|]. split.
    + constructor; [|exact Fl]. unfold entry_in. cbn [start_offset payload_start_offset payload_size]. rewrite Nat2Z.id. fold s. lia.
    + cbn [increasing start_offset]. split; [lia|].
      destruct l as [|e r]; [exact I|]. cbn [increasing] in *. destruct Il. split; [lia|assumption].
Qed.
Theorem C17_any_size data : Forall is_byte data -> Z.of_nat (length data) < 2 ^ 63 ->
  (exists l, FindNaluIndicesExplicitFraming data = Done l /\ Forall (entry_in data) l /\ increasing 0 l) \/
  (FindNaluIndicesExplicitFraming data = Bad OutOfFuel /\ exists k, stays data k).
Proof.
  intros B L. destruct (explicit_walk data L B (S (length data)) 0 [] ltac:(lia)) as [(l & E & H)|R].
  - left. exists l. split; [exact E|exact H].
  - right. exact R.
Qed.
