(** C79: length-prefixed parsing for every size of the length field. *)
From Coq Require Import ZArith List Bool Lia ZifyBool ZifyNat.
From Verif Require Import MBase MBitBuffer Spec MCommon CommonFacts MFraming FramingFacts PropsFraming MSyntaxA Api MNal FactsNal PropsNal.
Import ListNotations.
Open Scope Z_scope.
Ltac Zify.zify_post_hook ::= Z.div_mod_to_equations.

(** * Specification *)
(** The length a field of any number of bytes announces: the big-endian number, of which a size_t keeps 64 bits. *)
Definition announced (field : list Z) : Z := be_val field mod 2 ^ 64.
(** A piece of the stream: a length field of [n] bytes and the unit it announces, which is not empty. *)
Definition piece (n : nat) (p : list Z * list Z) : Prop := length (fst p) = n /\ snd p <> [] /\ announced (fst p) = Z.of_nat (length (snd p)).
Definition pieces (l : list (list Z * list Z)) : list Z := flat_map (fun p => fst p ++ snd p) l.
(** Where the walk ends, [off] bytes from the start: too few bytes for a length field, a length of 0, or a length beyond the end. *)
Definition stops (n : nat) (off : Z) (tail : list Z) : Prop :=
  (length tail < n)%nat \/ announced (firstn n tail) = 0 \/
  (Z.of_nat (length tail) < Z.of_nat n + announced (firstn n tail) /\ off + Z.of_nat n + announced (firstn n tail) < 2 ^ 64).
(** ... or a length so large that the end of the unit is past 2^64. *)
Definition wraps (n : nat) (off : Z) (tail : list Z) : Prop :=
  (n <= length tail)%nat /\ 2 ^ 64 <= off + Z.of_nat n + announced (firstn n tail).

Lemma pieces_cons p l : pieces (p :: l) = fst p ++ snd p ++ pieces l.
Proof. unfold pieces. cbn [flat_map]. symmetry. apply app_assoc. Qed.
Lemma announced_range l : 0 <= announced l < 2 ^ 64.
Proof. unfold announced. apply Z.mod_pos_bound. reflexivity. Qed.
(** The two ends exclude each other, and up to 7 bytes there is no wrap. *)
Lemma ends_exclusive n off tail : stops n off tail -> wraps n off tail -> 0 <= off -> off + Z.of_nat (length tail) < 2 ^ 63 -> False.
Proof. unfold stops, wraps. pose proof (announced_range (firstn n tail)). intros [S|[S|S]] [W1 W2]; lia. Qed.
Lemma narrow_no_wrap n off tail : (n <= 7)%nat -> Forall is_byte tail -> 0 <= off -> off + Z.of_nat (length tail) < 2 ^ 63 -> ~ wraps n off tail.
Proof.
  intros Hn B O L [W1 W2]. unfold announced in W2. pose proof (be_val_range (firstn n tail) (Forall_firstn _ _ _ B)) as R. rewrite firstn_length_le in R by lia.
  assert (256 ^ Z.of_nat n <= 256 ^ 7) by (apply Z.pow_le_mono_r; lia). change (256 ^ 7) with (2 ^ 56) in *. rewrite Z.mod_small in W2 by lia. lia.
Qed.

(** * The loop *)
Lemma walk {S} (step : S -> Z -> Z -> outcome S) n data : (0 < n)%nat -> Z.of_nat n < 2 ^ 63 -> Z.of_nat (length data) < 2 ^ 63 ->
  (forall s off len, 0 <= off -> 0 <= len -> Z.of_nat (length data) < off + len -> step s off len = Bad OutOfBounds) ->
  forall k pre rest fuel s, data = pre ++ rest -> (length rest <= k)%nat -> (k < fuel)%nat ->
  exists l tail, rest = pieces l ++ tail /\ Forall (piece n) l /\
    ((stops n (Z.of_nat (length (pre ++ pieces l))) tail /\
      nalulength_loop fuel data (Z.of_nat n) (Z.of_nat (length pre)) step s = ofold (fun s r => step s (fst r) (snd r)) (framed_ranges n (Z.of_nat (length pre)) (map snd l)) s) \/
     (wraps n (Z.of_nat (length (pre ++ pieces l))) tail /\
      nalulength_loop fuel data (Z.of_nat n) (Z.of_nat (length pre)) step s =
      match ofold (fun s r => step s (fst r) (snd r)) (framed_ranges n (Z.of_nat (length pre)) (map snd l)) s with Done _ => Bad OutOfBounds | Bad e => Bad e end)).
Proof.
  intros Hn Ln Ld Ck. induction k as [k IH] using lt_wf_ind. intros pre rest fuel s Ed Lr Lf.
  destruct fuel as [|f]; [lia|]. assert (Lp : length data = (length pre + length rest)%nat) by (rewrite Ed; apply app_length). cbn [nalulength_loop].
  assert (Stop : forall l0, (stops n (Z.of_nat (length pre)) rest /\ l0 = Done s) -> exists l tail, rest = pieces l ++ tail /\ Forall (piece n) l /\
    ((stops n (Z.of_nat (length (pre ++ pieces l))) tail /\ l0 = ofold (fun s r => step s (fst r) (snd r)) (framed_ranges n (Z.of_nat (length pre)) (map snd l)) s) \/
     (wraps n (Z.of_nat (length (pre ++ pieces l))) tail /\ l0 =
      match ofold (fun s r => step s (fst r) (snd r)) (framed_ranges n (Z.of_nat (length pre)) (map snd l)) s with Done _ => Bad OutOfBounds | Bad e => Bad e end))).
  { intros l0 [S0 ->]. exists [], rest. split; [reflexivity|]. split; [constructor|]. left. cbn [pieces flat_map]. rewrite app_nil_r. split; [exact S0|reflexivity]. }
  destruct (Z.ltb_spec (Z.of_nat (length pre)) (Z.of_nat (length data))) as [H|H]; cbn [negb]; [|apply Stop; split; [left; lia|reflexivity]].
  destruct (Z.ltb_spec 0 (Z.of_nat n)) as [H0|H0]; [|lia].
  destruct (Z.ltb_spec (Z.of_nat (length data) - Z.of_nat (length pre)) (Z.of_nat n)) as [H1|H1]; [apply Stop; split; [left; lia|reflexivity]|].
  rewrite Nat2Z.id, read_length_loop_spec by lia. cbv zeta. rewrite Z.mul_0_l, Z.add_0_l.
  assert (Es : skipn (length pre) data = rest) by (rewrite Ed; apply skipn_length_app). rewrite Es. change (u64 (be_val (firstn n rest))) with (announced (firstn n rest)).
  pose proof (announced_range (firstn n rest)) as Ra. set (v := announced (firstn n rest)) in *.
  assert (Ei : u64 (Z.of_nat (length pre) + Z.of_nat n) = Z.of_nat (length pre) + Z.of_nat n) by (unfold u64; apply Z.mod_small; lia). rewrite Ei.
  destruct (Z.eqb_spec v 0) as [V|V]; cbn [orb]; [apply Stop; split; [right; left; exact V|reflexivity]|].
  destruct (Z_lt_le_dec (Z.of_nat (length pre) + Z.of_nat n + v) (2 ^ 64)) as [Nw|Wr].
  - assert (Eu : u64 (Z.of_nat (length pre) + Z.of_nat n + v) = Z.of_nat (length pre) + Z.of_nat n + v) by (unfold u64; apply Z.mod_small; lia). rewrite Eu.
    destruct (Z.ltb_spec (Z.of_nat (length data)) (Z.of_nat (length pre) + Z.of_nat n + v)) as [Lt|Ge].
    { apply Stop. split; [|reflexivity]. right; right. split; [fold v; lia|exact Nw]. }
    set (x := firstn (Z.to_nat v) (skipn n rest)). set (rest' := skipn (Z.to_nat v) (skipn n rest)).
    assert (Er : rest = firstn n rest ++ x ++ rest') by (unfold x, rest'; rewrite !firstn_skipn; reflexivity).
    assert (Lx : Z.of_nat (length x) = v) by (unfold x; rewrite firstn_length_le; [lia|]; rewrite skipn_length; lia).
    assert (Lfd : length (firstn n rest) = n) by (apply firstn_length_le; lia).
    assert (Ed' : data = (pre ++ firstn n rest ++ x) ++ rest') by (rewrite <- !app_assoc, <- Er; exact Ed).
    assert (Lpr : Z.of_nat (length (pre ++ firstn n rest ++ x)) = Z.of_nat (length pre) + Z.of_nat n + v) by (rewrite !app_length; lia).
    assert (Lr' : (length rest' < k)%nat) by (unfold rest'; rewrite !skipn_length; lia).
    pose proof (IH (length rest') Lr' (pre ++ firstn n rest ++ x) rest' f) as IH1. rewrite Lpr in IH1.
    assert (Pc : piece n (firstn n rest, x)). { split; [exact Lfd|]. split; [intros Hx; cbn [snd] in Hx; rewrite Hx in Lx; cbn in Lx; lia|]. cbn [fst snd]. fold v. lia. }
    destruct (step s (Z.of_nat (length pre) + Z.of_nat n) v) as [s'|e] eqn:Est.
    + destruct (IH1 s' Ed' ltac:(lia) ltac:(lia)) as (l & tail & E1 & F1 & C1). exists ((firstn n rest, x) :: l), tail.
      assert (Ep : pre ++ pieces ((firstn n rest, x) :: l) = (pre ++ firstn n rest ++ x) ++ pieces l) by (rewrite pieces_cons; cbn [fst snd]; rewrite <- !app_assoc; reflexivity).
      split; [rewrite Er at 1; rewrite E1, pieces_cons; cbn [fst snd]; rewrite <- !app_assoc; reflexivity|]. split; [constructor; assumption|].
      cbn [map framed_ranges snd ofold fst]. rewrite Lx, Est, Ep. exact C1.
    + (* the walk has ended with an error; the rest of the buffer can still be cut into pieces *)
      destruct (fun Q => IH1 s Ed' Q ltac:(lia)) as (l & tail & E1 & F1 & C1); [lia|]. exists ((firstn n rest, x) :: l), tail.
      assert (Ep : pre ++ pieces ((firstn n rest, x) :: l) = (pre ++ firstn n rest ++ x) ++ pieces l) by (rewrite pieces_cons; cbn [fst snd]; rewrite <- !app_assoc; reflexivity).
      split; [rewrite Er at 1; rewrite E1, pieces_cons; cbn [fst snd]; rewrite <- !app_assoc; reflexivity|]. split; [constructor; assumption|].
      cbn [map framed_ranges snd ofold fst]. rewrite Lx, Est, Ep. destruct C1 as [[C1 _]|[C1 _]]; [left|right]; auto.
  - assert (Eu : u64 (Z.of_nat (length pre) + Z.of_nat n + v) = Z.of_nat (length pre) + Z.of_nat n + v - 2 ^ 64) by (unfold u64; lia). rewrite Eu.
    destruct (Z.ltb_spec (Z.of_nat (length data)) (Z.of_nat (length pre) + Z.of_nat n + v - 2 ^ 64)) as [Lt|Ge]; [lia|].
    rewrite Ck by lia. exists [], rest. split; [reflexivity|]. split; [constructor|]. right. cbn [pieces flat_map map framed_ranges ofold]. rewrite app_nil_r.
    split; [split; [lia|fold v; lia]|reflexivity].
Qed.

Lemma sub_out data off len : 0 <= off -> 0 <= len -> Z.of_nat (length data) < off + len -> sub data off len = Bad OutOfBounds.
Proof. intros O L H. unfold sub. destruct (Z.ltb_spec (Z.of_nat (length data)) (off + len)); [|lia]. rewrite orb_true_r. reflexivity. Qed.
Lemma piece_ranges n : forall l pre tail, Forall (piece n) l -> map (fun r => sub (pre ++ pieces l ++ tail) (fst r) (snd r)) (framed_ranges n (Z.of_nat (length pre)) (map snd l)) = map Done (map snd l).
Proof.
  induction l as [|[fd x] l IH]; intros pre tail F; [reflexivity|]. inversion F as [|? ? (P1 & P2 & P3) F']; subst. rewrite pieces_cons. cbn [map framed_ranges fst snd] in *. f_equal.
  - unfold sub. destruct (Z.ltb_spec (Z.of_nat (length pre) + Z.of_nat (length fd)) 0); [lia|]. destruct (Z.ltb_spec (Z.of_nat (length x)) 0); [lia|]. cbn [orb].
    rewrite !app_length.
    match goal with |- (if ?c then _ else _) = _ => destruct c eqn:C end; [apply Z.ltb_lt in C; lia|]. f_equal.
    replace (Z.to_nat (Z.of_nat (length pre) + Z.of_nat (length fd))) with (length (pre ++ fd)) by (rewrite app_length; lia).
    rewrite <- !app_assoc, (app_assoc pre fd), skipn_length_app, Nat2Z.id. apply firstn_length_app.
  - specialize (IH (pre ++ fd ++ x) tail F'). rewrite !app_length in IH. replace (Z.of_nat (length pre + (length fd + length x))) with (Z.of_nat (length pre) + Z.of_nat (length fd) + Z.of_nat (length x)) in IH by lia.
    rewrite <- IH. rewrite <- !app_assoc. reflexivity.
Qed.

(** * The theorems *)
(** For every size of the length field and every buffer: the buffer is cut into pieces and an end, and the units handed to the NAL unit parser are exactly
    those of the pieces; if the end wraps, the parser is then given a range outside the buffer (undefined behaviour). *)
Theorem C79_ranges : forall data n, Z.of_nat (length data) < 2 ^ 63 -> (0 < n)%nat -> Z.of_nat n < 2 ^ 63 ->
  exists l tail, data = pieces l ++ tail /\ Forall (piece n) l /\
    ((stops n (Z.of_nat (length (pieces l))) tail /\ nalulength_ranges data (Z.of_nat n) = Done (framed_ranges n 0 (map snd l))) \/
     (wraps n (Z.of_nat (length (pieces l))) tail /\ nalulength_ranges data (Z.of_nat n) = Bad OutOfBounds)).
Proof.
  intros data n L Hn Ln.
  destruct (walk (fun l off len => match sub data off len with Bad e => Bad e | Done _ => Done ((off, len) :: l) end) n data Hn Ln L
    ltac:(intros s off len O Hl Ho; cbv beta; rewrite (sub_out _ _ _ O Hl Ho); reflexivity) (length data) [] data (S (length data)) [] eq_refl ltac:(lia) ltac:(lia)) as (l & tail & E & F & C).
  cbn [app length] in C. change (Z.of_nat 0) with 0 in C. exists l, tail. split; [exact E|]. split; [exact F|].
  assert (G : forall rs acc, map (fun r => sub data (fst r) (snd r)) rs = map Done (map snd l) \/ (exists vs, map (fun r => sub data (fst r) (snd r)) rs = map Done vs) ->
     ofold (fun l r => match sub data (fst r) (snd r) with Bad e => Bad e | Done _ => Done ((fst r, snd r) :: l) end) rs acc = Done (rev rs ++ acc)).
  { clear C. intros rs acc H. assert (H' : exists vs, map (fun r => sub data (fst r) (snd r)) rs = map Done vs) by (destruct H; eauto). clear H. revert acc H'.
    induction rs as [|[o len] rs IH]; intros acc [vs H]; [reflexivity|]. destruct vs as [|x vs]; [discriminate|]. cbn [map fst snd] in H. injection H as Hx Hr.
    cbn [ofold fst snd]. rewrite Hx. rewrite IH by eauto. cbn [rev]. rewrite <- app_assoc. reflexivity. }
  pose proof (piece_ranges n l [] tail F) as P. cbn [app length] in P. rewrite <- E in P. change (Z.of_nat 0) with 0 in P.
  unfold nalulength_ranges. rewrite (G _ _ (or_introl P)) in C. rewrite app_nil_r in C.
  destruct C as [[C1 ->]|[C1 ->]]; [left|right]; [rewrite rev_involutive|]; auto.
Qed.
(** ParseBitstreamNALULength: the NAL unit parser folded over the units of the pieces. *)
Theorem C79_parse : forall opts data n st, Z.of_nat (length data) < 2 ^ 63 -> (0 < n)%nat -> Z.of_nat n < 2 ^ 63 ->
  exists l tail, data = pieces l ++ tail /\ Forall (piece n) l /\
    ((stops n (Z.of_nat (length (pieces l))) tail /\ ParseBitstreamNALULength opts data (Z.of_nat n) st =
        match parse_all opts (map snd l) st with
        | Bad e => Bad e
        | Done (us, st') => Done (mkBS default_options (placed_nl (Z.of_nat n) (framed_ranges n 0 (map snd l)) us), st')
        end) \/
     (wraps n (Z.of_nat (length (pieces l))) tail /\ exists e, ParseBitstreamNALULength opts data (Z.of_nat n) st = Bad e /\ (e = OutOfBounds \/ parse_all opts (map snd l) st = Bad e))).
Proof.
  intros opts data n st L Hn Ln.
  destruct (walk (nalulength_step opts data (Z.of_nat n)) n data Hn Ln L
    ltac:(intros s off len O Hl Ho; unfold nalulength_step; rewrite (sub_out _ _ _ O Hl Ho); reflexivity) (length data) [] data (S (length data)) ([], st) eq_refl ltac:(lia) ltac:(lia)) as (l & tail & E & F & C).
  cbn [app length] in C. change (Z.of_nat 0) with 0 in C. exists l, tail. split; [exact E|]. split; [exact F|].
  pose proof (piece_ranges n l [] tail F) as P. cbn [app length] in P. rewrite <- E in P. change (Z.of_nat 0) with 0 in P.
  unfold ParseBitstreamNALULength. rewrite (nalulength_fold opts data (Z.of_nat n) _ (map snd l) _ st P) in C.
  destruct C as [[C1 ->]|[C1 ->]]; [left|right]; (split; [exact C1|]); destruct (parse_all opts (map snd l) st) as [[us st']|e].
  - rewrite app_nil_r, rev_involutive. reflexivity.
  - reflexivity.
  - eauto.
  - eauto.
Qed.
(** Without a length field (size 0) the whole buffer is one unit. *)
Theorem C79_no_length : forall opts data st, (0 < length data)%nat -> Z.of_nat (length data) < 2 ^ 63 -> ParseBitstreamNALULength opts data 0 st =
  match ParseNalUnit opts data st with
  | Bad e => Bad e
  | Done (None, st') => Done (mkBS default_options [], st')
  | Done (Some u, st') => Done (mkBS default_options [set_range 0 0 u], st')
  end.
Proof.
  intros opts data st H L. unfold ParseBitstreamNALULength. cbn [nalulength_loop].
  destruct (Z.ltb_spec 0 (Z.of_nat (length data))) as [P|P]; [|lia]. cbn [negb]. change (0 <? 0) with false. cbv iota. rewrite Z.add_0_l. unfold nalulength_step at 1. unfold sub.
  destruct (Z.ltb_spec (Z.of_nat (length data)) 0); [lia|]. rewrite Z.add_0_l. destruct (Z.ltb_spec (Z.of_nat (length data)) (Z.of_nat (length data))); [lia|]. change (0 <? 0) with false. cbn [orb].
  rewrite Nat2Z.id. change (Z.to_nat 0) with O. rewrite skipn_O, firstn_all. cbn [snd fst].
  assert (N : forall fuel step (s : list nal_unit * MSlice.state), nalulength_loop fuel data 0 (u64 (Z.of_nat (length data))) step s = Done s).
  { intros fuel step s. unfold u64. rewrite Z.mod_small by lia. destruct fuel; cbn [nalulength_loop]; destruct (Z.ltb_spec (Z.of_nat (length data)) (Z.of_nat (length data))); try lia; reflexivity. }
  destruct (ParseNalUnit opts data st) as [[[u|] st']|e]; [rewrite N; reflexivity|rewrite N; reflexivity|reflexivity].
Qed.
Theorem C79_empty : forall opts n st, ParseBitstreamNALULength opts [] n st = Done (mkBS default_options [], st).
Proof. reflexivity. Qed.
(** Nine bytes: the first byte of the length field does not count; then a length whose end is past 2^64. *)
Example C79_case :
  nalulength_ranges [7; 0; 0; 0; 0; 0; 0; 0; 3; 0x46; 1; 0x50; 0; 0; 0; 0; 0; 0; 0; 0; 9; 1; 2] 9 = Done [(9, 3)] /\
  piece 9 ([7; 0; 0; 0; 0; 0; 0; 0; 3], [0x46; 1; 0x50]) /\ stops 9 12 [0; 0; 0; 0; 0; 0; 0; 0; 9; 1; 2] /\
  wraps 8 11 [255; 255; 255; 255; 255; 255; 255; 248] /\
  nalulength_ranges [0; 0; 0; 0; 0; 0; 0; 3; 0x46; 1; 0x50; 255; 255; 255; 255; 255; 255; 255; 248] 8 = Bad OutOfBounds.
Proof.
  split; [vm_compute; reflexivity|]. split; [split; [reflexivity|split; [discriminate|vm_compute; reflexivity]]|].
  split; [right; right; split; vm_compute; reflexivity|]. split; [split; [cbn; lia|vm_compute; discriminate]|]. vm_compute. reflexivity.
Qed.
