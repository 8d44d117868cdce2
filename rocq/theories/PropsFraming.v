(** C15-C18: splitting a buffer into NAL units.
    The specification (start codes, units, framed streams) is at the head of FramingFacts.v. *)
From Coq Require Import ZArith List Bool Lia ZifyBool ZifyNat.
From Verif Require Import MBase MBitBuffer MCommon Spec BitsFacts Reader ReaderFacts CommonFacts MFraming FramingFacts PropsCommon.
Import ListNotations.
Open Scope Z_scope.
Ltac Zify.zify_post_hook ::= Z.div_mod_to_equations.

(** * C15 *)
(** FindNaluIndices reads no byte outside the buffer and returns exactly one entry per
    occurrence of 00 00 01 followed by a byte, as defined by [annexb_units]. *)
Theorem C15_exact data : Z.of_nat (length data) < 2 ^ 64 ->
  FindNaluIndices data = Done (annexb_units data).
Proof. apply FindNaluIndices_spec. Qed.

(** The start codes are all and only the occurrences. *)
Theorem C15_start_codes data p : In p (start_codes data) <->
  exists pre x post, data = pre ++ [0; 0; 1] ++ x :: post /\ length pre = p.
Proof.
  rewrite start_codes_In. unfold is_start_code. split.
  - intros H. exists (firstn p data), (nth (p + 3) data 0), (skipn (p + 4) data).
    split; [|apply firstn_length_le; lia].
    assert (H2 : (p + 2 < length data)%nat) by lia.
    rewrite (nth_split3 data p H2) at 1.
    replace (nth p data 1) with 0 by lia. replace (nth (p + 1) data 1) with 0 by lia.
    replace (nth (p + 2) data 0) with 1 by lia. do 2 f_equal.
    replace (p + 4)%nat with (S (p + 3)) by lia. rewrite skipn_S_tl.
    destruct (skipn (p + 3) data) as [|y r] eqn:E.
    + assert (L : length (skipn (p + 3) data) = 0%nat) by (rewrite E; reflexivity). rewrite skipn_length in L. lia.
    + cbn [tl]. f_equal. rewrite <- (firstn_skipn (p + 3) data), E.
      rewrite app_nth2; rewrite firstn_length_le by lia; [|lia]. rewrite Nat.sub_diag. reflexivity.
  - intros (pre & x & post & -> & <-).
    rewrite app_length. cbn [app length].
    rewrite !app_nth2 by lia.
    replace (length pre - length pre)%nat with 0%nat by lia.
    replace (length pre + 1 - length pre)%nat with 1%nat by lia.
    replace (length pre + 2 - length pre)%nat with 2%nat by lia. cbn [nth].
    destruct (Nat.ltb_spec (length pre + 3) (length pre + S (S (S (S (length post)))))); [reflexivity|lia].
Qed.

(** In bounds, in order, disjoint and gap-free: each unit ends where the next start code begins
    and the last one at the end of the buffer; a start code has 3 or 4 bytes. *)
Fixpoint chained (stop : Z) (l : list nalu_index) : Prop :=
  match l with
  | [] => True
  | ix :: r =>
    0 <= start_offset ix /\
    3 <= payload_start_offset ix - start_offset ix <= 4 /\
    0 <= payload_size ix /\
    payload_start_offset ix + payload_size ix
      = match r with [] => stop | nx :: _ => start_offset nx end /\
    chained stop r
  end.

Theorem C15_ranges data l : Z.of_nat (length data) < 2 ^ 64 ->
  FindNaluIndices data = Done l ->
  chained (Z.of_nat (length data)) l /\
  Forall (fun ix => 0 <= payload_start_offset ix < Z.of_nat (length data) /\
                    payload_start_offset ix + payload_size ix <= Z.of_nat (length data)) l.
Proof.
  intros L H. rewrite C15_exact in H by exact L. injection H as <-. unfold annexb_units.
  pose proof (start_codes_sep data) as Hs. pose proof (start_codes_bound data) as Hb.
  assert (Sc : forall p, (start_code_begin data p <= p <= start_code_begin data p + 1)%nat).
  { intros p. unfold start_code_begin. destruct p; [lia|]. destruct (_ =? _); lia. }
  revert Hs Hb. generalize (start_codes data). induction l as [|p r IH]; intros Hs Hb; [split; constructor|].
  inversion Hb; subst. destruct IH as [C F]; [intros p' q l1 l2 ->; apply (Hs p' q (p :: l1) l2); reflexivity|assumption|].
  cbn [units_at]. pose proof (Sc p).
  destruct r as [|q r'].
  - split; [|constructor; [|constructor]]; cbn [chained start_offset payload_start_offset payload_size units_at]; lia.
  - specialize (Hs p q [] r' eq_refl). pose proof (Sc q). inversion H2; subst.
    split; [|constructor; [|exact F]]; cbn [start_offset payload_start_offset payload_size]; [|lia].
    change (chained (Z.of_nat (length data))
      (mkIx (Z.of_nat (start_code_begin data p)) (Z.of_nat (p + 3))
        (Z.of_nat (start_code_begin data q) - Z.of_nat (p + 3)) :: units_at data (q :: r'))).
    cbn [chained]. cbn [start_offset payload_start_offset payload_size units_at]. 
    split; [lia|]. split; [lia|]. split; [lia|]. split; [lia|]. exact C.
Qed.

Example C15_case :
  FindNaluIndices [9; 0; 0; 1; 64; 1; 0; 0; 0; 1; 66; 1; 7; 0; 0; 1]
  = Done [mkIx 1 4 2; mkIx 6 10 6].
Proof. vm_compute. reflexivity. Qed.

(** * C16 *)
Theorem C16_round_trip us : Z.of_nat (length (annexb_stream us)) < 2 ^ 64 ->
  Forall (fun u => nal_ok (snd u)) us ->
  exists l, FindNaluIndices (annexb_stream us) = Done l /\
            map (payload (annexb_stream us)) l = map snd us.
Proof.
  intros L H. eexists. split; [apply C15_exact, L|]. unfold annexb_units.
  replace (start_codes (annexb_stream us)) with (sc_positions 0 us).
  - apply (stream_payloads us H []). left; reflexivity.
  - symmetry. apply (stream_positions us H []).
Qed.

(** RBSPs that end in a non-zero byte (the RBSP trailing bits guarantee it), emulation-prevented,
    framed, split and unescaped come back. *)
Lemma last_escape fin l : l <> [] -> last l 0 <> 0 -> forall z, last (escape fin z l) 0 = last l 0.
Proof.
  induction l as [|x l IH]; [congruence|]. intros _ Hl z.
  assert (G : forall z', (l = [] -> z' = 0%nat) -> last (x :: escape fin z' l) 0 = last (x :: l) 0).
  { intros z' Hz. destruct l as [|y l'].
    - cbn [escape]. rewrite Hz by reflexivity. rewrite andb_false_r. reflexivity.
    - destruct (escape fin z' (y :: l')) eqn:E.
      + exfalso. cbn [escape] in E. destruct (Nat.eqb z' 2); [destruct (y <=? 3)|]; discriminate.
      + rewrite <- E. change (last (x :: y :: l') 0) with (last (y :: l') 0).
        rewrite E. change (last (x :: z0 :: l) 0) with (last (z0 :: l) 0). rewrite <- E.
        apply IH; [congruence|exact Hl]. }
  assert (Hx : l = [] -> (x =? 0) = false) by (intros ->; cbn in Hl; lia).
  cbn [escape]. destruct (Nat.eqb_spec z 2); [destruct (Z.leb_spec x 3)|].
  - change (last (x :: escape fin (if x =? 0 then 1%nat else 0%nat) l) 0 = last (x :: l) 0).
    apply G. intros E. rewrite Hx by exact E. reflexivity.
  - apply G; lia.
  - apply G. intros E. rewrite Hx by exact E. reflexivity.
Qed.

Theorem C16_rbsp_round_trip fin (us : list (bool * list Z)) :
  let stream := annexb_stream (map (fun u => (fst u, escape fin 0 (snd u))) us) in
  Z.of_nat (length stream) < 2 ^ 64 ->
  Forall (fun u => Forall is_byte (snd u) /\ snd u <> [] /\ last (snd u) 0 <> 0) us ->
  exists l, FindNaluIndices stream = Done l /\
            map (fun ix => UnescapeRbsp (payload stream ix)) l = map (fun u => Done (snd u)) us.
Proof.
  intros stream L H. unfold stream in *. set (us' := map _ us) in *.
  destruct (C16_round_trip us' L) as (l & E & P).
  - unfold us'. apply Forall_map. eapply Forall_impl; [|exact H]. cbn [snd]. intros [b n] (Hb & Hne & Hl). cbn [snd] in *.
    split; [|split].
    + intros E. pose proof (last_escape fin n Hne Hl 0) as A. rewrite E in A. cbn in A. congruence.
    + rewrite last_escape by assumption. exact Hl.
    + intros pre post E. pose proof (C09_escaped_has_no_start_code fin n pre 1 post Hb E). lia.
  - exists l. split; [exact E|].
    rewrite <- (map_map (payload (annexb_stream us')) UnescapeRbsp), P. unfold us'. rewrite !map_map. cbn [snd].
    apply map_ext_in. intros u Hu. rewrite Forall_forall in H. apply C09_unescape_inverts_escape, H, Hu.
Qed.

Definition C16_units : list (bool * list Z) := [(true, [64; 1; 0; 0; 3; 1; 12]); (false, [66; 1; 128]); (true, [68])].
Example C16_case : Forall (fun u => nal_ok (snd u)) C16_units.
Proof.
  unfold C16_units. repeat apply Forall_cons; [..|apply Forall_nil]; cbn [snd];
    (split; [discriminate|split; [discriminate|]]);
    intros pre post E; repeat (destruct pre as [|? pre]; cbn in E; [discriminate|injection E as _ E]);
    destruct pre; discriminate.
Qed.

(** A NAL unit that ends in a zero byte does not come back (the zero is taken for part of the next
    start code): the hypothesis is needed. *)
Example C16_trailing_zero : exists l,
  FindNaluIndices (annexb_stream [(false, [66; 0]); (false, [68])]) = Done l /\
  map (payload (annexb_stream [(false, [66; 0]); (false, [68])])) l = [[66]; [68]].
Proof. eexists. split; vm_compute; reflexivity. Qed.

(** * C17 *)
(** Every buffer is a sequence of complete length-prefixed units followed by an incomplete one
    ([framed_decomp]); FindNaluIndicesExplicitFraming reads nothing outside it and returns exactly
    those units.  Buffers under 4 GiB. *)
Theorem C17_small_round_trip nals tail :
  Z.of_nat (length (framed 4 nals ++ tail)) < 2 ^ 32 -> Forall is_byte tail ->
  Forall (fun x => Z.of_nat (length x) < 2 ^ 32) nals ->
  incomplete true 4 tail ->
  FindNaluIndicesExplicitFraming (framed 4 nals ++ tail) = Done (framed_indices 4 0 nals) /\
  map (payload (framed 4 nals ++ tail)) (framed_indices 4 0 nals) = nals.
Proof.
  intros L B N I. split.
  - unfold FindNaluIndicesExplicitFraming.
    apply (explicit_loop_spec nals _ [] tail []); try assumption.
    + eapply Forall_impl; [|exact N]. intros x Hx. split; [exact Hx|left; reflexivity].
    + rewrite app_length. pose proof (framed_length 4 nals). lia.
  - clear L B N I.
    assert (G : forall pre, map (payload (pre ++ framed 4 nals ++ tail)) (framed_indices 4 (Z.of_nat (length pre)) nals) = nals).
    { induction nals as [|x nals IH]; intros pre; [reflexivity|].
      unfold framed_indices. cbn [framed_ranges map fst snd]. f_equal.
      - unfold payload. cbn [payload_start_offset payload_size]. rewrite framed_cons.
        replace (Z.to_nat (Z.of_nat (length pre) + Z.of_nat 4)) with (length (pre ++ be_bytes 4 (Z.of_nat (length x))))
          by (rewrite app_length, be_bytes_length; lia).
        rewrite <- (app_assoc (be_bytes _ _)), app_assoc, skipn_length_app, Nat2Z.id, <- app_assoc. apply firstn_length_app.
      - specialize (IH (pre ++ be_bytes 4 (Z.of_nat (length x)) ++ x)).
        rewrite framed_cons, <- !app_assoc.
        rewrite !app_length, be_bytes_length in IH. rewrite <- !app_assoc in IH.
        replace (Z.of_nat (length pre) + Z.of_nat 4 + Z.of_nat (length x)) with (Z.of_nat (length pre + (4 + length x))) by lia.
        exact IH. }
    apply (G []).
Qed.

Theorem C17_every_buffer data : Forall is_byte data -> Z.of_nat (length data) < 2 ^ 32 ->
  exists nals tail, data = framed 4 nals ++ tail /\ incomplete true 4 tail /\
    FindNaluIndicesExplicitFraming data = Done (framed_indices 4 0 nals) /\
    map (payload data) (framed_indices 4 0 nals) = nals.
Proof.
  intros B L. destruct (framed_decomp true 4 ltac:(lia) data B) as (nals & tail & -> & F & I).
  exists nals, tail. split; [reflexivity|]. split; [exact I|].
  apply C17_small_round_trip; [exact L| | |exact I].
  - apply Forall_app in B. tauto.
  - eapply Forall_impl; [|exact F]. intros x [Hx _]. exact Hx.
Qed.

(** Ranges inside the buffer and contiguous from its start. *)
Fixpoint contiguous (from stop : Z) (l : list nalu_index) : Prop :=
  match l with
  | [] => from <= stop
  | ix :: r => start_offset ix = from /\ payload_start_offset ix = from + 4 /\ 0 <= payload_size ix /\
               contiguous (from + 4 + payload_size ix) stop r
  end.
Theorem C17_in_bounds data : Forall is_byte data -> Z.of_nat (length data) < 2 ^ 32 ->
  exists l, FindNaluIndicesExplicitFraming data = Done l /\ contiguous 0 (Z.of_nat (length data)) l.
Proof.
  intros B L. destruct (C17_every_buffer data B L) as (nals & tail & E & _ & F & _).
  eexists. split; [exact F|]. subst data. clear.
  assert (G : forall pre, contiguous (Z.of_nat pre) (Z.of_nat (pre + length (framed 4 nals ++ tail))) (framed_indices 4 (Z.of_nat pre) nals)).
  { induction nals as [|x nals IH]; intros pre.
    - cbn. lia.
    - unfold framed_indices. cbn [framed_ranges map contiguous fst snd start_offset payload_start_offset payload_size].
      split; [lia|]. split; [lia|]. split; [lia|].
      specialize (IH (pre + 4 + length x)%nat). rewrite framed_cons, !app_length, be_bytes_length in *.
      unfold framed_indices in IH. replace (Z.of_nat pre + Z.of_nat 4 + Z.of_nat (length x)) with (Z.of_nat (pre + 4 + length x)) by lia.
      replace (Z.of_nat pre + 4 + Z.of_nat (length x)) with (Z.of_nat (pre + 4 + length x)) by lia.
      replace (pre + (4 + (length x + length (framed 4 nals)) + length tail))%nat with (pre + 4 + length x + (length (framed 4 nals) + length tail))%nat by lia.
      exact IH. }
  apply (G 0%nat).
Qed.

(** At 4 GiB the claim fails: 4 + nal_unit_size is computed in 32 bits, so a unit of 2^32-4 bytes
    makes the loop stay at the same offset for ever (pushing an entry each time). *)
Theorem C17_refuted t : 2 ^ 32 - 4 <= Z.of_nat (length t) < 2 ^ 63 -> Forall is_byte t ->
  forall fuel acc, explicit_loop fuel (255 :: 255 :: 255 :: 252 :: t) 0 acc = Bad OutOfFuel.
Proof.
  intros L B. induction fuel as [|f IH]; intros acc; cbn [explicit_loop].
  - destruct (Z.ltb_spec 0 (Z.of_nat (length (255 :: 255 :: 255 :: 252 :: t)))) as [|H]; [reflexivity|cbn [length] in H; lia].
  - set (data := 255 :: 255 :: 255 :: 252 :: t) in *.
    assert (Ld : Z.of_nat (length data) = Z.of_nat (length t) + 4) by (unfold data; cbn [length]; lia).
    destruct (Z.ltb_spec 0 (Z.of_nat (length data))) as [|]; [|lia]. cbn [negb].
    change (u64 (0 + 4)) with 4.
    destruct (Z.ltb_spec (Z.of_nat (length data)) 4); [lia|].
    change 0 with (Z.of_nat 0) at 1. rewrite read_be32_spec by lia.
    change (be_val (firstn 4 (skipn 0 data))) with (2 ^ 32 - 4).
    unfold u64. rewrite (Z.mod_small (Z.of_nat (length data) - 0 - 4)) by lia.
    destruct (Z.ltb_spec (Z.of_nat (length data) - 0 - 4) (2 ^ 32 - 4)); [lia|].
    change (u32 (4 + (2 ^ 32 - 4))) with 0. change ((0 + 0) mod 2 ^ 64) with 0. apply IH.
Qed.

Example C17_case :
  FindNaluIndicesExplicitFraming [0; 0; 0; 2; 64; 1; 0; 0; 0; 0; 0; 0; 0; 1; 66; 0; 0; 0; 9; 1]
  = Done [mkIx 0 4 2; mkIx 6 10 0; mkIx 10 14 1] /\
  incomplete true 4 [0; 0; 0; 9; 1].
Proof. split; [vm_compute; reflexivity|]. right; left. vm_compute. reflexivity. Qed.

(** * C18 *)
(** [nalulength_ranges] are the (offset, length) pairs handed to the NAL unit parser, with a check
    that they are inside the buffer ([Bad OutOfBounds] otherwise); the stream model (PropsStream.v)
    runs the same loop with the NAL unit parser as its step. *)
Theorem C18_ranges data n : Forall is_byte data -> Z.of_nat (length data) < 2 ^ 63 ->
  (0 < n <= 7)%nat ->
  exists nals tail, data = framed n nals ++ tail /\ Forall (unit_ok false n) nals /\ incomplete false n tail /\
    nalulength_ranges data (Z.of_nat n) = Done (framed_ranges n 0 nals) /\
    map (fun r => sub data (fst r) (snd r)) (framed_ranges n 0 nals) = map Done nals.
Proof.
  intros B L Hn. destruct (framed_decomp false n ltac:(lia) data B) as (nals & tail & -> & F & I).
  exists nals, tail. split; [reflexivity|]. split; [exact F|]. split; [exact I|].
  assert (G : forall nals pre, map (fun r => sub (pre ++ framed n nals ++ tail) (fst r) (snd r))
                (framed_ranges n (Z.of_nat (length pre)) nals) = map Done nals).
  { clear. induction nals as [|x nals IH]; intros pre; [reflexivity|]. cbn [framed_ranges map fst snd]. f_equal.
    - unfold sub. rewrite framed_cons, !app_length, be_bytes_length.
      replace (_ || _) with false by lia. f_equal.
      replace (Z.to_nat (Z.of_nat (length pre) + Z.of_nat n)) with (length (pre ++ be_bytes n (Z.of_nat (length x))))
          by (rewrite app_length, be_bytes_length; lia).
      rewrite <- (app_assoc (be_bytes _ _)), app_assoc, skipn_length_app, Nat2Z.id, <- app_assoc. apply firstn_length_app.
    - specialize (IH (pre ++ be_bytes n (Z.of_nat (length x)) ++ x)).
      rewrite framed_cons, <- !app_assoc.
      rewrite !app_length, be_bytes_length in IH. rewrite <- !app_assoc in IH.
      replace (Z.of_nat (length pre) + Z.of_nat n + Z.of_nat (length x)) with (Z.of_nat (length pre + (n + length x))) by lia.
      exact IH. }
  split; [|apply (G nals [])].
  unfold nalulength_ranges. change 0 with (Z.of_nat (length (@nil Z))) at 1.
  assert (B2 : Forall is_byte tail) by (apply Forall_app in B; tauto).
  pose proof (framed_length n nals ltac:(lia)) as Lf.
  assert (L2 : (length nals < S (length (framed n nals ++ tail)))%nat) by (rewrite app_length; lia).
  rewrite (nalulength_loop_spec _ n ltac:(lia) nals _ [] tail);
    [|exact L|lia|exact F|right; split; [exact I|lia]|exact B2|exact L2].
  cbn [app length].
  assert (K : forall rs acc, (forall r, In r rs -> exists x, sub (framed n nals ++ tail) (fst r) (snd r) = Done x) ->
    ofold (fun l r => match sub (framed n nals ++ tail) (fst r) (snd r) with
                      | Bad e => Bad e | Done _ => Done ((fst r, snd r) :: l) end) rs acc
    = Done (rev rs ++ acc)).
  { induction rs as [|r rs IH]; intros acc Hr; [reflexivity|]. cbn [ofold].
    destruct (Hr r ltac:(left; reflexivity)) as (x & ->). rewrite IH by (intros; apply Hr; right; assumption).
    cbn [rev]. rewrite <- app_assoc. destruct r; reflexivity. }
  rewrite K.
  - rewrite app_nil_r, rev_involutive. reflexivity.
  - specialize (G nals []). cbn [app length] in G. intros r Hr.
    apply (in_map (fun r => sub (framed n nals ++ tail) (fst r) (snd r))) in Hr.
    change (Z.of_nat 0) with 0 in *. rewrite G in Hr. apply in_map_iff in Hr. destruct Hr as (x & E & _). eauto.
Qed.

(** For any width, well-formed data are walked exactly (here without an incomplete unit at the end). *)
Theorem C18_any_step {S} (step : S -> Z -> Z -> outcome S) n nals s : (0 < n)%nat -> Z.of_nat n < 2 ^ 63 ->
  Z.of_nat (length (framed n nals)) < 2 ^ 63 -> Forall (unit_ok false n) nals ->
  nalulength_loop (Datatypes.S (length (framed n nals))) (framed n nals) (Z.of_nat n) 0 step s
  = ofold (fun s r => step s (fst r) (snd r)) (framed_ranges n 0 nals) s.
Proof.
  intros Hn Hn2 L F. pose proof (nalulength_loop_spec step n Hn nals (Datatypes.S (length (framed n nals))) [] [] s) as H.
  cbn [app length] in H. rewrite app_nil_r in H. apply H; auto.
  pose proof (framed_length n nals Hn). lia.
Qed.

(** With a zero-byte length the whole buffer is one unit. *)
Theorem C18_no_length data : (0 < length data)%nat -> Z.of_nat (length data) < 2 ^ 63 ->
  nalulength_ranges data 0 = Done [(0, Z.of_nat (length data))].
Proof.
  intros H L. unfold nalulength_ranges. cbn [nalulength_loop].
  destruct (Z.ltb_spec 0 (Z.of_nat (length data))); [|lia]. cbn [negb].
  change (0 <? 0) with false. cbv iota zeta. unfold sub.
  replace ((0 <? 0) || (Z.of_nat (length data) <? 0) || (Z.of_nat (length data) <? 0 + Z.of_nat (length data))) with false by lia.
  unfold u64. rewrite Z.mod_small by lia. rewrite Z.add_0_l.
  destruct (length data) as [|k] eqn:E; [lia|]. cbn [nalulength_loop]. rewrite E.
  destruct (Z.ltb_spec (Z.of_nat (S k)) (Z.of_nat (S k))); [lia|]. reflexivity.
Qed.

(** The claim fails for 8-byte lengths: offset + length wraps around and the range handed to the
    NAL unit parser is outside the buffer. *)
Theorem C18_refuted : nalulength_ranges [255; 255; 255; 255; 255; 255; 255; 248] 8 = Bad OutOfBounds.
Proof. vm_compute. reflexivity. Qed.

Example C18_case :
  nalulength_ranges [0; 3; 64; 1; 12; 0; 1; 66; 0; 9; 1] 2 = Done [(2, 3); (7, 1)] /\
  [0; 3; 64; 1; 12; 0; 1; 66; 0; 9; 1] = framed 2 [[64; 1; 12]; [66]] ++ [0; 9; 1].
Proof. vm_compute. auto. Qed.
