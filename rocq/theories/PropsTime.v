(** C91: parsing takes time linear in the size of the input (quadratic for an aggregation packet).  The work counted is [takes], see SpecTime.v. *)
From Coq Require Import ZArith List Bool Lia ZifyBool ZifyNat.
From Verif Require Import MBase MBitBuffer Spec BitsFacts Reader ReaderFacts Rules MCommon MFraming MSyntaxA MSyntaxB MSps MPps MSlice MSei MNal MRtp
  Api PropsBits FramingFacts PropsFraming PropsWide FactsNal PropsRel SpecTime FactsTime FactsTimeB.
Import ListNotations.
Open Scope Z_scope.
Open Scope monad_scope.

Lemma runs_lin {A} a c (m : M A) : lin a c m -> runs_in a c m.
Proof. intros (_ & _ & H) bytes F L. destruct (H (mk_bb bytes) (wf_mk _ F L)) as (k & T & K & _). exists k. split; [exact T|]. rewrite left_mk in K. exact K. Qed.
Lemma runs_timed {A} a c (m : M A) : timed a c m -> runs_in a c m.
Proof. intros H. apply runs_lin, lin_timed, H. Qed.
Lemma runs_stimed {A} e a c (m : M (option A * state)) : stimed e a c m -> runs_in a c m.
Proof.
  intros (Ha & _ & H) bytes F L. destruct (H (mk_bb bytes) (wf_mk _ F L)) as (k & T & K & R). exists k. split; [exact T|]. rewrite <- left_mk.
  destruct (m (mk_bb bytes)) as [[[x|] s] b'|b'|er]; [pose proof (left_nonneg b'); nia|lia..].
Qed.

(** Every parser of a structure, for every input of [n] bytes: at most so many steps per bit, and so many more. *)
Theorem C91_parameter_sets : runs_in 700 970 ParseVps /\ runs_in 821 3470 ParseSps /\ runs_in 230 2070 ParsePps.
Proof. split; [apply runs_timed, timed_vps|]. split; [apply runs_timed, timed_sps|apply runs_lin, lin_pps]. Qed.
(** Whatever parameter sets are stored. *)
Theorem C91_slice_header : forall nal_unit_type st, runs_in 70 1520 (ParseSliceSegmentHeader nal_unit_type st).
Proof. intros. apply runs_timed, timed_slice. Qed.
Theorem C91_sei_aud : runs_in 40 330 ParseSei /\ runs_in 0 70 ParseAud.
Proof. split; [apply runs_lin, lin_sei|apply runs_timed, timed_aud]. Qed.
(** The structures that are parsed as parts of others *)
Theorem C91_parts : (forall present n, runs_in 430 500 (ParseProfileTierLevel present n)) /\ (forall common n, runs_in 180 210 (ParseHrdParameters common n)) /\ (forall n, runs_in 180 500 (ParseVuiParameters n)).
Proof. split; [intros; apply runs_timed, timed_ptl|]. split; [intros; apply runs_timed, timed_hrd|intros; apply runs_timed, timed_vui]. Qed.
(** A parser that succeeds has done work in proportion to the bits it consumed, wherever it starts and whatever follows. *)
Theorem C91_consumed : forall b, wf b ->
  (forall s b', ParseVps b = Ok s b' -> exists k, takes ParseVps b k /\ 0 <= k <= 700 * (remaining b - remaining b') + 970) /\
  (forall s b', ParseSps b = Ok s b' -> exists k, takes ParseSps b k /\ 0 <= k <= 821 * (remaining b - remaining b') + 3470) /\
  (forall nal_unit_type st h b', ParseSliceSegmentHeader nal_unit_type st b = Ok h b' ->
     exists k, takes (ParseSliceSegmentHeader nal_unit_type st) b k /\ 0 <= k <= 70 * (remaining b - remaining b') + 1520).
Proof.
  intros b W. assert (Q : forall A a c (m : M A) x b', timed a c m -> m b = Ok x b' -> exists k, takes m b k /\ 0 <= k <= a * (remaining b - remaining b') + c).
  { intros A a c m x b' (_ & _ & H) E. destruct (H b W) as (k & T & K & R). exists k. split; [exact T|]. rewrite E in R. destruct R as (W' & _ & B). rewrite !remaining_spec by assumption. fold (left b) (left b'). lia. }
  split; [intros s b'; apply Q, timed_vps|]. split; [intros s b'; apply Q, timed_sps|intros nut st h b'; apply Q, timed_slice].
Qed.
(** A NAL unit, from its unescaped bytes, with or without a checksum *)
Theorem C91_nal_unit : forall opts st, runs_in 830 3600 (ParseNalUnitBuffer opts st).
Proof. intros. apply runs_lin, lin_nal. Qed.
(** The configuration box: its NAL units are copied and parsed from buffers of their own. *)
Theorem C91_configuration_box : forall opts st, runs_in 1310 4110 (ParseConfigurationBoxBuffer opts st).
Proof. intros. eapply runs_stimed, stimed_box. Qed.
Theorem C91_rtp_single_fu : forall st, runs_in 821 3530 (ParseRtpSingleBuffer st) /\ runs_in 821 3560 (ParseRtpFuBuffer st).
Proof. intros. split; apply runs_lin; [apply lin_single|apply lin_fu]. Qed.
(** An aggregation packet: every unit can read again what the one before it has read in vain, so the bound is quadratic. *)
Theorem C91_rtp : forall st bytes, Forall is_byte bytes -> Z.of_nat (length bytes) < 2 ^ 32 -> let n := 8 * Z.of_nat (length bytes) in
  (exists k, takes (ParseRtpApBuffer st) (mk_bb bytes) k /\ 0 <= k <= 13 * n * n + 825 * n + 3600) /\
  (exists k, takes (ParseRtpBuffer st) (mk_bb bytes) k /\ 0 <= k <= 13 * n * n + 825 * n + 3700).
Proof.
  intros st bytes F L n. split.
  - destruct (bnd_ap_packet st (mk_bb bytes) (wf_mk _ F L)) as (k & T & K & _). exists k. split; [exact T|]. rewrite left_mk in K. exact K.
  - destruct (bnd_rtp st bytes (conj F L)) as (k & T & K & _). exists k. split; [exact T|exact K].
Qed.

(** A stream of [n] bytes with start codes takes at most 6642 steps per byte, however many units it has and whatever is in them. *)
Theorem C91_stream : forall opts data st, Forall is_byte data -> Z.of_nat (length data) < 2 ^ 32 ->
  exists k, stream_takes opts data st k /\ 0 <= k <= 6642 * Z.of_nat (length data).
Proof.
  intros opts data st F L. pose proof (C15_exact data ltac:(lia)) as EF. destruct (C15_ranges data _ ltac:(lia) EF) as [C _]. pose proof (chained_total _ _ C) as HT. pose proof (chained_bounds _ _ C) as [_ HB].
  destruct (units_bound opts data (conj F L) (map (fun ix => (payload_start_offset ix, MFraming.payload_size ix)) (annexb_units data))) with (st := st) as (k & U & K).
  { apply Forall_map. exact HB. }
  exists (Z.of_nat (length data) + k). split; [exists (annexb_units data), k; split; [exact EF|]; split; [exact U|reflexivity]|]. rewrite map_length in K.
  destruct (annexb_units data) as [|ix r]; [cbn in K; lia|]. cbn [chained] in C. lia.
Qed.
(** So does a stream with length fields of 1 byte or more; and one that is a single unit. *)
Theorem C91_length_stream : forall opts data n st, Forall is_byte data -> Z.of_nat (length data) < 2 ^ 32 -> Z.of_nat n < 2 ^ 63 ->
  nalulength_ranges data (Z.of_nat n) <> Bad OutOfBounds -> exists k, length_stream_takes opts data (Z.of_nat n) st k /\ 0 <= k <= 6642 * Z.of_nat (length data) + 3601.
Proof.
  intros opts data n st F L Hn NB. destruct n as [|n].
  { destruct data as [|x data].
    { exists 0. split; [|cbn; lia]. exists [], 0. split; [reflexivity|]. split; [constructor|reflexivity]. }
    pose proof (C18_no_length (x :: data) ltac:(cbn; lia) ltac:(lia)) as E. set (d := x :: data) in *.
    destruct (units_bound opts d (conj F L) [(0, Z.of_nat (length d))]) with (st := st) as (k & U & K); [constructor; [cbn; lia|constructor]|].
    exists (Z.of_nat (length d) + k). split; [exists [(0, Z.of_nat (length d))], k; split; [exact E|]; split; [exact U|reflexivity]|]. cbn [total fold_right snd] in K. change (Z.of_nat (length [(0, Z.of_nat (length d))])) with 1 in K. lia. }
  destruct (C79_ranges data (S n) ltac:(lia) ltac:(lia) Hn) as (l & tail & E & P & [[_ R]|[_ R]]); [|contradiction].
  assert (HT : total (framed_ranges (S n) 0 (map snd l)) + Z.of_nat (length l) <= Z.of_nat (length data)).
  { rewrite E, app_length. clear - P. generalize 0 as off. induction P as [|[fd x] r (Q1 & _ & _) Q IH]; intros off; [cbn; lia|]. rewrite pieces_cons, !app_length. cbn [fst snd] in *.
    cbn [map framed_ranges total fold_right snd length]. fold (total (framed_ranges (S n) (off + Z.of_nat (S n) + Z.of_nat (length x)) (map snd r))). specialize (IH (off + Z.of_nat (S n) + Z.of_nat (length x))). lia. }
  assert (HB : Forall (fun r => 0 <= fst r /\ 0 <= snd r /\ fst r + snd r <= Z.of_nat (length data)) (framed_ranges (S n) 0 (map snd l))).
  { assert (G : forall off, 0 <= off -> Forall (fun r => 0 <= fst r /\ 0 <= snd r /\ fst r + snd r <= off + Z.of_nat (length (pieces l))) (framed_ranges (S n) off (map snd l))).
    { clear - P. induction P as [|[fd x] r (Q1 & _ & _) Q IH]; intros off Ho; [constructor|]. rewrite pieces_cons, !app_length. cbn [fst snd] in *. cbn [map framed_ranges snd]. constructor; [cbn [fst snd]; lia|].
      eapply Forall_impl; [|apply (IH (off + Z.of_nat (S n) + Z.of_nat (length x))); lia]. cbv beta. intros y Hy. lia. }
    eapply Forall_impl; [|apply (G 0); lia]. cbv beta. intros y Hy. rewrite E, app_length. lia. }
  destruct (units_bound opts data (conj F L) _ HB st) as (k & U & K). rewrite framed_ranges_length, map_length in K.
  exists (Z.of_nat (length data) + k). split; [exists (framed_ranges (S n) 0 (map snd l)), k; split; [exact R|]; split; [exact U|reflexivity]|]. lia.
Qed.
(** The steps of a code with two leading zeros (the value 3), counted; and the bound above on a unit of 7 bytes. *)
Example C91_case : takes ReadExponentialGolomb (mk_bb [32]) 9 /\ ReadExponentialGolomb (mk_bb [32]) = Ok 3 (mkBB [32] 1 0 5) /\
  exists k, stream_takes default_options [0; 0; 1; 70; 1; 80; 0; 0; 1; 38; 1; 175] empty_state k /\ 0 <= k <= 79704.
Proof.
  split; [|split; [vm_compute; reflexivity|exact (C91_stream default_options [0; 0; 1; 70; 1; 80; 0; 0; 1; 38; 1; 175] empty_state ltac:(repeat constructor; unfold is_byte; lia) ltac:(cbn; lia))]].
  replace 9 with (1 + 2 + 2 + 4) by reflexivity. apply T_ue. eapply T_zero_go; [vm_compute; reflexivity|vm_compute; reflexivity|]. eapply T_zero_go; [vm_compute; reflexivity|vm_compute; reflexivity|].
  eapply T_zero_stop; [vm_compute; reflexivity|reflexivity].
Qed.
