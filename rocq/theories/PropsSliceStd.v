(** C37: slice segment headers, against the whole syntax of the standard (SpecSliceStd.v). *)
From Coq Require Import ZArith List Bool Lia ZifyBool ZifyNat.
From Verif Require Import MBase MBitBuffer Spec BitsFacts Reader ReaderFacts Rules Syntax SyntaxSe MCommon CommonFacts PropsBits PropsCommon
  MSyntaxA SpecA FactsA Api PropsA MSyntaxB SpecB FactsB FactsRps PropsB MSps SpecSps FactsSps PropsSps MPps SpecPps FactsPps PropsPps
  MSlice SpecSlice FactsSlice PropsSlice SpecSliceStd.
Import ListNotations.
Open Scope Z_scope.

(** The complete list of the places where the code departs from the standard:
    - reference picture list modification is never read (NumPicTotalCurr is taken as 0);
    - the weights of list 1 are not read;
    - weight flags are read for the current picture as a reference, too;
    - ChromaArrayType is taken as 0 without SAO;
    - the numbers of active references are not inferred from the PPS;
    - slice_deblocking_filter_disabled_flag is not inferred from the PPS;
    - the limit of num_entry_point_offsets is too small with both tiles and wavefronts (or wraps around). *)
Definition std_no_deviation (s : sps) (p : pps) (H : std_header) : Prop :=
  let h := base H in
  modification_l0 H = None /\ weights_l1 H = None /\ (sh_pred_weight_table h <> None -> ~ In true (current_l0 H)) /\
  (sample_adaptive_offset_enabled_flag s <> 0 \/ CAT true s = 0 \/ sh_pred_weight_table h = None) /\
  (dependent_slice_segment_flag h = 0 -> slice_type h = 0 \/ slice_type h = 1 -> num_ref_idx_active_override_flag h = 0 ->
     num_ref_idx_l0_default_active_minus1 p = 0 /\ (slice_type h = 0 -> num_ref_idx_l1_default_active_minus1 p = 0)) /\
  (dependent_slice_segment_flag h = 0 -> deblocking_filter_override_flag h = 0 -> pps_deblocking_filter_disabled_flag p = 0) /\
  num_entry_point_offsets h <= ep_limit false s p.

Lemma weight_flags_plain current : forall flags, length current = length flags -> ~ In true current -> enc_weight_flags current flags = flat_map (enc_u 1) flags.
Proof.
  induction current as [|c current IH]; intros [|f flags] L N; try discriminate L; [reflexivity|]. unfold enc_weight_flags in *. cbn [combine map fst snd flat_map].
  rewrite concat_cons. rewrite IH; [|cbn in L; lia|intros K; apply N; right; exact K]. destruct c; [destruct N; left; reflexivity|reflexivity].
Qed.
(** Without deviations it is the layout of SpecSlice.v. *)
Lemma std_plain nut s p H : std_no_deviation s p H -> std_ok nut s p H ->
  slice_no_deviation s p (base H) /\ enc_std nut s p H = enc_slice true nut s p (base H).
Proof.
  intros (N1 & N2 & N3 & N4 & N5 & N6 & N7) (O & A & M0 & M1 & W1 & C0 & C1). cbv zeta in *. rewrite N1 in M0. rewrite N2 in W1.
  split.
  - split; [exact N4|]. split; [exact N5|]. split; [exact N6|]. split; [|exact N7].
    destruct (nz (first_slice_segment_in_pic_flag (base H))) eqn:Ef; [left; unfold nz in Ef; lia|]. right. specialize (A eq_refl). lia.
  - set (h := base H) in *.
    assert (E0 : (negb (nz (dependent_slice_segment_flag h)) && ((slice_type h =? 1) || (slice_type h =? 0)) && nz (lists_modification_present_flag p) && (1 <? NumPicTotalCurr s p h)) = false).
    { unfold optf, is_some in M0. match type of M0 with if ?c then False else _ => destruct c; [destruct M0|reflexivity] end. }
    assert (Ew : opt (negb (nz (dependent_slice_segment_flag h)) && ((slice_type h =? 1) || (slice_type h =? 0)) &&
                  (nz (weighted_pred_flag p) && (slice_type h =? 1) || nz (weighted_bipred_flag p) && (slice_type h =? 0)))
                  (enc_opt (enc_std_pwt (CAT true s) (slice_type h =? 0) H) (sh_pred_weight_table h)) =
                 opt (negb (nz (dependent_slice_segment_flag h)) && ((slice_type h =? 1) || (slice_type h =? 0)) &&
                  (nz (weighted_pred_flag p) && (slice_type h =? 1) || nz (weighted_bipred_flag p) && (slice_type h =? 0)))
                  (enc_opt (enc_pwt (CAT true s) (num_ref_idx_l0_active_minus1 h)) (sh_pred_weight_table h))).
    { assert (Op : optf (negb (nz (dependent_slice_segment_flag h)) && ((slice_type h =? 1) || (slice_type h =? 0)) &&
          ((nz (weighted_pred_flag p) && (slice_type h =? 1)) || (nz (weighted_bipred_flag p) && (slice_type h =? 0))))
        (is_some (pwt_ok (CAT true s) (num_ref_idx_l0_active_minus1 h))) None (sh_pred_weight_table h)) by (unfold slice_ok in O; cbv zeta in O; tauto).
      unfold opt. match goal with |- (if ?c then _ else _) = _ => destruct c eqn:Ec end; [|reflexivity]. unfold optf in Op.
      destruct (sh_pred_weight_table h) as [t|] eqn:Et; [|destruct Op]. cbn [is_some enc_opt] in *. specialize (N3 ltac:(discriminate)).
      destruct Op as (_ & _ & [Vl _] & Vc & _). destruct (C0 t eq_refl) as (Lc & _).
      assert (Eb : (slice_type h =? 0) = false).
      { unfold optf, is_some in W1. clear - W1 Ec. destruct (Z.eqb_spec (slice_type h) 0) as [Es|Es]; [|reflexivity]. exfalso. rewrite Es in *.
        change (0 =? 1) with false in *. destruct (negb (nz (dependent_slice_segment_flag h))), (nz (weighted_pred_flag p)), (nz (weighted_bipred_flag p)); cbn in *; first [discriminate Ec|exact W1]. }
      change (enc_std_pwt (CAT true s) (slice_type h =? 0) H t = enc_pwt (CAT true s) (num_ref_idx_l0_active_minus1 h) t).
      unfold enc_std_pwt, enc_pwt. rewrite Eb, weight_flags_plain by (lia || exact N3).
      destruct (CAT true s =? 0) eqn:Ecat; cbn [negb] in *; unfold opt; cbn [concat]; rewrite ?app_nil_r; [reflexivity|].
      unfold optf in Vc. destruct Vc as [Vc _]. rewrite weight_flags_plain by (lia || exact N3). reflexivity. }
    unfold enc_std, enc_slice. cbv zeta. fold h. rewrite E0, Ew. unfold opt at 23 24. cbn [andb]. rewrite !concat_cons. cbn [app]. reflexivity.
Qed.
(** Every slice segment header of the standard that uses none of these is returned from its encoding, field by field. *)
Theorem C37_standard_layout : forall st nut b s p H rest, wf b -> sps_ok_in s -> pps_ok_out p ->
  refers_to st (slice_pic_parameter_set_id (base H)) p s -> std_ok nut s p H -> std_no_deviation s p H -> rem b = enc_std nut s p H ++ rest ->
  ParseSliceSegmentHeader nut st b = Ok (base H) (adv b (length (enc_std nut s p H))).
Proof.
  intros st nut b s p H rest W Os Op R O D Eb. destruct (std_plain nut s p H D O) as [D' E]. rewrite E in *.
  destruct (std_slice _ nut s p (base H) D' (proj1 O)) as [O' E']. rewrite E' in *. eapply C37_layout_of_the_code; eassumption.
Qed.

(** * Concrete cases *)
(** A header without the parts the parser does not have. *)
Definition plain (h : slice_header) (n : nat) : std_header := mkStd h None None None (repeat false n) [].
Ltac solve_std h :=
  split; [unfold slice_ok; cbv zeta; repeat (split; [unfold h; solve_ok|]); unfold h; solve_ok|];
  split; [first [discriminate | intros _; vm_compute; split; [discriminate|reflexivity]]|];
  split; [solve_ok|]; split; [solve_ok|]; split; [solve_ok|]; split;
  [intros ? E; injection E as <- || discriminate E|intros ? E; injection E as <- || discriminate E].
Example C37_case : std_ok 1 C31_sps C37_pps (plain C37_header 2) /\ std_no_deviation C31_sps C37_pps (plain C37_header 2) /\
  refers_to C37_state 3 C37_pps C31_sps /\ sps_ok_in C31_sps /\ pps_ok_out C37_pps /\
  on_data (ParseSliceSegmentHeader 1 C37_state) (pack (enc_std 1 C31_sps C37_pps (plain C37_header 2) ++ [true])) = Done (Some C37_header).
Proof.
  pose proof C37_own as OW. pose proof C39_case as [TW _].
  split; [|split; [|split; [|split; [exact C31_sps_ok|split; [exact C37_pps_ok|vm_compute; reflexivity]]]]].
  - split; [|split; [|split; [|split; [|split; [|split]]]]].
    + unfold slice_ok. cbv zeta.
      repeat (split; [lazymatch goal with
        | |- optf _ (is_some (own_rps_std _)) _ _ => exact OW
        | |- optf _ (is_some (pwt_ok _ _)) _ _ => exact TW
        | |- _ => unfold plain, C37_header; solve_ok end|]). unfold plain, C37_header; solve_ok.
    + intros _. vm_compute. split; [discriminate|reflexivity].
    + vm_compute. reflexivity.
    + vm_compute. reflexivity.
    + vm_compute. reflexivity.
    + intros t E. split; [reflexivity|]. split; [intros [X|[X|[]]]; discriminate X|]. intros [|[|i]] X; try discriminate X. cbn in X. destruct i; discriminate X.
    + discriminate.
  - split; [reflexivity|]. split; [reflexivity|]. split; [intros _ [X|[X|[]]]; discriminate X|]. split; [left; discriminate|]. split; [discriminate|].
    split; [reflexivity|]. vm_compute. discriminate.
  - split; eexists; reflexivity.
Qed.

(** Deviations, with headers the standard allows.  1: without num_ref_idx_active_override_flag the defaults of the PPS are ignored, so
    collocated_ref_idx is not read and the elements after it are misread. *)
Theorem C37_default_active_refuted : std_ok 1 C31_sps C37_pps1 (plain C37_header1 1) /\
  exists h, on_data (ParseSliceSegmentHeader 1 (C37_state1 C37_pps1)) (pack (enc_std 1 C31_sps C37_pps1 (plain C37_header1 1) ++ [true])) = Done (Some h) /\
  slice_qp_delta C37_header1 = 5 /\ slice_qp_delta h <> 5.
Proof.
  split.
  - unfold std_ok. cbv zeta. cbn [base plain]. solve_std C37_header1.
  - eexists. split; [vm_compute; reflexivity|]. split; [reflexivity|]. vm_compute. discriminate.
Qed.
(** 2: with tiles and wavefronts the code's limit of num_entry_point_offsets is cols * (height - 1) instead of cols * height - 1. *)
Theorem C37_entry_points_refuted : std_ok 1 C31_sps C37_pps2 (plain C37_header2 1) /\
  on_data (ParseSliceSegmentHeader 1 (C37_state1 C37_pps2)) (pack (enc_std 1 C31_sps C37_pps2 (plain C37_header2 1) ++ [true])) = Done None.
Proof.
  split; [|vm_compute; reflexivity]. unfold std_ok. cbv zeta. cbn [base plain]. solve_std C37_header2.
Qed.
(** 3: a slice that inherits pps_deblocking_filter_disabled_flag = 1: slice_loop_filter_across_slices_enabled_flag is read although absent. *)
Theorem C37_deblocking_refuted : std_ok 1 C31_sps C37_pps3 (plain C37_header3 1) /\
  on_data (ParseSliceSegmentHeader 1 (C37_state1 C37_pps3)) (pack (enc_std 1 C31_sps C37_pps3 (plain C37_header3 1) ++ [true])) <> Done (Some C37_header3).
Proof.
  split; [|vm_compute; discriminate]. unfold std_ok. cbv zeta. cbn [base plain]. solve_std C37_header3.
Qed.
(** 4: ref_pic_lists_modification(): a P slice with three pictures to refer to, the third moved to the front. *)
Definition C37_pps5 : pps :=
  mkPPS 3 0 0 0 0 0 0 0 0 0 0 0 0 0 0 0 0 0 0 0 0 0 0 0 0 [] [] 0 0 0 0 0 0 0 0 None 1 0 0 0 0 0 0 0 0 None None.
Definition C37_header5 : slice_header :=
  mkSH 1 0 3 0 0 [] 1 0 0 200 1 None 0 0 0 [] 0 0 0 0 0 0 0 0 1 0 None 2 0 5 0 0 0 0 0 0 0 0 0 0 0 0 [] 0 [] 0 0.
Definition C37_std5 : std_header := mkStd C37_header5 (Some (1, [2])) None None [false] [].
Theorem C37_lists_modification_refuted : std_ok 1 C31_sps C37_pps5 C37_std5 /\ NumPicTotalCurr C31_sps C37_pps5 C37_header5 = 3 /\
  exists h, on_data (ParseSliceSegmentHeader 1 (C37_state1 C37_pps5)) (pack (enc_std 1 C31_sps C37_pps5 C37_std5 ++ [true])) = Done (Some h) /\
  slice_qp_delta C37_header5 = 5 /\ slice_qp_delta h <> 5.
Proof.
  split; [|split; [vm_compute; reflexivity|]].
  - unfold std_ok. cbv zeta. cbn [base C37_std5]. solve_std C37_header5.
  - eexists. split; [vm_compute; reflexivity|]. split; [reflexivity|]. vm_compute. discriminate.
Qed.
(** 5: the weights of list 1. *)
Definition C37_pps6 : pps :=
  mkPPS 3 0 0 0 0 0 0 0 0 0 0 0 0 0 0 0 0 0 1 0 0 0 0 0 0 [] [] 0 0 0 0 0 0 0 0 None 0 0 0 0 0 0 0 0 0 None None.
Definition C37_header6 : slice_header :=
  mkSH 1 0 3 0 0 [] 0 0 0 200 1 None 0 0 0 [] 0 0 0 0 0 0 0 0 1 0 (Some (mkPWT 5 (-1) [1] [0] [(Some (3, -4), None)])) 2 0 5 0 0 0 0 0 0 0 0 0 0 0 0 [] 0 [] 0 1.
Definition C37_std6 : std_header := mkStd C37_header6 None None (Some (mkW [0] [1] [(None, Some (mkQ 1 2 3 (-4)))])) [false] [false].
Theorem C37_weights_l1_refuted : std_ok 1 C31_sps C37_pps6 C37_std6 /\
  exists h, on_data (ParseSliceSegmentHeader 1 (C37_state1 C37_pps6)) (pack (enc_std 1 C31_sps C37_pps6 C37_std6 ++ [true])) = Done (Some h) /\
  slice_qp_delta C37_header6 = 5 /\ slice_qp_delta h <> 5.
Proof.
  split.
  - unfold std_ok. cbv zeta. cbn [base C37_std6]. solve_std C37_header6.
    + split; [reflexivity|]. split; [intros [X|[]]; discriminate X|]. intros [|[|i]] X; discriminate X.
    + split; [reflexivity|]. split; [intros [X|[]]; discriminate X|]. intros [|[|i]] X; discriminate X.
  - eexists. split; [vm_compute; reflexivity|]. split; [reflexivity|]. vm_compute. discriminate.
Qed.
(** 6: ChromaArrayType without SAO: the chroma part of the weight table is not read. *)
Definition C37_sps7 : sps :=
  mkSPS 0 0 1 C29_ptl 0 1 0 16 16 0 0 0 0 0 0 0 4 1 [mkOI 4 2 5] 0 1 0 3 0 0 0 0 None 0 0 0 0 0 0 0 0 0 [] 0 0 [] 0 0 0 None 0 0 0 0 0 0 None None None None.
Definition C37_pps7 : pps :=
  mkPPS 3 0 0 0 0 0 0 0 0 0 0 0 0 0 0 0 0 1 0 0 0 0 0 0 0 [] [] 0 0 0 0 0 0 0 0 None 0 0 0 0 0 0 0 0 0 None None.
Definition C37_header7 : slice_header :=
  mkSH 1 0 3 0 0 [] 1 0 0 200 0 (Some (mkRPS 0 0 0 0 [] 1 0 [(0, 1)] [])) 0 0 0 [] 0 0 0 0 0 0 0 0 1 0
    (Some (mkPWT 5 (-1) [0] [1] [(None, Some (mkQ 1 2 3 (-4)))])) 2 0 5 0 0 0 0 0 0 0 0 0 0 0 0 [] 0 [] 1 0.
Definition C37_state7 : state := mkState (fun _ => None) (fun k => if k =? 0 then Some (C37_sps7, 0) else None) (fun k => if k =? 3 then Some (C37_pps7, 0) else None).
Lemma C37_own7 : own_rps_std C37_sps7 (mkRPS 0 0 0 0 [] 1 0 [(0, 1)] []).
Proof.
  split; [|intros X; discriminate X]. unfold own_rps, rps_ok. split; [solve_ok|]. split; [vm_compute; discriminate|]. split; [solve_ok|].
  change (nz (inter_ref_pic_set_prediction_flag (mkRPS 0 0 0 0 [] 1 0 [(0, 1)] []))) with false. cbv iota. solve_ok.
Qed.
Theorem C37_chroma_weights_refuted : on_data ParseSps (pack (enc_sps true C37_sps7 ++ [true])) = Done (Some (C37_sps7, 0)) /\ std_ok 1 C37_sps7 C37_pps7 (plain C37_header7 1) /\
  exists h, on_data (ParseSliceSegmentHeader 1 C37_state7) (pack (enc_std 1 C37_sps7 C37_pps7 (plain C37_header7 1) ++ [true])) = Done (Some h) /\
  slice_qp_delta C37_header7 = 5 /\ slice_qp_delta h <> 5.
Proof.
  split; [vm_compute; reflexivity|]. split.
  - pose proof C37_own7 as OW.
    unfold std_ok. cbv zeta. cbn [base plain]. split; [|split; [discriminate|split; [solve_ok|split; [solve_ok|split; [solve_ok|split]]]]].
    + unfold slice_ok. cbv zeta. repeat (split; [lazymatch goal with
        | |- optf _ (is_some (own_rps_std _)) _ _ => exact OW
        | |- _ => unfold C37_header7; solve_ok end|]). unfold C37_header7; solve_ok.
    + intros t E. injection E as <-. split; [reflexivity|]. split; [intros [X|[]]; discriminate X|]. intros [|[|i]] X; discriminate X.
    + discriminate.
  - eexists. split; [vm_compute; reflexivity|]. split; [reflexivity|]. vm_compute. discriminate.
Qed.
(** 7: the current picture as its own reference has no weight flags in the stream, but they are read. *)
Definition C37_pps8 : pps :=
  mkPPS 3 0 0 0 0 0 0 0 0 0 0 0 0 0 0 0 0 1 0 0 0 0 0 0 0 [] [] 0 0 0 0 0 0 0 0 None 0 0 0 1 0 0 0 1 0 None (Some (mkPSC 1 0 0 0 0 0 0 0 0 0 0 [])).
Definition C37_header8 : slice_header :=
  mkSH 1 0 3 0 0 [] 1 0 0 200 1 None 0 0 0 [] 0 0 0 0 0 0 0 0 1 0
    (Some (mkPWT 5 (-1) [0] [0] [(None, None)])) 2 0 5 0 0 0 0 0 0 0 0 0 0 0 0 [] 0 [] 1 0.
Definition C37_std8 : std_header := mkStd C37_header8 None None None [true] [].
Theorem C37_current_picture_refuted : std_ok 1 C31_sps C37_pps8 C37_std8 /\
  on_data (ParseSliceSegmentHeader 1 (C37_state1 C37_pps8)) (pack (enc_std 1 C31_sps C37_pps8 C37_std8 ++ [true])) <> Done (Some C37_header8).
Proof.
  split; [|vm_compute; discriminate].
  unfold std_ok. cbv zeta. cbn [base C37_std8]. solve_std C37_header8.
  split; [reflexivity|]. split; [reflexivity|]. intros [|[|i]] X; try discriminate X. split; reflexivity.
Qed.
(** With lists_modification_present_flag and a single picture to refer to, nothing is sent and nothing is misread. *)
Definition C37_header9 : slice_header :=
  mkSH 1 0 3 0 0 [] 1 0 0 200 0 (Some (mkRPS 0 0 0 0 [] 1 0 [(0, 1)] [])) 0 0 0 [] 0 0 0 0 0 0 0 0 1 0 None 2 0 5 0 0 0 0 0 0 0 0 0 0 0 0 [] 0 [] 0 0.
Example C37_case_one_picture : std_ok 1 C37_sps7 C37_pps5 (plain C37_header9 1) /\ std_no_deviation C37_sps7 C37_pps5 (plain C37_header9 1) /\
  lists_modification_present_flag C37_pps5 = 1 /\ NumPicTotalCurr C37_sps7 C37_pps5 C37_header9 = 1.
Proof.
  split; [|split; [|split; [reflexivity|vm_compute; reflexivity]]].
  - pose proof C37_own7 as OW. unfold std_ok. cbv zeta. cbn [base plain]. split; [|split; [discriminate|split; [solve_ok|split; [solve_ok|split; [solve_ok|split; discriminate]]]]].
    unfold slice_ok. cbv zeta. repeat (split; [lazymatch goal with
        | |- optf _ (is_some (own_rps_std _)) _ _ => exact OW
        | |- _ => unfold C37_header9; solve_ok end|]). unfold C37_header9; solve_ok.
  - split; [reflexivity|]. split; [reflexivity|]. split; [intros X; destruct X; reflexivity|]. split; [right; right; reflexivity|].
    split; [intros _ _ _; split; reflexivity|]. split; [reflexivity|]. vm_compute. discriminate.
Qed.
