(** What fdump prints determines the parsed structure: PPS *)
From Coq Require Import ZArith List Bool Lia ZifyBool ZifyNat String Ascii.
From Verif Require Import MBase MBitBuffer Spec Reader ReaderFacts Rules Syntax SyntaxSe MCommon MSyntaxA SpecA MProfile MSyntaxB SpecB MSps SpecSps FactsSps MPps SpecPps FactsPps FactsLocal MText SpecText FactsText FactsTells FactsFaithA FactsFaithB.
Import ListNotations.
Open Scope string_scope.
Open Scope Z_scope.

(** * pps_multilayer_extension *)
Lemma col_cons f q e l : col f q (e :: l) = ((match f e with Some x => [q x] | None => [] end) ++ col f q l)%list.
Proof. reflexivity. Qed.
Lemma col_inj (f : ref_loc -> option quad) (g : ref_loc -> Z) l : forall l', Forall (fun e => f e = None <-> nz (g e) = false) l -> Forall (fun e => f e = None <-> nz (g e) = false) l' ->
  map g l = map g l' -> col f q_1 l = col f q_1 l' -> col f q_2 l = col f q_2 l' -> col f q_3 l = col f q_3 l' -> col f q_4 l = col f q_4 l' -> map f l = map f l'.
Proof.
  induction l as [|e l IH]; intros [|e' l'] F F' G H1 H2 H3 H4; try discriminate; [reflexivity|].
  inversion F as [|? ? N F1]; subst. inversion F' as [|? ? N' F1']; subst. cbn [map] in *. injection G as Ge G. rewrite !col_cons in *. rewrite <- Ge in N'.
  destruct (nz (g e)).
  - destruct (f e) as [[]|]; [|destruct N as [N _]; discriminate (N eq_refl)]. destruct (f e') as [[]|]; [|destruct N' as [N' _]; discriminate (N' eq_refl)]. cbn in H1, H2, H3, H4.
    injection H1 as -> H1. injection H2 as -> H2. injection H3 as -> H3. injection H4 as -> H4. f_equal. apply IH; assumption.
  - destruct N as [_ N], N' as [_ N']. rewrite (N eq_refl), (N' eq_refl) in *. cbn [app] in *. f_equal. apply IH; assumption.
Qed.
Lemma col_range (f : ref_loc -> option quad) q l : Forall (fun e => forall x, f e = Some x -> P_s (q x)) l -> Forall P_s (col f q l).
Proof. induction 1 as [|e l H _ IH]; [constructor|]. rewrite col_cons. apply Forall_app. split; [|exact IH]. destruct (f e); [constructor; [apply H; reflexivity | constructor] | constructor]. Qed.
Lemma refs_ext l : forall l', map ref_loc_offset_layer_id l = map ref_loc_offset_layer_id l' -> map scaled_ref_layer_offset_present_flag l = map scaled_ref_layer_offset_present_flag l' ->
  map rl_scaled l = map rl_scaled l' -> map ref_region_offset_present_flag l = map ref_region_offset_present_flag l' -> map rl_region l = map rl_region l' ->
  map resample_phase_set_present_flag l = map resample_phase_set_present_flag l' -> map rl_phase l = map rl_phase l' -> l = l'.
Proof.
  induction l as [|a l IH]; intros [|b l'] H1 H2 H3 H4 H5 H6 H7; try discriminate; [reflexivity|]. cbn [map] in *.
  injection H1 as A1 H1. injection H2 as A2 H2. injection H3 as A3 H3. injection H4 as A4 H4. injection H5 as A5 H5. injection H6 as A6 H6. injection H7 as A7 H7.
  f_equal; [|apply IH; assumption]. destruct a, b; cbn in *. congruence.
Qed.
Lemma optf_quad c P o : optf c (is_some (quad_ok P)) None o -> (o = None <-> c = false) /\ (forall x, o = Some x -> quad_ok P x).
Proof.
  destruct c; unfold optf; intros H.
  - destruct o as [y|]; [|destruct H]. split; [split; discriminate|]. intros x E. injection E as <-. exact H.
  - subst. split; [tauto|]. discriminate.
Qed.
Lemma refs_facts n l : Syntax.vec n (ref_loc_ok false) l ->
  (Forall P_u (map ref_loc_offset_layer_id l) /\ Forall P_u (map scaled_ref_layer_offset_present_flag l) /\
   Forall (fun e => rl_scaled e = None <-> nz (scaled_ref_layer_offset_present_flag e) = false) l /\
   Forall (fun e => rl_region e = None <-> nz (ref_region_offset_present_flag e) = false) l /\
   Forall (fun e => rl_phase e = None <-> nz (resample_phase_set_present_flag e) = false) l) /\
  (forall q, q = q_1 \/ q = q_2 \/ q = q_3 \/ q = q_4 -> Forall P_s (col rl_scaled q l) /\ Forall P_s (col rl_region q l) /\ Forall P_s (col rl_phase q l)).
Proof.
  intros [_ F]. split; [split; [|split; [|split; [|split]]]|].
  1-2: induction F as [|e l H F IH]; cbn [map]; constructor; [unfold ref_loc_ok in H; split_ok; prange | exact IH].
  1-3: eapply Forall_impl; [|exact F]; intros e H; unfold ref_loc_ok in H; split_ok;
    match goal with |- ?x = None <-> _ => match goal with K : optf _ _ None x |- _ => apply optf_quad in K; apply K end end.
  intros q Q. split; [|split]; apply col_range; (eapply Forall_impl; [|exact F]); intros e H x E; unfold ref_loc_ok in H; split_ok;
    match type of E with ?y = _ => match goal with K : optf _ _ None y |- _ => apply optf_quad in K; destruct K as [_ K]; specialize (K x E); unfold quad_ok, phase_ok in K; split_ok end end;
    destruct Q as [-> | [-> | [-> | ->]]]; prange.
Qed.
Lemma tells_pps_ml s s' : pps_ml_ext_ok false s -> pps_ml_ext_ok false s' -> tells (text_pps_multilayer s) (text_pps_multilayer s') (s = s').
Proof.
  intros H H'. unfold pps_ml_ext_ok in *. split_ok.
  assert (C0 : i32_det (colour_mapping_enabled_flag s) (colour_mapping_enabled_flag s')) by (intros _; congruence).
  match goal with A : Syntax.vec _ _ (ref_locs s), B : Syntax.vec _ _ (ref_locs s') |- _ => 
    pose proof (refs_facts _ _ A) as [(R1 & R2 & R3 & R4 & R5) R6]; pose proof (refs_facts _ _ B) as [(R1' & R2' & R3' & R4' & R5') R6']; destruct A as [LA _], B as [LB _] end.
  eapply tells_weaken.
  - unfold text_pps_multilayer. cbv zeta. tstep. do 4 (tstep; [solve [tgo]|]). tstep; [|apply tells_fi, C0]. tstep.
    tstep; [apply tells_vec, vdet_u; assumption|]. tstep; [apply tells_vec, vdet_u; assumption|].
    do 4 (tstep; [apply tells_vec, vdet_s; first [apply R6 | apply R6']; tauto|]). tstep; [apply tells_vecu|].
    do 4 (tstep; [apply tells_vec, vdet_s; first [apply R6 | apply R6']; tauto|]). tstep; [apply tells_vecu|].
    do 3 (tstep; [apply tells_vec, vdet_s; first [apply R6 | apply R6']; tauto|]). apply tells_vec, vdet_s; first [apply R6 | apply R6']; tauto.
  - cbv beta. intros (T1 & T2 & T3 & T4 & T5 & T6).
    assert (E : ref_locs s = ref_locs s').
    { destruct (0 <? num_ref_loc_offsets s) eqn:N.
      - specialize (T5 eq_refl). split_ok. apply refs_ext; try assumption; eapply col_inj; eassumption.
      - assert (Z.to_nat (num_ref_loc_offsets s) = 0%nat) by lia. rewrite <- T4 in LB. destruct (ref_locs s), (ref_locs s'); cbn in *; try lia. reflexivity. }
    clear R1 R2 R3 R4 R5 R6 R1' R2' R3' R4' R5' R6' T5 LA LB. destruct s, s'; cbn in *. subst. tfields. reflexivity.
Qed.
(** * pps_scc_extension: without chroma_bit_depth_entry_minus8 *)
Definition pps_scc_shown (s : pps_scc_ext) : pps_scc_ext :=
  mkPSC (pps_curr_pic_ref_enabled_flag s) (residual_adaptive_colour_transform_enabled_flag s) (pps_slice_act_qp_offsets_present_flag s)
    (pps_act_y_qp_offset_plus5 s) (pps_act_cb_qp_offset_plus5 s) (pps_act_cr_qp_offset_plus3 s)
    (pps_palette_predictor_initializer_present_flag s) (pps_num_palette_predictor_initializer s) (monochrome_palette_flag s)
    (luma_bit_depth_entry_minus8 s) 0 (pps_palette_predictor_initializers s).
Lemma entries_range n l c m v : veci n (fun comp => Syntax.vec m (fun v => 1 <= entry_depth l c comp <= 32 /\ u_ok (entry_depth l c comp) v)) v -> Forall (Forall P_u) v.
Proof.
  intros [_ H]. revert H. generalize 0. induction v as [|x v IH]; intros k H; constructor; destruct H as [[_ F] H].
  - eapply Forall_impl; [|exact F]. intros e [D U]. refine (Pu_u _ _ _ U). lia.
  - eapply IH, H.
Qed.
Lemma tells_pps_scc s s' : pps_scc_ext_ok false s -> pps_scc_ext_ok false s' -> tells (text_pps_scc s) (text_pps_scc s') (pps_scc_shown s = pps_scc_shown s').
Proof.
  intros H H'. unfold pps_scc_ext_ok in *. cbv zeta in *. split_ok.
  assert (F : Forall (Forall P_u) (pps_palette_predictor_initializers s)) by (eapply F_optf; [eassumption|]; intros K; apply entries_range in K; assumption).
  assert (F' : Forall (Forall P_u) (pps_palette_predictor_initializers s')) by (eapply F_optf; [eassumption|]; intros K; apply entries_range in K; assumption).
  eapply tells_weaken; [unfold text_pps_scc; tgo; apply tells_vec2; assumption|]. intros T. tuse.
  repeat match goal with X : optf _ _ _ (chroma_bit_depth_entry_minus8 _) |- _ => clear X end. unfold pps_scc_shown. destruct s, s'; cbn in *. subst. tfields. reflexivity.
Qed.

(** * PPS: without diff_cu_qp_delta_depth and the chroma depth of the palette *)
Definition pps_shown (s : pps) : pps := mkPPS (pps_pic_parameter_set_id s) (pps_seq_parameter_set_id s) (dependent_slice_segments_enabled_flag s) (output_flag_present_flag s) (num_extra_slice_header_bits s) (sign_data_hiding_enabled_flag s) (cabac_init_present_flag s) (num_ref_idx_l0_default_active_minus1 s) (num_ref_idx_l1_default_active_minus1 s) (init_qp_minus26 s) (constrained_intra_pred_flag s) (transform_skip_enabled_flag s) (cu_qp_delta_enabled_flag s) 0 (pps_cb_qp_offset s) (pps_cr_qp_offset s) (pps_slice_chroma_qp_offsets_present_flag s) (weighted_pred_flag s) (weighted_bipred_flag s) (transquant_bypass_enabled_flag s) (tiles_enabled_flag s) (entropy_coding_sync_enabled_flag s) (num_tile_columns_minus1 s) (num_tile_rows_minus1 s) (uniform_spacing_flag s) (column_width_minus1 s) (row_height_minus1 s) (loop_filter_across_tiles_enabled_flag s) (pps_loop_filter_across_slices_enabled_flag s) (deblocking_filter_control_present_flag s) (deblocking_filter_override_enabled_flag s) (pps_deblocking_filter_disabled_flag s) (pps_beta_offset_div2 s) (pps_tc_offset_div2 s) (pps_scaling_list_data_present_flag s) (option_map sld_stored (pps_scaling_list_data s)) (lists_modification_present_flag s) (log2_parallel_merge_level_minus2 s) (slice_segment_header_extension_present_flag s) (pps_extension_present_flag s) (pps_range_extension_flag s) (pps_multilayer_extension_flag s) (pps_3d_extension_flag s) (pps_scc_extension_flag s) (pps_extension_4bits s) (pps_multilayer_extension s) (option_map pps_scc_shown (pps_scc_extension s)).
Lemma tells_checked_map {A B} (g : A -> B) (p p' : option A) d d' (P P' : A -> Prop) : is_some P p -> is_some P' p' ->
  (forall a a', P a -> P' a' -> tells (d a) (d' a') (g a = g a')) -> tells (tchecked p d) (tchecked p' d') (option_map g p = option_map g p').
Proof.
  intros H H' D. destruct p as [a|]; [|destruct H]. destruct p' as [a'|]; [|destruct H']. cbn [tchecked]. eapply tells_weaken; [apply D; assumption|]. intros E. cbn [option_map]. congruence.
Qed.
Lemma tells_ml o o' : ml_out o -> ml_out o' -> tells (tderef o text_pps_multilayer) (tderef o' text_pps_multilayer) (o = o').
Proof.
  intros H H'. destruct o as [a|], o' as [a'|]; try (intros c c' r r' E E'; discriminate). cbn [tderef ml_out] in *. eapply tells_weaken; [apply tells_pps_ml; assumption|]. congruence.
Qed.
Ltac optf_at H := match type of H with optf ?c _ _ _ => let K := fresh in assert (K : c = true) by ctrue; rewrite K in H; exact H end.
Ltac tspecial ::= lazymatch goal with
  | |- tells (fi _ (pps_range_extension_flag _)) _ _ => apply tells_fi; assumption
  | |- tells (fi _ (pps_3d_extension_flag _)) _ _ => apply tells_fi; assumption
  | |- tells (tchecked _ (fun d => sub (text_scaling_list_data d))) _ _ => eapply (tells_checked_map sld_stored); [isome | isome | cbv beta; intros ? ? ? ?; apply tells_sub, tells_sld; assumption]
  | |- tells (tderef _ text_pps_scc) _ _ => eapply (tells_deref_map pps_scc_shown); [isome | isome | cbv beta; intros ? ? ? ?; apply tells_pps_scc; assumption]
  | |- tells (tderef ?o text_pps_multilayer) (tderef ?o' _) _ => apply tells_ml; [match goal with H : optf _ ml_out None o |- _ => optf_at H end | match goal with H : optf _ ml_out None o' |- _ => optf_at H end]
  | |- tells (tif _ _) _ _ => apply tells_tif2; [tcond | let C := fresh "C" in intros C; let C' := fresh "C" in intros C']
  end.
Lemma tells_pps s s' : pps_ok_out s -> pps_ok_out s' -> tells (text_pps s) (text_pps s') (pps_shown s = pps_shown s').
Proof.
  intros H H'. unfold pps_ok_out, pps_ok in *. cbv zeta in *. split_ok.
  assert (D1 : i32_det (pps_range_extension_flag s) (pps_range_extension_flag s')) by (intros _; congruence).
  assert (D2 : i32_det (pps_3d_extension_flag s) (pps_3d_extension_flag s')) by (intros _; congruence).
  assert (G1 : pps_range_extension_flag s = pps_range_extension_flag s') by congruence. assert (G2 : pps_3d_extension_flag s = pps_3d_extension_flag s') by congruence.
  eapply tells_weaken; [unfold text_pps; tgo|].
  cbv beta. intros T. tuse.
  assert (OM : forall A B (g : A -> B) c c' P P' (o o' : option A), optf c P None o -> optf c' P' None o' -> c = c' -> (c = true -> option_map g o = option_map g o') -> option_map g o = option_map g o').
  { intros A B g c c' P P' o o' X X' <- G. destruct c; unfold optf in *; [auto | subst; reflexivity]. }
  assert (EX : pps_scc_extension_flag s = pps_scc_extension_flag s').
  { match goal with P : optf _ _ 0 (pps_scc_extension_flag s), P' : optf _ _ 0 (pps_scc_extension_flag s') |- _ => apply (optf_eq2 _ _ _ _ _ _ _ P P'); [apply f_equal; assumption | intros C; tuse; assumption] end. }
  assert (EC : option_map pps_scc_shown (pps_scc_extension s) = option_map pps_scc_shown (pps_scc_extension s')).
  { match goal with P : optf _ _ None (pps_scc_extension s), P' : optf _ _ None (pps_scc_extension s') |- _ => eapply (OM _ _ _ _ _ _ _ _ _ P P'); [apply f_equal; assumption | assumption] end. }
  assert (ED : option_map sld_stored (pps_scaling_list_data s) = option_map sld_stored (pps_scaling_list_data s')).
  { match goal with P : optf _ _ None (pps_scaling_list_data s), P' : optf _ _ None (pps_scaling_list_data s') |- _ => eapply (OM _ _ _ _ _ _ _ _ _ P P'); [apply f_equal; assumption | assumption] end. }
  clear OM D1 D2. repeat match goal with X : optf _ _ _ (diff_cu_qp_delta_depth _) |- _ => clear X | X : optf _ _ _ (pps_scc_extension _) |- _ => clear X | X : optf _ _ _ (pps_scaling_list_data _) |- _ => clear X end.
  unfold pps_shown. rewrite EC, ED. clear EC ED. destruct s, s'; cbn in *. subst. tfields. reflexivity.
Qed.
