(** Layout and ranges of pic_parameter_set_rbsp (7.3.2.3, 7.4.3.3) and of its multilayer (F.7.3.2.3.4) and SCC (7.3.2.3.3) extensions. *)
From Coq Require Import ZArith List Bool.
From Verif Require Import MBase Spec Rules ReaderFacts Syntax SyntaxSe MSyntaxA SpecA MSyntaxB SpecB MPps.
Import ListNotations.
Open Scope Z_scope.

(** * pps_multilayer_extension *)
(** Four values coded with [enc]. *)
Definition enc_quad (enc : Z -> list bool) (q : quad) : list bool := concat [enc (q_1 q); enc (q_2 q); enc (q_3 q); enc (q_4 q)].
Definition quad_ok (P : Z -> Prop) (q : quad) : Prop := P (q_1 q) /\ P (q_2 q) /\ P (q_3 q) /\ P (q_4 q).
(** [std]: phases are ue(v) in the standard, se(v) in the code. *)
Definition enc_phase (std : bool) : Z -> list bool := if std then enc_ue else enc_se.
Definition phase_ok (std : bool) : Z -> Prop := if std then ue_ok else se_ok.
Definition enc_ref_loc (std : bool) (r : ref_loc) : list bool :=
  concat
  [ enc_u 6 (ref_loc_offset_layer_id r);
    enc_u 1 (scaled_ref_layer_offset_present_flag r);
    opt (nz (scaled_ref_layer_offset_present_flag r)) (enc_opt (enc_quad enc_se) (rl_scaled r));
    enc_u 1 (ref_region_offset_present_flag r);
    opt (nz (ref_region_offset_present_flag r)) (enc_opt (enc_quad enc_se) (rl_region r));
    enc_u 1 (resample_phase_set_present_flag r);
    opt (nz (resample_phase_set_present_flag r)) (enc_opt (enc_quad (enc_phase std)) (rl_phase r)) ].
Definition ref_loc_ok (std : bool) (r : ref_loc) : Prop :=
  u_ok 6 (ref_loc_offset_layer_id r) /\
  u_ok 1 (scaled_ref_layer_offset_present_flag r) /\
  optf (nz (scaled_ref_layer_offset_present_flag r)) (is_some (quad_ok se_ok)) None (rl_scaled r) /\
  u_ok 1 (ref_region_offset_present_flag r) /\
  optf (nz (ref_region_offset_present_flag r)) (is_some (quad_ok se_ok)) None (rl_region r) /\
  u_ok 1 (resample_phase_set_present_flag r) /\
  optf (nz (resample_phase_set_present_flag r)) (is_some (quad_ok (phase_ok std))) None (rl_phase r).
(** Without colour_mapping_table(): colour_mapping_enabled_flag is 0. *)
Definition enc_pps_ml_ext (std : bool) (s : pps_ml_ext) : list bool :=
  concat
  [ enc_u 1 (poc_reset_info_present_flag s);
    enc_u 1 (pps_infer_scaling_list_flag s);
    opt (nz (pps_infer_scaling_list_flag s)) (enc_u 6 (pps_scaling_list_ref_layer_id s));
    enc_ue (num_ref_loc_offsets s);
    flat_map (enc_ref_loc std) (ref_locs s);
    enc_u 1 (colour_mapping_enabled_flag s) ].
Definition pps_ml_ext_ok (std : bool) (s : pps_ml_ext) : Prop :=
  u_ok 1 (poc_reset_info_present_flag s) /\
  u_ok 1 (pps_infer_scaling_list_flag s) /\
  optf (nz (pps_infer_scaling_list_flag s)) (u_ok 6) 0 (pps_scaling_list_ref_layer_id s) /\
  ue_ok (num_ref_loc_offsets s) /\
  vec (num_ref_loc_offsets s) (ref_loc_ok std) (ref_locs s) /\
  colour_mapping_enabled_flag s = 0.

(** * pps_scc_extension *)
(** chroma_bit_depth_entry_minus8 is present if !monochrome_palette_flag in the standard, if monochrome_palette_flag in the code. *)
Definition chroma_depth_present (std : bool) (mono : Z) : bool := if std then negb (nz mono) else nz mono.
(** Depth of a palette entry: minus8 + 8 modulo 2^32 (wraps only for values no standard stream has). *)
Definition entry_depth (luma8 chroma8 comp : Z) : Z := u32 ((if comp =? 0 then luma8 else chroma8) + 8).
Definition enc_pps_scc_ext (std : bool) (s : pps_scc_ext) : list bool :=
  let act := nz (residual_adaptive_colour_transform_enabled_flag s) in
  let pal := nz (pps_palette_predictor_initializer_present_flag s) && (0 <? pps_num_palette_predictor_initializer s) in
  concat
  [ enc_u 1 (pps_curr_pic_ref_enabled_flag s);
    enc_u 1 (residual_adaptive_colour_transform_enabled_flag s);
    opt act (enc_u 1 (pps_slice_act_qp_offsets_present_flag s));
    opt act (enc_se (pps_act_y_qp_offset_plus5 s));
    opt act (enc_se (pps_act_cb_qp_offset_plus5 s));
    opt act (enc_se (pps_act_cr_qp_offset_plus3 s));
    enc_u 1 (pps_palette_predictor_initializer_present_flag s);
    opt (nz (pps_palette_predictor_initializer_present_flag s)) (enc_ue (pps_num_palette_predictor_initializer s));
    opt pal (enc_u 1 (monochrome_palette_flag s));
    opt pal (enc_ue (luma_bit_depth_entry_minus8 s));
    opt (pal && chroma_depth_present std (monochrome_palette_flag s)) (enc_ue (chroma_bit_depth_entry_minus8 s));
    opt pal (enc_from 0 (fun comp => flat_map (enc_u (Z.to_nat (entry_depth (luma_bit_depth_entry_minus8 s) (chroma_bit_depth_entry_minus8 s) comp))))
               (pps_palette_predictor_initializers s)) ].
(** [D]: condition on the depths: 1 to 32 bits. *)
Definition pps_scc_ext_ok (std : bool) (s : pps_scc_ext) : Prop :=
  let act := nz (residual_adaptive_colour_transform_enabled_flag s) in
  let pal := nz (pps_palette_predictor_initializer_present_flag s) && (0 <? pps_num_palette_predictor_initializer s) in
  let depth := entry_depth (luma_bit_depth_entry_minus8 s) (chroma_bit_depth_entry_minus8 s) in
  u_ok 1 (pps_curr_pic_ref_enabled_flag s) /\
  u_ok 1 (residual_adaptive_colour_transform_enabled_flag s) /\
  optf act (u_ok 1) 0 (pps_slice_act_qp_offsets_present_flag s) /\
  optf act se_ok 0 (pps_act_y_qp_offset_plus5 s) /\
  optf act se_ok 0 (pps_act_cb_qp_offset_plus5 s) /\
  optf act se_ok 0 (pps_act_cr_qp_offset_plus3 s) /\
  u_ok 1 (pps_palette_predictor_initializer_present_flag s) /\
  optf (nz (pps_palette_predictor_initializer_present_flag s)) ue_ok 0 (pps_num_palette_predictor_initializer s) /\
  optf pal (u_ok 1) 0 (monochrome_palette_flag s) /\
  optf pal ue_ok 0 (luma_bit_depth_entry_minus8 s) /\
  optf (pal && chroma_depth_present std (monochrome_palette_flag s)) ue_ok 0 (chroma_bit_depth_entry_minus8 s) /\
  optf pal (veci (if nz (monochrome_palette_flag s) then 1 else 3)
              (fun comp => vec (pps_num_palette_predictor_initializer s) (fun v => 1 <= depth comp <= 32 /\ u_ok (depth comp) v)))
       [] (pps_palette_predictor_initializers s).

(** * pic_parameter_set_rbsp *)
Definition enc_pps (std : bool) (s : pps) : list bool :=
  let tiles := nz (tiles_enabled_flag s) in
  let dbc := nz (deblocking_filter_control_present_flag s) in
  let ext := nz (pps_extension_present_flag s) in
  concat
  [ enc_ue (pps_pic_parameter_set_id s);
    enc_ue (pps_seq_parameter_set_id s);
    enc_u 1 (dependent_slice_segments_enabled_flag s);
    enc_u 1 (output_flag_present_flag s);
    enc_u 3 (num_extra_slice_header_bits s);
    enc_u 1 (sign_data_hiding_enabled_flag s);
    enc_u 1 (cabac_init_present_flag s);
    enc_ue (num_ref_idx_l0_default_active_minus1 s);
    enc_ue (num_ref_idx_l1_default_active_minus1 s);
    enc_se (init_qp_minus26 s);
    enc_u 1 (constrained_intra_pred_flag s);
    enc_u 1 (transform_skip_enabled_flag s);
    enc_u 1 (cu_qp_delta_enabled_flag s);
    opt (nz (cu_qp_delta_enabled_flag s)) (enc_ue (diff_cu_qp_delta_depth s));
    enc_se (pps_cb_qp_offset s);
    enc_se (pps_cr_qp_offset s);
    enc_u 1 (pps_slice_chroma_qp_offsets_present_flag s);
    enc_u 1 (weighted_pred_flag s);
    enc_u 1 (weighted_bipred_flag s);
    enc_u 1 (transquant_bypass_enabled_flag s);
    enc_u 1 (tiles_enabled_flag s);
    enc_u 1 (entropy_coding_sync_enabled_flag s);
    opt tiles (enc_ue (num_tile_columns_minus1 s));
    opt tiles (enc_ue (num_tile_rows_minus1 s));
    opt tiles (enc_u 1 (uniform_spacing_flag s));
    opt (tiles && negb (nz (uniform_spacing_flag s))) (flat_map enc_ue (column_width_minus1 s));
    opt (tiles && negb (nz (uniform_spacing_flag s))) (flat_map enc_ue (row_height_minus1 s));
    opt tiles (enc_u 1 (loop_filter_across_tiles_enabled_flag s));
    enc_u 1 (pps_loop_filter_across_slices_enabled_flag s);
    enc_u 1 (deblocking_filter_control_present_flag s);
    opt dbc (enc_u 1 (deblocking_filter_override_enabled_flag s));
    opt dbc (enc_u 1 (pps_deblocking_filter_disabled_flag s));
    opt (dbc && negb (nz (pps_deblocking_filter_disabled_flag s))) (enc_se (pps_beta_offset_div2 s));
    opt (dbc && negb (nz (pps_deblocking_filter_disabled_flag s))) (enc_se (pps_tc_offset_div2 s));
    enc_u 1 (pps_scaling_list_data_present_flag s);
    opt (nz (pps_scaling_list_data_present_flag s)) (enc_opt enc_scaling_list_data (pps_scaling_list_data s));
    enc_u 1 (lists_modification_present_flag s);
    enc_ue (log2_parallel_merge_level_minus2 s);
    enc_u 1 (slice_segment_header_extension_present_flag s);
    enc_u 1 (pps_extension_present_flag s);
    opt ext (enc_u 1 (pps_range_extension_flag s));
    opt ext (enc_u 1 (pps_multilayer_extension_flag s));
    opt ext (enc_u 1 (pps_3d_extension_flag s));
    opt ext (enc_u 1 (pps_scc_extension_flag s));
    opt ext (enc_u 4 (pps_extension_4bits s));
    opt (nz (pps_multilayer_extension_flag s)) (enc_opt (enc_pps_ml_ext std) (pps_multilayer_extension s));
    opt (nz (pps_scc_extension_flag s)) (enc_opt (enc_pps_scc_ext std) (pps_scc_extension s)) ].

(** Ranges, for PPSs without range and 3D extensions.  [SE]: range of the se(v) values in scaling lists; [ML]: condition on
    pps_multilayer_extension() when pps_multilayer_extension_flag is set. *)
Definition pps_ok (std : bool) (SE : Z -> Prop) (ML : option pps_ml_ext -> Prop) (s : pps) : Prop :=
  let tiles := nz (tiles_enabled_flag s) in
  let dbc := nz (deblocking_filter_control_present_flag s) in
  let ext := nz (pps_extension_present_flag s) in
  ue_ok (pps_pic_parameter_set_id s) /\
  ue_ok (pps_seq_parameter_set_id s) /\
  u_ok 1 (dependent_slice_segments_enabled_flag s) /\
  u_ok 1 (output_flag_present_flag s) /\
  u_ok 3 (num_extra_slice_header_bits s) /\
  u_ok 1 (sign_data_hiding_enabled_flag s) /\
  u_ok 1 (cabac_init_present_flag s) /\
  ue_ok (num_ref_idx_l0_default_active_minus1 s) /\
  ue_ok (num_ref_idx_l1_default_active_minus1 s) /\
  se_ok (init_qp_minus26 s) /\
  u_ok 1 (constrained_intra_pred_flag s) /\
  u_ok 1 (transform_skip_enabled_flag s) /\
  u_ok 1 (cu_qp_delta_enabled_flag s) /\
  optf (nz (cu_qp_delta_enabled_flag s)) ue_ok 0 (diff_cu_qp_delta_depth s) /\
  se_ok (pps_cb_qp_offset s) /\
  se_ok (pps_cr_qp_offset s) /\
  u_ok 1 (pps_slice_chroma_qp_offsets_present_flag s) /\
  u_ok 1 (weighted_pred_flag s) /\
  u_ok 1 (weighted_bipred_flag s) /\
  u_ok 1 (transquant_bypass_enabled_flag s) /\
  u_ok 1 (tiles_enabled_flag s) /\
  u_ok 1 (entropy_coding_sync_enabled_flag s) /\
  optf tiles ue_ok 0 (num_tile_columns_minus1 s) /\
  optf tiles ue_ok 0 (num_tile_rows_minus1 s) /\
  optf tiles (u_ok 1) 0 (uniform_spacing_flag s) /\
  optf (tiles && negb (nz (uniform_spacing_flag s))) (vec (num_tile_columns_minus1 s) ue_ok) [] (column_width_minus1 s) /\
  optf (tiles && negb (nz (uniform_spacing_flag s))) (vec (num_tile_rows_minus1 s) ue_ok) [] (row_height_minus1 s) /\
  optf tiles (u_ok 1) 0 (loop_filter_across_tiles_enabled_flag s) /\
  u_ok 1 (pps_loop_filter_across_slices_enabled_flag s) /\
  u_ok 1 (deblocking_filter_control_present_flag s) /\
  optf dbc (u_ok 1) 0 (deblocking_filter_override_enabled_flag s) /\
  optf dbc (u_ok 1) 0 (pps_deblocking_filter_disabled_flag s) /\
  optf (dbc && negb (nz (pps_deblocking_filter_disabled_flag s))) se_ok 0 (pps_beta_offset_div2 s) /\
  optf (dbc && negb (nz (pps_deblocking_filter_disabled_flag s))) se_ok 0 (pps_tc_offset_div2 s) /\
  u_ok 1 (pps_scaling_list_data_present_flag s) /\
  optf (nz (pps_scaling_list_data_present_flag s)) (is_some (scaling_list_data_ok SE)) None (pps_scaling_list_data s) /\
  u_ok 1 (lists_modification_present_flag s) /\
  ue_ok (log2_parallel_merge_level_minus2 s) /\
  u_ok 1 (slice_segment_header_extension_present_flag s) /\
  u_ok 1 (pps_extension_present_flag s) /\
  pps_range_extension_flag s = 0 /\
  optf ext (u_ok 1) 0 (pps_multilayer_extension_flag s) /\
  pps_3d_extension_flag s = 0 /\
  optf ext (u_ok 1) 0 (pps_scc_extension_flag s) /\
  optf ext (u_ok 4) 0 (pps_extension_4bits s) /\
  optf (nz (pps_multilayer_extension_flag s)) ML None (pps_multilayer_extension s) /\
  optf (nz (pps_scc_extension_flag s)) (is_some (pps_scc_ext_ok std)) None (pps_scc_extension s).
