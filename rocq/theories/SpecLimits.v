(** The syntax of an SPS with nothing but the ranges of its descriptors (u(n), ue(v)), and, apart from it, the limits that the text of the standard
    puts on the values.  Written from 7.4.3.2, 7.4.3.3, 7.4.8, E.3.1 and A.4; the parser's own limits do not occur here. *)
From Coq Require Import ZArith List Bool Lia.
From Verif Require Import MBase Spec Rules ReaderFacts Syntax SyntaxSe MSyntaxA SpecA MSyntaxB SpecB MSps SpecSps.
Import ListNotations.
Open Scope Z_scope.

(** * Syntax: 7.3.2.2.1, 7.3.2.2.3, E.2.1 *)
Definition ordering_syntax (o : ordering_info) : Prop := ue_ok (max_dec_pic_buffering_minus1 o) /\ ue_ok (max_num_reorder_pics o) /\ ue_ok (max_latency_increase_plus1 o).
Definition vui_syntax (max_sub : Z) (s : vui) : Prop :=
  let ar := nz (aspect_ratio_info_present_flag s) in
  let vs := nz (video_signal_type_present_flag s) in
  let cd := vs && nz (colour_description_present_flag s) in
  let cl := nz (chroma_loc_info_present_flag s) in
  let dw := nz (default_display_window_flag s) in
  let ti := nz (vui_timing_info_present_flag s) in
  let br := nz (bitstream_restriction_flag s) in
  u_ok 1 (aspect_ratio_info_present_flag s) /\
  optf ar (u_ok 8) 0 (aspect_ratio_idc s) /\
  optf (ar && (aspect_ratio_idc s =? 255)) (u_ok 16) 0 (sar_width s) /\
  optf (ar && (aspect_ratio_idc s =? 255)) (u_ok 16) 0 (sar_height s) /\
  u_ok 1 (overscan_info_present_flag s) /\
  optf (nz (overscan_info_present_flag s)) (u_ok 1) 0 (overscan_appropriate_flag s) /\
  u_ok 1 (video_signal_type_present_flag s) /\
  optf vs (u_ok 3) 0 (video_format s) /\
  optf vs (u_ok 1) 0 (video_full_range_flag s) /\
  optf vs (u_ok 1) 0 (colour_description_present_flag s) /\
  optf cd (u_ok 8) 0 (colour_primaries s) /\
  optf cd (u_ok 8) 0 (transfer_characteristics s) /\
  optf cd (u_ok 8) 0 (matrix_coeffs s) /\
  u_ok 1 (chroma_loc_info_present_flag s) /\
  optf cl ue_ok 0 (chroma_sample_loc_type_top_field s) /\
  optf cl ue_ok 0 (chroma_sample_loc_type_bottom_field s) /\
  u_ok 1 (neutral_chroma_indication_flag s) /\
  u_ok 1 (field_seq_flag s) /\
  u_ok 1 (frame_field_info_present_flag s) /\
  u_ok 1 (default_display_window_flag s) /\
  optf dw ue_ok 0 (def_disp_win_left_offset s) /\
  optf dw ue_ok 0 (def_disp_win_right_offset s) /\
  optf dw ue_ok 0 (def_disp_win_top_offset s) /\
  optf dw ue_ok 0 (def_disp_win_bottom_offset s) /\
  u_ok 1 (vui_timing_info_present_flag s) /\
  optf ti (u_ok 32) 0 (vui_num_units_in_tick s) /\
  optf ti (u_ok 32) 0 (vui_time_scale s) /\
  optf ti (u_ok 1) 0 (vui_poc_proportional_to_timing_flag s) /\
  optf (ti && nz (vui_poc_proportional_to_timing_flag s)) ue_ok 0 (vui_num_ticks_poc_diff_one_minus1 s) /\
  optf ti (u_ok 1) 0 (vui_hrd_parameters_present_flag s) /\
  optf (ti && nz (vui_hrd_parameters_present_flag s)) (is_some (hrd_ok 1 1 max_sub)) None (vui_hrd_parameters s) /\
  u_ok 1 (bitstream_restriction_flag s) /\
  optf br (u_ok 1) 0 (tiles_fixed_structure_flag s) /\
  optf br (u_ok 1) 0 (motion_vectors_over_pic_boundaries_flag s) /\
  optf br (u_ok 1) 0 (restricted_ref_pic_lists_flag s) /\
  optf br ue_ok 0 (min_spatial_segmentation_idc s) /\
  optf br ue_ok 0 (max_bytes_per_pic_denom s) /\
  optf br ue_ok 0 (max_bits_per_min_cu_denom s) /\
  optf br ue_ok 0 (log2_max_mv_length_horizontal s) /\
  optf br ue_ok 0 (log2_max_mv_length_vertical s).
Definition scc_syntax (chroma_format_idc luma8 chroma8 : Z) (s : sps_scc_ext) : Prop :=
  let pal := nz (palette_mode_enabled_flag s) in
  let pi := pal && nz (sps_palette_predictor_initializers_present_flag s) in
  u_ok 1 (sps_curr_pic_ref_enabled_flag s) /\
  u_ok 1 (palette_mode_enabled_flag s) /\
  optf pal ue_ok 0 (palette_max_size s) /\
  optf pal ue_ok 0 (delta_palette_max_predictor_size s) /\
  optf pal (u_ok 1) 0 (sps_palette_predictor_initializers_present_flag s) /\
  optf pi ue_ok 0 (sps_num_palette_predictor_initializers_minus1 s) /\
  optf pi (veci (if chroma_format_idc =? 0 then 1 else 3)
             (fun comp => vec (sps_num_palette_predictor_initializers_minus1 s + 1) (u_ok (comp_depth luma8 chroma8 comp))))
       [] (sps_palette_predictor_initializers s) /\
  u_ok 2 (motion_vector_resolution_control_idc s) /\
  u_ok 1 (intra_boundary_filtering_disabled_flag s).
(** The layout of the standard; the scaling lists and the candidate short-term sets as in SpecSps.v, with the ranges of 7.4.5 and 7.4.8 *)
Definition sps_syntax (s : sps) : Prop :=
  let conf := nz (conformance_window_flag s) in
  let pcm := nz (pcm_enabled_flag s) in
  let ext := nz (sps_extension_present_flag s) in
  let msub := sps_max_sub_layers_minus1 s in
  u_ok 4 (sps_video_parameter_set_id s) /\
  u_ok 3 msub /\
  u_ok 1 (sps_temporal_id_nesting_flag s) /\
  ptl_ok true true msub (sps_profile_tier_level s) /\
  ue_ok (sps_seq_parameter_set_id s) /\
  ue_ok (chroma_format_idc s) /\
  optf (chroma_format_idc s =? 3) (u_ok 1) 0 (separate_colour_plane_flag s) /\
  ue_ok (pic_width_in_luma_samples s) /\
  ue_ok (pic_height_in_luma_samples s) /\
  u_ok 1 (conformance_window_flag s) /\
  optf conf ue_ok 0 (conf_win_left_offset s) /\
  optf conf ue_ok 0 (conf_win_right_offset s) /\
  optf conf ue_ok 0 (conf_win_top_offset s) /\
  optf conf ue_ok 0 (conf_win_bottom_offset s) /\
  ue_ok (bit_depth_luma_minus8 s) /\
  ue_ok (bit_depth_chroma_minus8 s) /\
  ue_ok (log2_max_pic_order_cnt_lsb_minus4 s) /\
  u_ok 1 (sps_sub_layer_ordering_info_present_flag s) /\
  vec (if nz (sps_sub_layer_ordering_info_present_flag s) then msub + 1 else 1) ordering_syntax (sps_ordering s) /\
  ue_ok (log2_min_luma_coding_block_size_minus3 s) /\
  ue_ok (log2_diff_max_min_luma_coding_block_size s) /\
  ue_ok (log2_min_luma_transform_block_size_minus2 s) /\
  ue_ok (log2_diff_max_min_luma_transform_block_size s) /\
  ue_ok (max_transform_hierarchy_depth_inter s) /\
  ue_ok (max_transform_hierarchy_depth_intra s) /\
  u_ok 1 (scaling_list_enabled_flag s) /\
  optf (nz (scaling_list_enabled_flag s)) (u_ok 1) 0 (sps_scaling_list_data_present_flag s) /\
  optf (nz (scaling_list_enabled_flag s) && nz (sps_scaling_list_data_present_flag s)) (is_some (scaling_list_data_ok (fun v => -128 <= v <= 247))) None (sps_scaling_list_data s) /\
  u_ok 1 (amp_enabled_flag s) /\
  u_ok 1 (sample_adaptive_offset_enabled_flag s) /\
  u_ok 1 (pcm_enabled_flag s) /\
  optf pcm (u_ok 4) 0 (pcm_sample_bit_depth_luma_minus1 s) /\
  optf pcm (u_ok 4) 0 (pcm_sample_bit_depth_chroma_minus1 s) /\
  optf pcm ue_ok 0 (log2_min_pcm_luma_coding_block_size_minus3 s) /\
  optf pcm ue_ok 0 (log2_diff_max_min_pcm_luma_coding_block_size s) /\
  optf pcm (u_ok 1) 0 (pcm_loop_filter_disabled_flag s) /\
  ue_ok (num_short_term_ref_pic_sets s) /\
  rps_sets_std (num_short_term_ref_pic_sets s) (sps_st_ref_pic_set s) /\
  u_ok 1 (long_term_ref_pics_present_flag s) /\
  optf (nz (long_term_ref_pics_present_flag s)) ue_ok 0 (num_long_term_ref_pics_sps s) /\
  optf (nz (long_term_ref_pics_present_flag s)) (vec (num_long_term_ref_pics_sps s) (lt_ok (log2_max_pic_order_cnt_lsb_minus4 s))) [] (sps_lt s) /\
  u_ok 1 (sps_temporal_mvp_enabled_flag s) /\
  u_ok 1 (strong_intra_smoothing_enabled_flag s) /\
  u_ok 1 (vui_parameters_present_flag s) /\
  optf (nz (vui_parameters_present_flag s)) (is_some (vui_syntax msub)) None (sps_vui_parameters s) /\
  u_ok 1 (sps_extension_present_flag s) /\
  optf ext (u_ok 1) 0 (sps_range_extension_flag s) /\
  optf ext (u_ok 1) 0 (sps_multilayer_extension_flag s) /\
  optf ext (u_ok 1) 0 (sps_3d_extension_flag s) /\
  optf ext (u_ok 1) 0 (sps_scc_extension_flag s) /\
  optf ext (u_ok 4) 0 (sps_extension_4bits s) /\
  optf (nz (sps_range_extension_flag s)) (is_some sps_range_ext_ok) None (sps_range_extension s) /\
  optf (nz (sps_multilayer_extension_flag s)) (is_some (u_ok 1)) None (sps_multilayer_extension s) /\
  optf (nz (sps_3d_extension_flag s)) (is_some sps_3d_ext_ok) None (sps_3d_extension s) /\
  optf (nz (sps_scc_extension_flag s))
    (is_some (scc_syntax (chroma_format_idc s) (bit_depth_luma_minus8 s) (bit_depth_chroma_minus8 s))) None (sps_scc_extension s).

(** * Limits *)
(** MaxLumaPs, Table A.8: levels 1; 2; 2.1; 3; 3.1; 4 and 4.1; 5 to 5.2; 6 to 6.2 *)
Definition MaxLumaPs_values : list Z := [36864; 122880; 245760; 552960; 983040; 2228224; 8912896; 35651584].
(** A.4.2, with maxDpbPicBuf = 6 *)
Definition MaxDpbSize (MaxLumaPs size : Z) : Z :=
  if size <=? MaxLumaPs / 4 then Z.min (4 * 6) 16 else if size <=? MaxLumaPs / 2 then Z.min (2 * 6) 16 else if size <=? 3 * MaxLumaPs / 4 then Z.min (4 * 6 / 3) 16 else 6.
(** A.4.1 a), b) and c), A.4.2, and 7.4.3.2.1: pic_width/height_in_luma_samples, conformance window, sps_max_dec_pic_buffering_minus1 *)
Definition within_level (MaxLumaPs : Z) (s : sps) : Prop :=
  let w := pic_width_in_luma_samples s in
  let h := pic_height_in_luma_samples s in
  w * h <= MaxLumaPs /\ w * w <= 8 * MaxLumaPs /\ h * h <= 8 * MaxLumaPs /\
  Forall (fun o => max_dec_pic_buffering_minus1 o <= MaxDpbSize MaxLumaPs (w * h) - 1) (sps_ordering s).
(** E.3.1 *)
Definition vui_limits (s : sps) (v : vui) : Prop :=
  chroma_sample_loc_type_top_field v <= 5 /\ chroma_sample_loc_type_bottom_field v <= 5 /\
  SubWidthC s * (conf_win_left_offset s + def_disp_win_left_offset v + (conf_win_right_offset s + def_disp_win_right_offset v)) < pic_width_in_luma_samples s /\
  SubHeightC s * (conf_win_top_offset s + def_disp_win_top_offset v + (conf_win_bottom_offset s + def_disp_win_bottom_offset v)) < pic_height_in_luma_samples s /\
  min_spatial_segmentation_idc v <= 4095 /\ max_bytes_per_pic_denom v <= 16 /\ max_bits_per_min_cu_denom v <= 16 /\
  log2_max_mv_length_horizontal v <= 15 /\ log2_max_mv_length_vertical v <= 15.
(** 7.4.3.2.3 and the limits of the screen content coding profiles (A.3.7) *)
Definition scc_limits (e : sps_scc_ext) : Prop :=
  let PaletteMaxPredictorSize := palette_max_size e + delta_palette_max_predictor_size e in
  palette_max_size e <= 64 /\ PaletteMaxPredictorSize <= 128 /\
  (sps_palette_predictor_initializers_present_flag e = 1 -> sps_num_palette_predictor_initializers_minus1 e + 1 <= PaletteMaxPredictorSize).
Definition sps_limits (s : sps) : Prop :=
  sps_seq_parameter_set_id s <= 15 /\ chroma_format_idc s <= 3 /\
  0 < pic_width_in_luma_samples s /\ (MinCbSize s | pic_width_in_luma_samples s) /\
  0 < pic_height_in_luma_samples s /\ (MinCbSize s | pic_height_in_luma_samples s) /\
  SubWidthC s * (conf_win_left_offset s + conf_win_right_offset s) < pic_width_in_luma_samples s /\
  SubHeightC s * (conf_win_top_offset s + conf_win_bottom_offset s) < pic_height_in_luma_samples s /\
  bit_depth_luma_minus8 s <= 8 /\ bit_depth_chroma_minus8 s <= 8 /\ log2_max_pic_order_cnt_lsb_minus4 s <= 12 /\
  (* CtbLog2SizeY of 4 to 6 (A.3) *)
  4 <= log2_min_luma_coding_block_size_minus3 s + 3 + log2_diff_max_min_luma_coding_block_size s <= 6 /\
  num_short_term_ref_pic_sets s <= 64 /\ num_long_term_ref_pics_sps s <= 32 /\
  (forall v, sps_vui_parameters s = Some v -> vui_limits s v) /\
  (forall e, sps_scc_extension s = Some e -> scc_limits e).
(** An SPS of the standard for a level up to 6.2 *)
Definition sps_of_level (s : sps) : Prop := sps_syntax s /\ sps_limits s /\ exists M, In M MaxLumaPs_values /\ within_level M s.
