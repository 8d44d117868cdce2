(** Syntax tables of H.265 as encoders, and field ranges: nal_unit_header (7.3.1.2),
    access_unit_delimiter_rbsp (7.3.2.5), profile_tier_level (7.3.3), hrd_parameters (E.2.2, E.2.3),
    vui_parameters (E.2.1).  [enc_x s] is the list of bits the standard prescribes for the structure
    [s]; [x_ok s] says that every field is in the range of its descriptor when present and has its
    default value when absent.
    Where the code deviates from the standard the encoder takes a parameter that selects one or the
    other. *)
From Coq Require Import ZArith List Bool.
From Verif Require Import MBase Spec Rules Syntax MSyntaxA.
Import ListNotations.
Open Scope Z_scope.

(** 7.3.1.2 *)
Definition enc_nal_header (h : nal_header) : list bool := concat
  [ enc_u 1 (forbidden_zero_bit h);
    enc_u 6 (nal_unit_type h);
    enc_u 6 (nuh_layer_id h);
    enc_u 3 (nuh_temporal_id_plus1 h) ].
Definition nal_header_ok (h : nal_header) : Prop :=
  u_ok 1 (forbidden_zero_bit h) /\ u_ok 6 (nal_unit_type h) /\ u_ok 6 (nuh_layer_id h) /\
  u_ok 3 (nuh_temporal_id_plus1 h).

(** 7.3.3, the 88 bits of profile information of the general or of a sub-layer part.  The standard's
    conditions "general_profile_idc == j || general_profile_compatibility_flag[j]". *)
Definition prof (s : profile_info) (js : list Z) : bool :=
  existsb (fun j => (profile_idc s =? j) || (znth (profile_compatibility_flag s) j 0 =? 1)) js.
Definition prof_range_ext s := prof s [4; 5; 6; 7; 8; 9; 10; 11].
Definition prof_high_throughput s := prof s [5; 9; 10; 11].
Definition prof_main10 s := prof s [2].
Definition prof_inbld s := prof s [1; 2; 3; 4; 5; 9; 11].

Definition enc_profile_info (s : profile_info) : list bool :=
  let A := prof_range_ext s in
  let A1 := A && prof_high_throughput s in
  let A2 := A && negb (prof_high_throughput s) in
  let B := negb A && prof_main10 s in
  let C := negb A && negb (prof_main10 s) in
  concat
  [ enc_u 2 (profile_space s);
    enc_u 1 (tier_flag s);
    enc_u 5 (profile_idc s);
    flat_map (enc_u 1) (profile_compatibility_flag s);
    enc_u 1 (progressive_source_flag s);
    enc_u 1 (interlaced_source_flag s);
    enc_u 1 (non_packed_constraint_flag s);
    enc_u 1 (frame_only_constraint_flag s);
    opt A (enc_u 1 (max_12bit_constraint_flag s));
    opt A (enc_u 1 (max_10bit_constraint_flag s));
    opt A (enc_u 1 (max_8bit_constraint_flag s));
    opt A (enc_u 1 (max_422chroma_constraint_flag s));
    opt A (enc_u 1 (max_420chroma_constraint_flag s));
    opt A (enc_u 1 (max_monochrome_constraint_flag s));
    opt A (enc_u 1 (intra_constraint_flag s));
    opt B (enc_u 7 (reserved_zero_7bits s));
    opt (A || prof_main10 s) (enc_u 1 (one_picture_only_constraint_flag s));
    opt A (enc_u 1 (lower_bit_rate_constraint_flag s));
    opt A1 (enc_u 1 (max_14bit_constraint_flag s));
    opt A1 (enc_u 33 (reserved_zero_33bits s));
    opt A2 (enc_u 34 (reserved_zero_34bits s));
    opt B (enc_u 35 (reserved_zero_35bits s));
    opt C (enc_u 43 (reserved_zero_43bits s));
    opt (prof_inbld s) (enc_u 1 (inbld_flag s));
    opt (negb (prof_inbld s)) (enc_u 1 (reserved_zero_bit s)) ].
Definition profile_info_ok (s : profile_info) : Prop :=
  let A := prof_range_ext s in
  let A1 := A && prof_high_throughput s in
  let A2 := A && negb (prof_high_throughput s) in
  let B := negb A && prof_main10 s in
  let C := negb A && negb (prof_main10 s) in
  u_ok 2 (profile_space s) /\ u_ok 1 (tier_flag s) /\ u_ok 5 (profile_idc s) /\
  vec 32 (u_ok 1) (profile_compatibility_flag s) /\
  u_ok 1 (progressive_source_flag s) /\ u_ok 1 (interlaced_source_flag s) /\
  u_ok 1 (non_packed_constraint_flag s) /\ u_ok 1 (frame_only_constraint_flag s) /\
  optf A (u_ok 1) 0 (max_12bit_constraint_flag s) /\
  optf A (u_ok 1) 0 (max_10bit_constraint_flag s) /\
  optf A (u_ok 1) 0 (max_8bit_constraint_flag s) /\
  optf A (u_ok 1) 0 (max_422chroma_constraint_flag s) /\
  optf A (u_ok 1) 0 (max_420chroma_constraint_flag s) /\
  optf A (u_ok 1) 0 (max_monochrome_constraint_flag s) /\
  optf A (u_ok 1) 0 (intra_constraint_flag s) /\
  optf B (u_ok 7) 0 (reserved_zero_7bits s) /\
  optf (A || prof_main10 s) (u_ok 1) 0 (one_picture_only_constraint_flag s) /\
  optf A (u_ok 1) 0 (lower_bit_rate_constraint_flag s) /\
  optf A1 (u_ok 1) 0 (max_14bit_constraint_flag s) /\
  optf A1 (u_ok 33) 0 (reserved_zero_33bits s) /\
  optf A2 (u_ok 34) 0 (reserved_zero_34bits s) /\
  optf B (u_ok 35) 0 (reserved_zero_35bits s) /\
  optf C (u_ok 43) 0 (reserved_zero_43bits s) /\
  optf (prof_inbld s) (u_ok 1) 0 (inbld_flag s) /\
  optf (negb (prof_inbld s)) (u_ok 1) 0 (reserved_zero_bit s).

(** 7.3.3.  [std = true]: the level of a sub-layer is present under sub_layer_level_present_flag, as
    in the standard; [std = false]: under sub_layer_profile_present_flag, as in the code. *)
Definition level_gate (std : bool) (fl : Z * Z) : bool := nz (if std then snd fl else fst fl).
Definition enc_sub_layer_flags (fl : Z * Z) : list bool := concat [enc_u 1 (fst fl); enc_u 1 (snd fl)].
Definition sub_layer_flags_ok (fl : Z * Z) : Prop := u_ok 1 (fst fl) /\ u_ok 1 (snd fl).
Definition enc_sub_layer (std : bool) (flags : list (Z * Z)) (i : Z) (x : option profile_info * Z) : list bool :=
  let fl := znth flags i (0, 0) in
  concat [ opt (nz (fst fl)) (enc_opt enc_profile_info (fst x));
           opt (level_gate std fl) (enc_u 8 (snd x)) ].
Definition sub_layer_ok (std : bool) (flags : list (Z * Z)) (i : Z) (x : option profile_info * Z) : Prop :=
  let fl := znth flags i (0, 0) in
  optf (nz (fst fl)) (is_some profile_info_ok) None (fst x) /\
  optf (level_gate std fl) (u_ok 8) 0 (snd x).
Definition enc_ptl (std : bool) (present : bool) (max_sub : Z) (s : ptl) : list bool := concat
  [ opt present (enc_opt enc_profile_info (ptl_general s));
    enc_u 8 (ptl_general_level_idc s);
    flat_map enc_sub_layer_flags (ptl_sub_layer_flags s);
    opt (0 <? max_sub) (flat_map (enc_u 2) (ptl_reserved_zero_2bits s));
    enc_from 0 (enc_sub_layer std (ptl_sub_layer_flags s)) (ptl_sub_layers s) ].
Definition ptl_ok (std : bool) (present : bool) (max_sub : Z) (s : ptl) : Prop :=
  optf present (is_some profile_info_ok) None (ptl_general s) /\
  u_ok 8 (ptl_general_level_idc s) /\
  vec max_sub sub_layer_flags_ok (ptl_sub_layer_flags s) /\
  optf (0 <? max_sub) (vec (8 - max_sub) (u_ok 2)) [] (ptl_reserved_zero_2bits s) /\
  veci max_sub (sub_layer_ok std (ptl_sub_layer_flags s)) (ptl_sub_layers s).

(** E.2.3 *)
Definition enc_cpb_entry (sub_pic : Z) (e : cpb_entry) : list bool := concat
  [ enc_ue (bit_rate_value_minus1 e);
    enc_ue (cpb_size_value_minus1 e);
    opt (nz sub_pic) (enc_ue (cpb_size_du_value_minus1 e));
    opt (nz sub_pic) (enc_ue (bit_rate_du_value_minus1 e));
    enc_u 1 (cbr_flag e) ].
Definition cpb_entry_ok (sub_pic : Z) (e : cpb_entry) : Prop :=
  ue_ok (bit_rate_value_minus1 e) /\ ue_ok (cpb_size_value_minus1 e) /\
  optf (nz sub_pic) ue_ok 0 (cpb_size_du_value_minus1 e) /\
  optf (nz sub_pic) ue_ok 0 (bit_rate_du_value_minus1 e) /\
  u_ok 1 (cbr_flag e).
Definition enc_sub_layer_hrd (sub_pic : Z) : list cpb_entry -> list bool := flat_map (enc_cpb_entry sub_pic).
Definition sub_layer_hrd_ok (CpbCnt sub_pic : Z) : list cpb_entry -> Prop := vec CpbCnt (cpb_entry_ok sub_pic).

(** E.2.2.  [inferred]: the value of fixed_pic_rate_within_cvs_flag when it is absent, 1 in the
    standard, 0 in the code. *)
Definition enc_hrd_sub (nal vcl sub_pic : Z) (s : hrd_sub) : list bool := concat
  [ enc_u 1 (fixed_pic_rate_general_flag s);
    opt (negb (nz (fixed_pic_rate_general_flag s))) (enc_u 1 (fixed_pic_rate_within_cvs_flag s));
    opt (nz (fixed_pic_rate_within_cvs_flag s)) (enc_ue (elemental_duration_in_tc_minus1 s));
    opt (negb (nz (fixed_pic_rate_within_cvs_flag s))) (enc_u 1 (low_delay_hrd_flag s));
    opt (negb (nz (low_delay_hrd_flag s))) (enc_ue (cpb_cnt_minus1 s));
    opt (nz nal) (enc_opt (enc_sub_layer_hrd sub_pic) (sub_layer_nal_hrd s));
    opt (nz vcl) (enc_opt (enc_sub_layer_hrd sub_pic) (sub_layer_vcl_hrd s)) ].
Definition hrd_sub_ok (inferred : Z) (nal vcl sub_pic : Z) (s : hrd_sub) : Prop :=
  let CpbCnt := cpb_cnt_minus1 s + 1 in
  u_ok 1 (fixed_pic_rate_general_flag s) /\
  optf (negb (nz (fixed_pic_rate_general_flag s))) (u_ok 1) inferred (fixed_pic_rate_within_cvs_flag s) /\
  optf (nz (fixed_pic_rate_within_cvs_flag s)) ue_ok 0 (elemental_duration_in_tc_minus1 s) /\
  optf (negb (nz (fixed_pic_rate_within_cvs_flag s))) (u_ok 1) 0 (low_delay_hrd_flag s) /\
  optf (negb (nz (low_delay_hrd_flag s))) ue_ok 0 (cpb_cnt_minus1 s) /\
  optf (nz nal) (is_some (sub_layer_hrd_ok CpbCnt sub_pic)) None (sub_layer_nal_hrd s) /\
  optf (nz vcl) (is_some (sub_layer_hrd_ok CpbCnt sub_pic)) None (sub_layer_vcl_hrd s).
Definition enc_hrd (common : Z) (s : hrd) : list bool :=
  let c := nz common in
  let nal := nal_hrd_parameters_present_flag s in
  let vcl := vcl_hrd_parameters_present_flag s in
  let cnv := c && (nz nal || nz vcl) in
  let sub_pic := sub_pic_hrd_params_present_flag s in
  concat
  [ opt c (enc_u 1 nal);
    opt c (enc_u 1 vcl);
    opt cnv (enc_u 1 sub_pic);
    opt (cnv && nz sub_pic) (enc_u 8 (tick_divisor_minus2 s));
    opt (cnv && nz sub_pic) (enc_u 5 (du_cpb_removal_delay_increment_length_minus1 s));
    opt (cnv && nz sub_pic) (enc_u 1 (sub_pic_cpb_params_in_pic_timing_sei_flag s));
    opt (cnv && nz sub_pic) (enc_u 5 (dpb_output_delay_du_length_minus1 s));
    opt cnv (enc_u 4 (bit_rate_scale s));
    opt cnv (enc_u 4 (cpb_size_scale s));
    opt (cnv && nz sub_pic) (enc_u 4 (cpb_size_du_scale s));
    opt cnv (enc_u 5 (initial_cpb_removal_delay_length_minus1 s));
    opt cnv (enc_u 5 (au_cpb_removal_delay_length_minus1 s));
    opt cnv (enc_u 5 (dpb_output_delay_length_minus1 s));
    flat_map (enc_hrd_sub nal vcl sub_pic) (hrd_sub_layers s) ].
Definition hrd_ok (inferred common max_sub : Z) (s : hrd) : Prop :=
  let c := nz common in
  let nal := nal_hrd_parameters_present_flag s in
  let vcl := vcl_hrd_parameters_present_flag s in
  let cnv := c && (nz nal || nz vcl) in
  let sub_pic := sub_pic_hrd_params_present_flag s in
  optf c (u_ok 1) 0 nal /\ optf c (u_ok 1) 0 vcl /\ optf cnv (u_ok 1) 0 sub_pic /\
  optf (cnv && nz sub_pic) (u_ok 8) 0 (tick_divisor_minus2 s) /\
  optf (cnv && nz sub_pic) (u_ok 5) 0 (du_cpb_removal_delay_increment_length_minus1 s) /\
  optf (cnv && nz sub_pic) (u_ok 1) 0 (sub_pic_cpb_params_in_pic_timing_sei_flag s) /\
  optf (cnv && nz sub_pic) (u_ok 5) 0 (dpb_output_delay_du_length_minus1 s) /\
  optf cnv (u_ok 4) 0 (bit_rate_scale s) /\
  optf cnv (u_ok 4) 0 (cpb_size_scale s) /\
  optf (cnv && nz sub_pic) (u_ok 4) 0 (cpb_size_du_scale s) /\
  optf cnv (u_ok 5) 0 (initial_cpb_removal_delay_length_minus1 s) /\
  optf cnv (u_ok 5) 0 (au_cpb_removal_delay_length_minus1 s) /\
  optf cnv (u_ok 5) 0 (dpb_output_delay_length_minus1 s) /\
  vec (max_sub + 1) (hrd_sub_ok inferred nal vcl sub_pic) (hrd_sub_layers s).

(** E.2.1; the ranges of E.3.1 (def_disp_win offsets: the parser's own limit of 16384) *)
Definition enc_vui (s : vui) : list bool :=
  let ar := nz (aspect_ratio_info_present_flag s) in
  let vs := nz (video_signal_type_present_flag s) in
  let cd := vs && nz (colour_description_present_flag s) in
  let cl := nz (chroma_loc_info_present_flag s) in
  let dw := nz (default_display_window_flag s) in
  let ti := nz (vui_timing_info_present_flag s) in
  let br := nz (bitstream_restriction_flag s) in
  concat
  [ enc_u 1 (aspect_ratio_info_present_flag s);
    opt ar (enc_u 8 (aspect_ratio_idc s));
    opt (ar && (aspect_ratio_idc s =? 255)) (enc_u 16 (sar_width s));
    opt (ar && (aspect_ratio_idc s =? 255)) (enc_u 16 (sar_height s));
    enc_u 1 (overscan_info_present_flag s);
    opt (nz (overscan_info_present_flag s)) (enc_u 1 (overscan_appropriate_flag s));
    enc_u 1 (video_signal_type_present_flag s);
    opt vs (enc_u 3 (video_format s));
    opt vs (enc_u 1 (video_full_range_flag s));
    opt vs (enc_u 1 (colour_description_present_flag s));
    opt cd (enc_u 8 (colour_primaries s));
    opt cd (enc_u 8 (transfer_characteristics s));
    opt cd (enc_u 8 (matrix_coeffs s));
    enc_u 1 (chroma_loc_info_present_flag s);
    opt cl (enc_ue (chroma_sample_loc_type_top_field s));
    opt cl (enc_ue (chroma_sample_loc_type_bottom_field s));
    enc_u 1 (neutral_chroma_indication_flag s);
    enc_u 1 (field_seq_flag s);
    enc_u 1 (frame_field_info_present_flag s);
    enc_u 1 (default_display_window_flag s);
    opt dw (enc_ue (def_disp_win_left_offset s));
    opt dw (enc_ue (def_disp_win_right_offset s));
    opt dw (enc_ue (def_disp_win_top_offset s));
    opt dw (enc_ue (def_disp_win_bottom_offset s));
    enc_u 1 (vui_timing_info_present_flag s);
    opt ti (enc_u 32 (vui_num_units_in_tick s));
    opt ti (enc_u 32 (vui_time_scale s));
    opt ti (enc_u 1 (vui_poc_proportional_to_timing_flag s));
    opt (ti && nz (vui_poc_proportional_to_timing_flag s)) (enc_ue (vui_num_ticks_poc_diff_one_minus1 s));
    opt ti (enc_u 1 (vui_hrd_parameters_present_flag s));
    opt (ti && nz (vui_hrd_parameters_present_flag s)) (enc_opt (enc_hrd 1) (vui_hrd_parameters s));
    enc_u 1 (bitstream_restriction_flag s);
    opt br (enc_u 1 (tiles_fixed_structure_flag s));
    opt br (enc_u 1 (motion_vectors_over_pic_boundaries_flag s));
    opt br (enc_u 1 (restricted_ref_pic_lists_flag s));
    opt br (enc_ue (min_spatial_segmentation_idc s));
    opt br (enc_ue (max_bytes_per_pic_denom s));
    opt br (enc_ue (max_bits_per_min_cu_denom s));
    opt br (enc_ue (log2_max_mv_length_horizontal s));
    opt br (enc_ue (log2_max_mv_length_vertical s)) ].
Definition vui_ok (inferred max_sub : Z) (s : vui) : Prop :=
  let ar := nz (aspect_ratio_info_present_flag s) in
  let vs := nz (video_signal_type_present_flag s) in
  let cd := vs && nz (colour_description_present_flag s) in
  let cl := nz (chroma_loc_info_present_flag s) in
  let dw := nz (default_display_window_flag s) in
  let ti := nz (vui_timing_info_present_flag s) in
  let br := nz (bitstream_restriction_flag s) in
  u_ok 1 (aspect_ratio_info_present_flag s) /\
  optf ar (u_ok 8) 0 (aspect_ratio_idc s) /\
  optf (ar && (aspect_ratio_idc s =? 255)) (u_ok 16) 0 (sar_width s) /\
  optf (ar && (aspect_ratio_idc s =? 255)) (u_ok 16) 0 (sar_height s) /\
  u_ok 1 (overscan_info_present_flag s) /\
  optf (nz (overscan_info_present_flag s)) (u_ok 1) 0 (overscan_appropriate_flag s) /\
  u_ok 1 (video_signal_type_present_flag s) /\
  optf vs (u_ok 3) 0 (video_format s) /\
  optf vs (u_ok 1) 0 (video_full_range_flag s) /\
  optf vs (u_ok 1) 0 (colour_description_present_flag s) /\
  optf cd (u_ok 8) 0 (colour_primaries s) /\
  optf cd (u_ok 8) 0 (transfer_characteristics s) /\
  optf cd (u_ok 8) 0 (matrix_coeffs s) /\
  u_ok 1 (chroma_loc_info_present_flag s) /\
  optf cl (ue_le 5) 0 (chroma_sample_loc_type_top_field s) /\
  optf cl (ue_le 5) 0 (chroma_sample_loc_type_bottom_field s) /\
  u_ok 1 (neutral_chroma_indication_flag s) /\
  u_ok 1 (field_seq_flag s) /\
  u_ok 1 (frame_field_info_present_flag s) /\
  u_ok 1 (default_display_window_flag s) /\
  optf dw (ue_le 16384) 0 (def_disp_win_left_offset s) /\
  optf dw (ue_le 16384) 0 (def_disp_win_right_offset s) /\
  optf dw (ue_le 16384) 0 (def_disp_win_top_offset s) /\
  optf dw (ue_le 16384) 0 (def_disp_win_bottom_offset s) /\
  u_ok 1 (vui_timing_info_present_flag s) /\
  optf ti (u_ok 32) 0 (vui_num_units_in_tick s) /\
  optf ti (u_ok 32) 0 (vui_time_scale s) /\
  optf ti (u_ok 1) 0 (vui_poc_proportional_to_timing_flag s) /\
  optf (ti && nz (vui_poc_proportional_to_timing_flag s)) (ue_le (2 ^ 32 - 2)) 0 (vui_num_ticks_poc_diff_one_minus1 s) /\
  optf ti (u_ok 1) 0 (vui_hrd_parameters_present_flag s) /\
  optf (ti && nz (vui_hrd_parameters_present_flag s)) (is_some (hrd_ok inferred 1 max_sub)) None (vui_hrd_parameters s) /\
  u_ok 1 (bitstream_restriction_flag s) /\
  optf br (u_ok 1) 0 (tiles_fixed_structure_flag s) /\
  optf br (u_ok 1) 0 (motion_vectors_over_pic_boundaries_flag s) /\
  optf br (u_ok 1) 0 (restricted_ref_pic_lists_flag s) /\
  optf br (ue_le 4095) 0 (min_spatial_segmentation_idc s) /\
  optf br (ue_le 16) 0 (max_bytes_per_pic_denom s) /\
  optf br (ue_le 16) 0 (max_bits_per_min_cu_denom s) /\
  optf br (ue_le 16) 0 (log2_max_mv_length_horizontal s) /\
  optf br (ue_le 15) 0 (log2_max_mv_length_vertical s).
