(** Layout and ranges of seq_parameter_set_rbsp (7.3.2.2, 7.4.3.2). *)
From Coq Require Import ZArith List Bool.
From Verif Require Import MBase Spec Rules ReaderFacts Syntax SyntaxSe MSyntaxA SpecA MSyntaxB SpecB MSps.
Import ListNotations.
Open Scope Z_scope.

Definition enc_lt (log2_lsb_minus4 : Z) (e : Z * Z) : list bool := concat [enc_u (Z.to_nat (log2_lsb_minus4 + 4)) (fst e); enc_u 1 (snd e)].
Definition lt_ok (log2_lsb_minus4 : Z) (e : Z * Z) : Prop := u_ok (log2_lsb_minus4 + 4) (fst e) /\ u_ok 1 (snd e).

(** [std]: layout of profile_tier_level() of the standard or of the code (see SpecA.v). *)
Definition enc_sps (std : bool) (s : sps) : list bool :=
  let conf := nz (conformance_window_flag s) in
  let pcm := nz (pcm_enabled_flag s) in
  let ext := nz (sps_extension_present_flag s) in
  concat
  [ enc_u 4 (sps_video_parameter_set_id s);
    enc_u 3 (sps_max_sub_layers_minus1 s);
    enc_u 1 (sps_temporal_id_nesting_flag s);
    enc_ptl std true (sps_max_sub_layers_minus1 s) (sps_profile_tier_level s);
    enc_ue (sps_seq_parameter_set_id s);
    enc_ue (chroma_format_idc s);
    opt (chroma_format_idc s =? 3) (enc_u 1 (separate_colour_plane_flag s));
    enc_ue (pic_width_in_luma_samples s);
    enc_ue (pic_height_in_luma_samples s);
    enc_u 1 (conformance_window_flag s);
    opt conf (enc_ue (conf_win_left_offset s));
    opt conf (enc_ue (conf_win_right_offset s));
    opt conf (enc_ue (conf_win_top_offset s));
    opt conf (enc_ue (conf_win_bottom_offset s));
    enc_ue (bit_depth_luma_minus8 s);
    enc_ue (bit_depth_chroma_minus8 s);
    enc_ue (log2_max_pic_order_cnt_lsb_minus4 s);
    enc_u 1 (sps_sub_layer_ordering_info_present_flag s);
    flat_map enc_ordering (sps_ordering s);
    enc_ue (log2_min_luma_coding_block_size_minus3 s);
    enc_ue (log2_diff_max_min_luma_coding_block_size s);
    enc_ue (log2_min_luma_transform_block_size_minus2 s);
    enc_ue (log2_diff_max_min_luma_transform_block_size s);
    enc_ue (max_transform_hierarchy_depth_inter s);
    enc_ue (max_transform_hierarchy_depth_intra s);
    enc_u 1 (scaling_list_enabled_flag s);
    opt (nz (scaling_list_enabled_flag s)) (enc_u 1 (sps_scaling_list_data_present_flag s));
    opt (nz (scaling_list_enabled_flag s) && nz (sps_scaling_list_data_present_flag s)) (enc_opt enc_scaling_list_data (sps_scaling_list_data s));
    enc_u 1 (amp_enabled_flag s);
    enc_u 1 (sample_adaptive_offset_enabled_flag s);
    enc_u 1 (pcm_enabled_flag s);
    opt pcm (enc_u 4 (pcm_sample_bit_depth_luma_minus1 s));
    opt pcm (enc_u 4 (pcm_sample_bit_depth_chroma_minus1 s));
    opt pcm (enc_ue (log2_min_pcm_luma_coding_block_size_minus3 s));
    opt pcm (enc_ue (log2_diff_max_min_pcm_luma_coding_block_size s));
    opt pcm (enc_u 1 (pcm_loop_filter_disabled_flag s));
    enc_ue (num_short_term_ref_pic_sets s);
    enc_from 0 (fun i => enc_rps i (num_short_term_ref_pic_sets s)) (sps_st_ref_pic_set s);
    enc_u 1 (long_term_ref_pics_present_flag s);
    opt (nz (long_term_ref_pics_present_flag s)) (enc_ue (num_long_term_ref_pics_sps s));
    opt (nz (long_term_ref_pics_present_flag s)) (flat_map (enc_lt (log2_max_pic_order_cnt_lsb_minus4 s)) (sps_lt s));
    enc_u 1 (sps_temporal_mvp_enabled_flag s);
    enc_u 1 (strong_intra_smoothing_enabled_flag s);
    enc_u 1 (vui_parameters_present_flag s);
    opt (nz (vui_parameters_present_flag s)) (enc_opt enc_vui (sps_vui_parameters s));
    enc_u 1 (sps_extension_present_flag s);
    opt ext (enc_u 1 (sps_range_extension_flag s));
    opt ext (enc_u 1 (sps_multilayer_extension_flag s));
    opt ext (enc_u 1 (sps_3d_extension_flag s));
    opt ext (enc_u 1 (sps_scc_extension_flag s));
    opt ext (enc_u 4 (sps_extension_4bits s));
    opt (nz (sps_range_extension_flag s)) (enc_opt enc_sps_range_ext (sps_range_extension s));
    opt (nz (sps_multilayer_extension_flag s)) (enc_opt (enc_u 1) (sps_multilayer_extension s));
    opt (nz (sps_3d_extension_flag s)) (enc_opt enc_sps_3d_ext (sps_3d_extension s));
    opt (nz (sps_scc_extension_flag s)) (enc_opt (enc_sps_scc_ext (bit_depth_luma_minus8 s) (bit_depth_chroma_minus8 s)) (sps_scc_extension s)) ].

(** The list of candidate short-term sets: each may refer to the ones before it. *)
Definition rps_sets_ok (num : Z) (l : list rps) : Prop :=
  length l = Z.to_nat num /\ all_from 0 (fun i s => rps_ok i num l 15 s) l.
(** delta_poc_s0_minus1 and delta_poc_s1_minus1 in explicitly coded sets "shall be in the range of 0 to 2^15 - 1" (7.4.8).  The theorems
    hold for a wider range: codewords with fewer than 24 leading zeros. *)
Definition poc_limits (s : rps) : Prop := nz (inter_ref_pic_set_prediction_flag s) = false ->
  Forall (fun e => fst e <= 2 ^ 24 - 2) (rps_s0 s) /\ Forall (fun e => fst e <= 2 ^ 24 - 2) (rps_s1 s).
(** ... and the inter-predicted ones are derived as in the standard. *)
Definition rps_sets_derived (l : list rps) : Prop := all_from 0 (fun i s => rps_derived i l s) l.
Definition rps_sets_std (num : Z) (l : list rps) : Prop := rps_sets_ok num l /\ Forall poc_limits l /\ rps_sets_derived l.

(** pic_width/height_in_luma_samples as the code checks them: a multiple of 8 (the standard: of MinCbSizeY). *)
Definition pic_size_ok (kmax v : Z) : Prop := 1 <= v <= kmax /\ v mod 8 = 0.
Definition sps_ordering_ok (o : ordering_info) : Prop :=
  ue_le 15 (max_dec_pic_buffering_minus1 o) /\ ue_ok (max_num_reorder_pics o) /\ ue_ok (max_latency_increase_plus1 o).

(** Parameters: [std] as above; [inf]: inferred value in hrd_parameters() (SpecA.v); [SE]: range of the se(v) values of scaling lists;
    [RPS]: condition on the short-term sets. *)
Definition sps_ok (std : bool) (inf : Z) (SE : Z -> Prop) (RPS : Z -> list rps -> Prop) (s : sps) : Prop :=
  let conf := nz (conformance_window_flag s) in
  let pcm := nz (pcm_enabled_flag s) in
  let ext := nz (sps_extension_present_flag s) in
  let msub := sps_max_sub_layers_minus1 s in
  u_ok 4 (sps_video_parameter_set_id s) /\
  u_ok 3 msub /\
  u_ok 1 (sps_temporal_id_nesting_flag s) /\
  ptl_ok std true msub (sps_profile_tier_level s) /\
  ue_le 15 (sps_seq_parameter_set_id s) /\
  ue_le 3 (chroma_format_idc s) /\
  optf (chroma_format_idc s =? 3) (u_ok 1) 0 (separate_colour_plane_flag s) /\
  pic_size_ok kMaxWidth (pic_width_in_luma_samples s) /\
  pic_size_ok kMaxHeight (pic_height_in_luma_samples s) /\
  u_ok 1 (conformance_window_flag s) /\
  optf conf (ue_le (pic_width_in_luma_samples s)) 0 (conf_win_left_offset s) /\
  optf conf (ue_le (pic_width_in_luma_samples s)) 0 (conf_win_right_offset s) /\
  optf conf (ue_le (pic_height_in_luma_samples s)) 0 (conf_win_top_offset s) /\
  optf conf (ue_le (pic_height_in_luma_samples s)) 0 (conf_win_bottom_offset s) /\
  ue_le 8 (bit_depth_luma_minus8 s) /\
  ue_le 8 (bit_depth_chroma_minus8 s) /\
  ue_le 12 (log2_max_pic_order_cnt_lsb_minus4 s) /\
  u_ok 1 (sps_sub_layer_ordering_info_present_flag s) /\
  vec (if nz (sps_sub_layer_ordering_info_present_flag s) then msub + 1 else 1) sps_ordering_ok (sps_ordering s) /\
  ue_le 3 (log2_min_luma_coding_block_size_minus3 s) /\
  ue_le 3 (log2_diff_max_min_luma_coding_block_size s) /\
  ue_ok (log2_min_luma_transform_block_size_minus2 s) /\
  ue_ok (log2_diff_max_min_luma_transform_block_size s) /\
  ue_ok (max_transform_hierarchy_depth_inter s) /\
  ue_ok (max_transform_hierarchy_depth_intra s) /\
  u_ok 1 (scaling_list_enabled_flag s) /\
  optf (nz (scaling_list_enabled_flag s)) (u_ok 1) 0 (sps_scaling_list_data_present_flag s) /\
  optf (nz (scaling_list_enabled_flag s) && nz (sps_scaling_list_data_present_flag s)) (is_some (scaling_list_data_ok SE)) None (sps_scaling_list_data s) /\
  u_ok 1 (amp_enabled_flag s) /\
  u_ok 1 (sample_adaptive_offset_enabled_flag s) /\
  u_ok 1 (pcm_enabled_flag s) /\
  optf pcm (u_ok 4) 0 (pcm_sample_bit_depth_luma_minus1 s) /\
  optf pcm (u_ok 4) 0 (pcm_sample_bit_depth_chroma_minus1 s) /\
  optf pcm ue_ok 0 (log2_min_pcm_luma_coding_block_size_minus3 s) /\
  optf pcm ue_ok 0 (log2_diff_max_min_pcm_luma_coding_block_size s) /\
  optf pcm (u_ok 1) 0 (pcm_loop_filter_disabled_flag s) /\
  ue_le 64 (num_short_term_ref_pic_sets s) /\
  RPS (num_short_term_ref_pic_sets s) (sps_st_ref_pic_set s) /\
  u_ok 1 (long_term_ref_pics_present_flag s) /\
  optf (nz (long_term_ref_pics_present_flag s)) (ue_le 32) 0 (num_long_term_ref_pics_sps s) /\
  optf (nz (long_term_ref_pics_present_flag s)) (vec (num_long_term_ref_pics_sps s) (lt_ok (log2_max_pic_order_cnt_lsb_minus4 s))) [] (sps_lt s) /\
  u_ok 1 (sps_temporal_mvp_enabled_flag s) /\
  u_ok 1 (strong_intra_smoothing_enabled_flag s) /\
  u_ok 1 (vui_parameters_present_flag s) /\
  optf (nz (vui_parameters_present_flag s)) (is_some (vui_ok inf msub)) None (sps_vui_parameters s) /\
  u_ok 1 (sps_extension_present_flag s) /\
  optf ext (u_ok 1) 0 (sps_range_extension_flag s) /\
  optf ext (u_ok 1) 0 (sps_multilayer_extension_flag s) /\
  optf ext (u_ok 1) 0 (sps_3d_extension_flag s) /\
  optf ext (u_ok 1) 0 (sps_scc_extension_flag s) /\
  optf ext (u_ok 4) 0 (sps_extension_4bits s) /\
  optf (nz (sps_range_extension_flag s)) (is_some sps_range_ext_ok) None (sps_range_extension s) /\
  optf (nz (sps_multilayer_extension_flag s)) (is_some (u_ok 1)) None (sps_multilayer_extension s) /\
  optf (nz (sps_3d_extension_flag s)) (is_some sps_3d_ext_ok) None (sps_3d_extension s) /\
  optf (nz (sps_scc_extension_flag s))
    (is_some (sps_scc_ext_ok (chroma_format_idc s) (bit_depth_luma_minus8 s) (bit_depth_chroma_minus8 s))) None (sps_scc_extension s).

(** * Geometry (7.4.3.2.1, equations 7-10 to 7-20, Table 6-1) *)
Definition MinCbSize (s : sps) : Z := 2 ^ (log2_min_luma_coding_block_size_minus3 s + 3).
Definition CtbSize (s : sps) : Z := 2 ^ (log2_min_luma_coding_block_size_minus3 s + 3 + log2_diff_max_min_luma_coding_block_size s).
(** [is_ceil q a b]: q = Ceil( a / b ). *)
Definition is_ceil (q a b : Z) : Prop := (q - 1) * b < a <= q * b.
Definition SubWidthC (s : sps) : Z := if (chroma_format_idc s =? 1) || (chroma_format_idc s =? 2) then 2 else 1.
Definition SubHeightC (s : sps) : Z := if chroma_format_idc s =? 1 then 2 else 1.
Definition cropped_width (s : sps) : Z := pic_width_in_luma_samples s - SubWidthC s * (conf_win_left_offset s + conf_win_right_offset s).
Definition cropped_height (s : sps) : Z := pic_height_in_luma_samples s - SubHeightC s * (conf_win_top_offset s + conf_win_bottom_offset s).
