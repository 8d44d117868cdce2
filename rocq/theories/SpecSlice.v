(** Layout and ranges of pred_weight_table() (7.3.6.3) and slice_segment_header() (7.3.6.1, 7.4.7.1). *)
From Coq Require Import ZArith List Bool.
From Verif Require Import MBase Spec Rules ReaderFacts Syntax SyntaxSe MSyntaxA SpecA MSyntaxB SpecB MSps SpecSps MPps SpecPps MSlice.
Import ListNotations.
Open Scope Z_scope.

(** * pred_weight_table() for list 0, [n] = num_ref_idx_l0_active_minus1, [cat] = ChromaArrayType *)
Definition enc_luma_weight (w : Z * Z) : list bool := concat [enc_se (fst w); enc_se (snd w)].
Definition luma_weight_ok (w : Z * Z) : Prop := se_ok (fst w) /\ se_ok (snd w).
Definition enc_pwt_entry (lf cf : list Z) (i : Z) (e : option (Z * Z) * option quad) : list bool :=
  concat [opt (nz (znth lf i 0)) (enc_opt enc_luma_weight (fst e)); opt (nz (znth cf i 0)) (enc_opt (enc_quad enc_se) (snd e))].
Definition pwt_entry_ok (lf cf : list Z) (i : Z) (e : option (Z * Z) * option quad) : Prop :=
  optf (nz (znth lf i 0)) (is_some luma_weight_ok) None (fst e) /\ optf (nz (znth cf i 0)) (is_some (quad_ok se_ok)) None (snd e).
Definition enc_pwt (cat n : Z) (t : pwt) : list bool :=
  concat
  [ enc_ue (luma_log2_weight_denom t);
    opt (negb (cat =? 0)) (enc_se (delta_chroma_log2_weight_denom t));
    flat_map (enc_u 1) (luma_weight_l0_flag t);
    opt (negb (cat =? 0)) (flat_map (enc_u 1) (chroma_weight_l0_flag t));
    enc_from 0 (enc_pwt_entry (luma_weight_l0_flag t) (chroma_weight_l0_flag t)) (pwt_entries t) ].
Definition pwt_ok (cat n : Z) (t : pwt) : Prop :=
  ue_ok (luma_log2_weight_denom t) /\
  optf (negb (cat =? 0)) se_ok 0 (delta_chroma_log2_weight_denom t) /\
  vec (n + 1) (u_ok 1) (luma_weight_l0_flag t) /\
  optf (negb (cat =? 0)) (vec (n + 1) (u_ok 1)) [] (chroma_weight_l0_flag t) /\
  veci (n + 1) (pwt_entry_ok (luma_weight_l0_flag t) (chroma_weight_l0_flag t)) (pwt_entries t).

(** * slice_segment_header() *)
(** Ceil( a / b ) *)
Definition ceil_quot (a b : Z) : Z := - ((- a) / b).
Definition PicWidthInCtbs (s : sps) : Z := ceil_quot (pic_width_in_luma_samples s) (CtbSize s).
Definition PicHeightInCtbs (s : sps) : Z := ceil_quot (pic_height_in_luma_samples s) (CtbSize s).
Definition PicSizeInCtbs (s : sps) : Z := PicWidthInCtbs s * PicHeightInCtbs s.
(** Ceil( Log2( n ) ) *)
Definition CeilLog2 (n : Z) : Z := Z.log2_up n.

(** [std = true]: the standard; [std = false]: what the code does instead.
    ChromaArrayType: the code only sets it if sample_adaptive_offset_enabled_flag. *)
Definition CAT (std : bool) (s : sps) : Z :=
  if std || nz (sample_adaptive_offset_enabled_flag s) then (if separate_colour_plane_flag s =? 0 then chroma_format_idc s else 0) else 0.
(** Inferred values that decide what follows: the code uses 0 instead of the values of the PPS. *)
Definition inferred (std : bool) (v : Z) : Z := if std then v else 0.
(** Limit of num_entry_point_offsets (7.4.7.1). *)
Definition ep_limit (std : bool) (s : sps) (p : pps) : Z :=
  let cols := num_tile_columns_minus1 p + 1 in
  let rows := num_tile_rows_minus1 p + 1 in
  let h := PicHeightInCtbs s in
  if negb (nz (tiles_enabled_flag p)) then h - 1
  else if negb (nz (entropy_coding_sync_enabled_flag p)) then (if std then cols * rows - 1 else (cols * rows - 1) mod 2 ^ 32)
  else (if std then cols * h - 1 else (cols * (h - 1)) mod 2 ^ 32).
Definition mv_control (s : sps) : Z := match sps_scc_extension s with Some e => motion_vector_resolution_control_idc e | None => 0 end.
Definition act_present (p : pps) : Z := match pps_scc_extension p with Some e => pps_slice_act_qp_offsets_present_flag e | None => 0 end.

(** Entry [i] of the long-term pictures: the first num_long_term_sps refer to the SPS. *)
Definition enc_lt_entry (s : sps) (nls i : Z) (e : lt_entry) : list bool :=
  let from_sps := i <? nls in
  concat
  [ opt (from_sps && (1 <? num_long_term_ref_pics_sps s)) (enc_u (Z.to_nat (CeilLog2 (num_long_term_ref_pics_sps s))) (lt_idx_sps e));
    opt (negb from_sps) (enc_u (Z.to_nat (log2_max_pic_order_cnt_lsb_minus4 s + 4)) (poc_lsb_lt e));
    opt (negb from_sps) (enc_u 1 (used_by_curr_pic_lt_flag e));
    enc_u 1 (delta_poc_msb_present_flag e);
    opt (nz (delta_poc_msb_present_flag e)) (enc_ue (delta_poc_msb_cycle_lt e)) ].
Definition lt_entry_ok (s : sps) (nls i : Z) (e : lt_entry) : Prop :=
  let from_sps := i <? nls in
  optf (from_sps && (1 <? num_long_term_ref_pics_sps s)) (u_ok (CeilLog2 (num_long_term_ref_pics_sps s))) 0 (lt_idx_sps e) /\
  optf (negb from_sps) (u_ok (log2_max_pic_order_cnt_lsb_minus4 s + 4)) 0 (poc_lsb_lt e) /\
  optf (negb from_sps) (u_ok 1) 0 (used_by_curr_pic_lt_flag e) /\
  u_ok 1 (delta_poc_msb_present_flag e) /\
  optf (nz (delta_poc_msb_present_flag e)) ue_ok 0 (delta_poc_msb_cycle_lt e).

(** slice_segment_header() without ref_pic_lists_modification(), the list 1 part of pred_weight_table() and chroma_qp_offset_list
    (range extension).  [nut]: nal_unit_type; [p], [s]: the PPS and SPS it refers to. *)
Definition enc_slice (std : bool) (nut : Z) (s : sps) (p : pps) (h : slice_header) : list bool :=
  let first := nz (first_slice_segment_in_pic_flag h) in
  let nd := negb (nz (dependent_slice_segment_flag h)) in
  let np := nd && negb ((nut =? 19) || (nut =? 20)) in
  let lt := np && nz (long_term_ref_pics_present_flag s) in
  let isb := slice_type h =? 0 in
  let isp := slice_type h =? 1 in
  let pb := nd && (isp || isb) in
  let sao := nd && nz (sample_adaptive_offset_enabled_flag s) in
  let act := nd && nz (act_present p) in
  let dbo := nz (deblocking_filter_override_flag h) in
  let dbd := nz (slice_deblocking_filter_disabled_flag h) in
  let ep := nz (tiles_enabled_flag p) || nz (entropy_coding_sync_enabled_flag p) in
  concat
  [ enc_u 1 (first_slice_segment_in_pic_flag h);
    opt ((16 <=? nut) && (nut <=? 23)) (enc_u 1 (no_output_of_prior_pics_flag h));
    enc_ue (slice_pic_parameter_set_id h);
    opt (negb first && nz (dependent_slice_segments_enabled_flag p)) (enc_u 1 (dependent_slice_segment_flag h));
    opt (negb first) (enc_u (Z.to_nat (CeilLog2 (PicSizeInCtbs s))) (slice_segment_address h));
    opt nd (flat_map (enc_u 1) (slice_reserved_flag h));
    opt nd (enc_ue (slice_type h));
    opt (nd && nz (output_flag_present_flag p)) (enc_u 1 (pic_output_flag h));
    opt (nd && (separate_colour_plane_flag s =? 1)) (enc_u 2 (colour_plane_id h));
    opt np (enc_u (Z.to_nat (log2_max_pic_order_cnt_lsb_minus4 s + 4)) (slice_pic_order_cnt_lsb h));
    opt np (enc_u 1 (short_term_ref_pic_set_sps_flag h));
    opt (np && negb (nz (short_term_ref_pic_set_sps_flag h)))
      (enc_opt (enc_rps (num_short_term_ref_pic_sets s) (num_short_term_ref_pic_sets s)) (sh_st_ref_pic_set h));
    opt (np && nz (short_term_ref_pic_set_sps_flag h) && (1 <? num_short_term_ref_pic_sets s))
      (enc_u (Z.to_nat (CeilLog2 (num_short_term_ref_pic_sets s))) (short_term_ref_pic_set_idx h));
    opt (lt && (0 <? num_long_term_ref_pics_sps s)) (enc_ue (num_long_term_sps h));
    opt lt (enc_ue (num_long_term_pics h));
    opt lt (enc_from 0 (enc_lt_entry s (num_long_term_sps h)) (sh_lt h));
    opt (np && nz (sps_temporal_mvp_enabled_flag s)) (enc_u 1 (slice_temporal_mvp_enabled_flag h));
    opt sao (enc_u 1 (slice_sao_luma_flag h));
    opt (sao && negb (CAT std s =? 0)) (enc_u 1 (slice_sao_chroma_flag h));
    opt pb (enc_u 1 (num_ref_idx_active_override_flag h));
    opt (pb && nz (num_ref_idx_active_override_flag h)) (enc_ue (num_ref_idx_l0_active_minus1 h));
    opt (pb && nz (num_ref_idx_active_override_flag h) && isb) (enc_ue (num_ref_idx_l1_active_minus1 h));
    opt (pb && isb) (enc_u 1 (mvd_l1_zero_flag h));
    opt (pb && nz (cabac_init_present_flag p)) (enc_u 1 (cabac_init_flag h));
    opt (pb && nz (slice_temporal_mvp_enabled_flag h) && isb) (enc_u 1 (collocated_from_l0_flag h));
    opt (pb && nz (slice_temporal_mvp_enabled_flag h) && ((nz (collocated_from_l0_flag h) && (0 <? num_ref_idx_l0_active_minus1 h)) ||
         (negb (nz (collocated_from_l0_flag h)) && (0 <? num_ref_idx_l1_active_minus1 h)))) (enc_ue (collocated_ref_idx h));
    opt (pb && ((nz (weighted_pred_flag p) && isp) || (nz (weighted_bipred_flag p) && isb)))
      (enc_opt (enc_pwt (CAT std s) (num_ref_idx_l0_active_minus1 h)) (sh_pred_weight_table h));
    opt pb (enc_ue (five_minus_max_num_merge_cand h));
    opt (pb && (mv_control s =? 2)) (enc_u 1 (use_integer_mv_flag h));
    opt nd (enc_se (slice_qp_delta h));
    opt (nd && nz (pps_slice_chroma_qp_offsets_present_flag p)) (enc_se (slice_cb_qp_offset h));
    opt (nd && nz (pps_slice_chroma_qp_offsets_present_flag p)) (enc_se (slice_cr_qp_offset h));
    opt act (enc_se (slice_act_y_qp_offset h));
    opt act (enc_se (slice_act_cb_qp_offset h));
    opt act (enc_se (slice_act_cr_qp_offset h));
    opt (nd && nz (deblocking_filter_override_enabled_flag p)) (enc_u 1 (deblocking_filter_override_flag h));
    opt dbo (enc_u 1 (slice_deblocking_filter_disabled_flag h));
    opt (dbo && negb dbd) (enc_se (slice_beta_offset_div2 h));
    opt (dbo && negb dbd) (enc_se (slice_tc_offset_div2 h));
    opt (nd && nz (pps_loop_filter_across_slices_enabled_flag p) && (nz (slice_sao_luma_flag h) || nz (slice_sao_chroma_flag h) || negb dbd))
      (enc_u 1 (slice_loop_filter_across_slices_enabled_flag h));
    opt ep (enc_ue (num_entry_point_offsets h));
    opt (ep && (0 <? num_entry_point_offsets h)) (enc_ue (offset_len_minus1 h));
    opt (ep && (0 <? num_entry_point_offsets h)) (flat_map (enc_u (Z.to_nat (offset_len_minus1 h + 1))) (entry_point_offset_minus1 h));
    opt (nz (slice_segment_header_extension_present_flag p)) (enc_ue (slice_segment_header_extension_length h));
    opt (nz (slice_segment_header_extension_present_flag p)) (flat_map (enc_u 8) (slice_segment_header_extension_data_byte h)) ].

(** [RPS]: condition on the header's own short-term set.  Absent elements are 0 (collocated_from_l0_flag: 1), except those of [inferred]. *)
Definition slice_ok (std : bool) (RPS : rps -> Prop) (nut : Z) (s : sps) (p : pps) (h : slice_header) : Prop :=
  let first := nz (first_slice_segment_in_pic_flag h) in
  let nd := negb (nz (dependent_slice_segment_flag h)) in
  let np := nd && negb ((nut =? 19) || (nut =? 20)) in
  let lt := np && nz (long_term_ref_pics_present_flag s) in
  let isb := slice_type h =? 0 in
  let isp := slice_type h =? 1 in
  let pb := nd && (isp || isb) in
  let sao := nd && nz (sample_adaptive_offset_enabled_flag s) in
  let act := nd && nz (act_present p) in
  let dbo := nz (deblocking_filter_override_flag h) in
  let dbd := nz (slice_deblocking_filter_disabled_flag h) in
  let ep := nz (tiles_enabled_flag p) || nz (entropy_coding_sync_enabled_flag p) in
  u_ok 1 (first_slice_segment_in_pic_flag h) /\
  optf ((16 <=? nut) && (nut <=? 23)) (u_ok 1) 0 (no_output_of_prior_pics_flag h) /\
  ue_ok (slice_pic_parameter_set_id h) /\
  optf (negb first && nz (dependent_slice_segments_enabled_flag p)) (u_ok 1) 0 (dependent_slice_segment_flag h) /\
  (std || first || negb (CeilLog2 (PicSizeInCtbs s) =? 0)) = true /\
  optf (negb first) (u_ok (CeilLog2 (PicSizeInCtbs s))) 0 (slice_segment_address h) /\
  optf nd (vec (num_extra_slice_header_bits p) (u_ok 1)) [] (slice_reserved_flag h) /\
  optf nd ue_ok 0 (slice_type h) /\
  optf (nd && nz (output_flag_present_flag p)) (u_ok 1) 0 (pic_output_flag h) /\
  optf (nd && (separate_colour_plane_flag s =? 1)) (u_ok 2) 0 (colour_plane_id h) /\
  optf np (u_ok (log2_max_pic_order_cnt_lsb_minus4 s + 4)) 0 (slice_pic_order_cnt_lsb h) /\
  optf np (u_ok 1) 0 (short_term_ref_pic_set_sps_flag h) /\
  optf (np && negb (nz (short_term_ref_pic_set_sps_flag h))) (is_some RPS) None (sh_st_ref_pic_set h) /\
  optf (np && nz (short_term_ref_pic_set_sps_flag h) && (1 <? num_short_term_ref_pic_sets s))
    (u_ok (CeilLog2 (num_short_term_ref_pic_sets s))) 0 (short_term_ref_pic_set_idx h) /\
  optf (lt && (0 <? num_long_term_ref_pics_sps s)) ue_ok 0 (num_long_term_sps h) /\
  optf lt ue_ok 0 (num_long_term_pics h) /\
  optf lt (veci (num_long_term_sps h + num_long_term_pics h) (lt_entry_ok s (num_long_term_sps h))) [] (sh_lt h) /\
  optf (np && nz (sps_temporal_mvp_enabled_flag s)) (u_ok 1) 0 (slice_temporal_mvp_enabled_flag h) /\
  optf sao (u_ok 1) 0 (slice_sao_luma_flag h) /\
  optf (sao && negb (CAT std s =? 0)) (u_ok 1) 0 (slice_sao_chroma_flag h) /\
  optf pb (u_ok 1) 0 (num_ref_idx_active_override_flag h) /\
  optf (pb && nz (num_ref_idx_active_override_flag h)) ue_ok
    (inferred (std && pb) (num_ref_idx_l0_default_active_minus1 p)) (num_ref_idx_l0_active_minus1 h) /\
  optf (pb && nz (num_ref_idx_active_override_flag h) && isb) ue_ok
    (inferred (std && pb && isb) (num_ref_idx_l1_default_active_minus1 p)) (num_ref_idx_l1_active_minus1 h) /\
  optf (pb && isb) (u_ok 1) 0 (mvd_l1_zero_flag h) /\
  optf (pb && nz (cabac_init_present_flag p)) (u_ok 1) 0 (cabac_init_flag h) /\
  optf (pb && nz (slice_temporal_mvp_enabled_flag h) && isb) (u_ok 1) 1 (collocated_from_l0_flag h) /\
  optf (pb && nz (slice_temporal_mvp_enabled_flag h) && ((nz (collocated_from_l0_flag h) && (0 <? num_ref_idx_l0_active_minus1 h)) ||
         (negb (nz (collocated_from_l0_flag h)) && (0 <? num_ref_idx_l1_active_minus1 h)))) ue_ok 0 (collocated_ref_idx h) /\
  optf (pb && ((nz (weighted_pred_flag p) && isp) || (nz (weighted_bipred_flag p) && isb)))
    (is_some (pwt_ok (CAT std s) (num_ref_idx_l0_active_minus1 h))) None (sh_pred_weight_table h) /\
  optf pb ue_ok 0 (five_minus_max_num_merge_cand h) /\
  optf (pb && (mv_control s =? 2)) (u_ok 1) 0 (use_integer_mv_flag h) /\
  optf nd se_ok 0 (slice_qp_delta h) /\
  optf (nd && nz (pps_slice_chroma_qp_offsets_present_flag p)) se_ok 0 (slice_cb_qp_offset h) /\
  optf (nd && nz (pps_slice_chroma_qp_offsets_present_flag p)) se_ok 0 (slice_cr_qp_offset h) /\
  optf act se_ok 0 (slice_act_y_qp_offset h) /\
  optf act se_ok 0 (slice_act_cb_qp_offset h) /\
  optf act se_ok 0 (slice_act_cr_qp_offset h) /\
  optf (nd && nz (deblocking_filter_override_enabled_flag p)) (u_ok 1) 0 (deblocking_filter_override_flag h) /\
  optf dbo (u_ok 1) (inferred (std && nd) (pps_deblocking_filter_disabled_flag p)) (slice_deblocking_filter_disabled_flag h) /\
  optf (dbo && negb dbd) se_ok 0 (slice_beta_offset_div2 h) /\
  optf (dbo && negb dbd) se_ok 0 (slice_tc_offset_div2 h) /\
  optf (nd && nz (pps_loop_filter_across_slices_enabled_flag p) && (nz (slice_sao_luma_flag h) || nz (slice_sao_chroma_flag h) || negb dbd))
    (u_ok 1) 0 (slice_loop_filter_across_slices_enabled_flag h) /\
  optf ep ue_ok 0 (num_entry_point_offsets h) /\
  (negb ep || (num_entry_point_offsets h <=? ep_limit std s p)) = true /\
  optf (ep && (0 <? num_entry_point_offsets h)) (ue_le 31) 0 (offset_len_minus1 h) /\
  optf (ep && (0 <? num_entry_point_offsets h)) (vec (num_entry_point_offsets h) (u_ok (offset_len_minus1 h + 1))) [] (entry_point_offset_minus1 h) /\
  optf (nz (slice_segment_header_extension_present_flag p)) ue_ok 0 (slice_segment_header_extension_length h) /\
  optf (nz (slice_segment_header_extension_present_flag p)) (vec (slice_segment_header_extension_length h) (u_ok 8)) []
    (slice_segment_header_extension_data_byte h) /\
  sh_weighted_pred_flag h = (if pb then weighted_pred_flag p else 0) /\ sh_weighted_bipred_flag h = (if pb then weighted_bipred_flag p else 0).
