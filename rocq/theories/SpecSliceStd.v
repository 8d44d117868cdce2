(** slice_segment_header() of the standard in full (7.3.6.1 to 7.3.6.3, 7.4.7.1), with the parts that the parser does not have: reference picture list
    modification and the list 1 half of pred_weight_table().  (cu_chroma_qp_offset_enabled_flag needs the PPS range extension, which ParsePps rejects: C36.) *)
From Coq Require Import ZArith List Bool.
From Verif Require Import MBase Spec Rules ReaderFacts Syntax SyntaxSe MSyntaxA SpecA MSyntaxB SpecB FactsRps MSps SpecSps MPps SpecPps MSlice SpecSlice FactsSlice.
Import ListNotations.
Open Scope Z_scope.

(** The weights of list 1; each entry as for list 0. *)
Record weights : Type := mkW { w_luma_flag : list Z; w_chroma_flag : list Z; w_entries : list (option (Z * Z) * option quad) }.
(** A slice segment header: the fields the parser knows, and the others.  [modification_l0], [modification_l1]: ref_pic_list_modification_flag_lX and
    list_entry_lX.  [current_l0], [current_l1]: for each entry of the reference picture lists, whether it is the current picture itself. *)
Record std_header : Type := mkStd {
  base : slice_header; modification_l0 : option (Z * list Z); modification_l1 : option (Z * list Z); weights_l1 : option weights;
  current_l0 : list bool; current_l1 : list bool }.

(** (7-55) NumPicTotalCurr: the pictures of the current picture's reference picture set that it may refer to *)
Definition active_rps (s : sps) (h : slice_header) : rps :=
  if nz (short_term_ref_pic_set_sps_flag h) then znth (sps_st_ref_pic_set s) (short_term_ref_pic_set_idx h) rps_dummy
  else match sh_st_ref_pic_set h with Some r => r | None => rps_dummy end.
Definition used (l : list (Z * Z)) : Z := Z.of_nat (length (filter (fun e => nz (snd e)) l)).
(** UsedByCurrPicLt[ i ] (7-52) *)
Definition UsedByCurrPicLt (s : sps) (h : slice_header) (i : Z) (e : lt_entry) : Z :=
  if i <? num_long_term_sps h then snd (znth (sps_lt s) (lt_idx_sps e) (0, 0)) else used_by_curr_pic_lt_flag e.
Fixpoint used_lt (s : sps) (h : slice_header) (i : Z) (l : list lt_entry) : Z :=
  match l with [] => 0 | e :: r => (if nz (UsedByCurrPicLt s h i e) then 1 else 0) + used_lt s h (i + 1) r end.
Definition curr_pic_ref (p : pps) : Z := match pps_scc_extension p with Some e => pps_curr_pic_ref_enabled_flag e | None => 0 end.
Definition NumPicTotalCurr (s : sps) (p : pps) (h : slice_header) : Z :=
  used (rps_s0 (active_rps s h)) + used (rps_s1 (active_rps s h)) + used_lt s h 0 (sh_lt h) + (if nz (curr_pic_ref p) then 1 else 0).

(** 7.3.6.2 ref_pic_lists_modification(), one list of [n] entries *)
Definition enc_modification (total : Z) (m : Z * list Z) : list bool :=
  concat [enc_u 1 (fst m); opt (nz (fst m)) (flat_map (enc_u (Z.to_nat (CeilLog2 total))) (snd m))].
Definition modification_ok (total n : Z) (m : Z * list Z) : Prop :=
  u_ok 1 (fst m) /\ optf (nz (fst m)) (vec n (fun v => 0 <= v < total)) [] (snd m).
(** 7.3.6.3 pred_weight_table(): a flag is only sent for a reference picture other than the current picture. *)
Definition enc_weight_flags (current : list bool) (flags : list Z) : list bool :=
  concat (map (fun cf => opt (negb (fst cf)) (enc_u 1 (snd cf))) (combine current flags)).
Definition enc_std_pwt (cat : Z) (isb : bool) (H : std_header) (t : pwt) : list bool :=
  concat
  [ enc_ue (luma_log2_weight_denom t);
    opt (negb (cat =? 0)) (enc_se (delta_chroma_log2_weight_denom t));
    enc_weight_flags (current_l0 H) (luma_weight_l0_flag t);
    opt (negb (cat =? 0)) (enc_weight_flags (current_l0 H) (chroma_weight_l0_flag t));
    enc_from 0 (enc_pwt_entry (luma_weight_l0_flag t) (chroma_weight_l0_flag t)) (pwt_entries t);
    opt isb (enc_opt (fun w => concat
      [ enc_weight_flags (current_l1 H) (w_luma_flag w);
        opt (negb (cat =? 0)) (enc_weight_flags (current_l1 H) (w_chroma_flag w));
        enc_from 0 (enc_pwt_entry (w_luma_flag w) (w_chroma_flag w)) (w_entries w) ]) (weights_l1 H)) ].
Definition weights_ok (cat n : Z) (w : weights) : Prop :=
  vec (n + 1) (u_ok 1) (w_luma_flag w) /\ optf (negb (cat =? 0)) (vec (n + 1) (u_ok 1)) [] (w_chroma_flag w) /\
  veci (n + 1) (pwt_entry_ok (w_luma_flag w) (w_chroma_flag w)) (w_entries w).
(** One mark per entry of the list; a current picture only with pps_curr_pic_ref_enabled_flag, and without weights. *)
Definition current_ok (p : pps) (n : Z) (current : list bool) (flags1 flags2 : list Z) : Prop :=
  Z.of_nat (length current) = n + 1 /\ (In true current -> nz (curr_pic_ref p) = true) /\
  forall i, nth i current false = true -> nth i flags1 0 = 0 /\ nth i flags2 0 = 0.

(** 7.3.6.1 slice_segment_header() *)
Definition enc_std (nut : Z) (s : sps) (p : pps) (H : std_header) : list bool :=
  let h := base H in
  let first := nz (first_slice_segment_in_pic_flag h) in
  let nd := negb (nz (dependent_slice_segment_flag h)) in
  let np := nd && negb ((nut =? 19) || (nut =? 20)) in
  let lt := np && nz (long_term_ref_pics_present_flag s) in
  let isb := slice_type h =? 0 in
  let isp := slice_type h =? 1 in
  let pb := nd && (isp || isb) in
  let sao := nd && nz (sample_adaptive_offset_enabled_flag s) in
  let act := nd && nz (act_present p) in
  let dbo := nz (deblocking_filter_override_flag h) in
  let dbd := nz (slice_deblocking_filter_disabled_flag h) in
  let ep := nz (tiles_enabled_flag p) || nz (entropy_coding_sync_enabled_flag p) in
  let total := NumPicTotalCurr s p h in
  let modification := pb && nz (lists_modification_present_flag p) && (1 <? total) in
  concat
  [ enc_u 1 (first_slice_segment_in_pic_flag h);
    opt ((16 <=? nut) && (nut <=? 23)) (enc_u 1 (no_output_of_prior_pics_flag h));
    enc_ue (slice_pic_parameter_set_id h);
    opt (negb first && nz (dependent_slice_segments_enabled_flag p)) (enc_u 1 (dependent_slice_segment_flag h));
    opt (negb first) (enc_u (Z.to_nat (CeilLog2 (PicSizeInCtbs s))) (slice_segment_address h));
    opt nd (flat_map (enc_u 1) (slice_reserved_flag h));
    opt nd (enc_ue (slice_type h));
    opt (nd && nz (output_flag_present_flag p)) (enc_u 1 (pic_output_flag h));
    opt (nd && (separate_colour_plane_flag s =? 1)) (enc_u 2 (colour_plane_id h));
    opt np (enc_u (Z.to_nat (log2_max_pic_order_cnt_lsb_minus4 s + 4)) (slice_pic_order_cnt_lsb h));
    opt np (enc_u 1 (short_term_ref_pic_set_sps_flag h));
    opt (np && negb (nz (short_term_ref_pic_set_sps_flag h)))
      (enc_opt (enc_rps (num_short_term_ref_pic_sets s) (num_short_term_ref_pic_sets s)) (sh_st_ref_pic_set h));
    opt (np && nz (short_term_ref_pic_set_sps_flag h) && (1 <? num_short_term_ref_pic_sets s))
      (enc_u (Z.to_nat (CeilLog2 (num_short_term_ref_pic_sets s))) (short_term_ref_pic_set_idx h));
    opt (lt && (0 <? num_long_term_ref_pics_sps s)) (enc_ue (num_long_term_sps h));
    opt lt (enc_ue (num_long_term_pics h));
    opt lt (enc_from 0 (enc_lt_entry s (num_long_term_sps h)) (sh_lt h));
    opt (np && nz (sps_temporal_mvp_enabled_flag s)) (enc_u 1 (slice_temporal_mvp_enabled_flag h));
    opt sao (enc_u 1 (slice_sao_luma_flag h));
    opt (sao && negb (CAT true s =? 0)) (enc_u 1 (slice_sao_chroma_flag h));
    opt pb (enc_u 1 (num_ref_idx_active_override_flag h));
    opt (pb && nz (num_ref_idx_active_override_flag h)) (enc_ue (num_ref_idx_l0_active_minus1 h));
    opt (pb && nz (num_ref_idx_active_override_flag h) && isb) (enc_ue (num_ref_idx_l1_active_minus1 h));
    opt modification (enc_opt (enc_modification total) (modification_l0 H));
    opt (modification && isb) (enc_opt (enc_modification total) (modification_l1 H));
    opt (pb && isb) (enc_u 1 (mvd_l1_zero_flag h));
    opt (pb && nz (cabac_init_present_flag p)) (enc_u 1 (cabac_init_flag h));
    opt (pb && nz (slice_temporal_mvp_enabled_flag h) && isb) (enc_u 1 (collocated_from_l0_flag h));
    opt (pb && nz (slice_temporal_mvp_enabled_flag h) && ((nz (collocated_from_l0_flag h) && (0 <? num_ref_idx_l0_active_minus1 h)) ||
         (negb (nz (collocated_from_l0_flag h)) && (0 <? num_ref_idx_l1_active_minus1 h)))) (enc_ue (collocated_ref_idx h));
    opt (pb && ((nz (weighted_pred_flag p) && isp) || (nz (weighted_bipred_flag p) && isb)))
      (enc_opt (enc_std_pwt (CAT true s) isb H) (sh_pred_weight_table h));
    opt pb (enc_ue (five_minus_max_num_merge_cand h));
    opt (pb && (mv_control s =? 2)) (enc_u 1 (use_integer_mv_flag h));
    opt nd (enc_se (slice_qp_delta h));
    opt (nd && nz (pps_slice_chroma_qp_offsets_present_flag p)) (enc_se (slice_cb_qp_offset h));
    opt (nd && nz (pps_slice_chroma_qp_offsets_present_flag p)) (enc_se (slice_cr_qp_offset h));
    opt act (enc_se (slice_act_y_qp_offset h));
    opt act (enc_se (slice_act_cb_qp_offset h));
    opt act (enc_se (slice_act_cr_qp_offset h));
    opt (nd && nz (deblocking_filter_override_enabled_flag p)) (enc_u 1 (deblocking_filter_override_flag h));
    opt dbo (enc_u 1 (slice_deblocking_filter_disabled_flag h));
    opt (dbo && negb dbd) (enc_se (slice_beta_offset_div2 h));
    opt (dbo && negb dbd) (enc_se (slice_tc_offset_div2 h));
    opt (nd && nz (pps_loop_filter_across_slices_enabled_flag p) && (nz (slice_sao_luma_flag h) || nz (slice_sao_chroma_flag h) || negb dbd))
      (enc_u 1 (slice_loop_filter_across_slices_enabled_flag h));
    opt ep (enc_ue (num_entry_point_offsets h));
    opt (ep && (0 <? num_entry_point_offsets h)) (enc_ue (offset_len_minus1 h));
    opt (ep && (0 <? num_entry_point_offsets h)) (flat_map (enc_u (Z.to_nat (offset_len_minus1 h + 1))) (entry_point_offset_minus1 h));
    opt (nz (slice_segment_header_extension_present_flag p)) (enc_ue (slice_segment_header_extension_length h));
    opt (nz (slice_segment_header_extension_present_flag p)) (flat_map (enc_u 8) (slice_segment_header_extension_data_byte h)) ].

(** Presence and ranges: [slice_ok true] for the fields the parser knows (SpecSlice.v), and those of the others. *)
Definition std_ok (nut : Z) (s : sps) (p : pps) (H : std_header) : Prop :=
  let h := base H in
  let nd := negb (nz (dependent_slice_segment_flag h)) in
  let isb := slice_type h =? 0 in
  let isp := slice_type h =? 1 in
  let pb := nd && (isp || isb) in
  let total := NumPicTotalCurr s p h in
  let modification := pb && nz (lists_modification_present_flag p) && (1 <? total) in
  slice_ok true (own_rps_std s) nut s p h /\
  (nz (first_slice_segment_in_pic_flag h) = false -> 1 <= slice_segment_address h < PicSizeInCtbs s) /\
  optf modification (is_some (modification_ok total (num_ref_idx_l0_active_minus1 h + 1))) None (modification_l0 H) /\
  optf (modification && isb) (is_some (modification_ok total (num_ref_idx_l1_active_minus1 h + 1))) None (modification_l1 H) /\
  optf (pb && isb && nz (weighted_bipred_flag p)) (is_some (weights_ok (CAT true s) (num_ref_idx_l1_active_minus1 h))) None (weights_l1 H) /\
  (forall t, sh_pred_weight_table h = Some t -> current_ok p (num_ref_idx_l0_active_minus1 h) (current_l0 H) (luma_weight_l0_flag t) (chroma_weight_l0_flag t)) /\
  (forall w, weights_l1 H = Some w -> current_ok p (num_ref_idx_l1_active_minus1 h) (current_l1 H) (w_luma_flag w) (w_chroma_flag w)).
