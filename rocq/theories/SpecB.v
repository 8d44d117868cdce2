(** Layouts of video_parameter_set_rbsp (7.3.2.1), SPS extensions (7.3.2.2.2-5), scaling_list_data (7.3.4) and st_ref_pic_set
    (7.3.7), with the semantics of 7.4.5 and 7.4.8. *)
From Coq Require Import ZArith List Bool.
From Verif Require Import MBase Spec Rules ReaderFacts Syntax MSyntaxA SpecA MSyntaxB.
Import ListNotations.
Open Scope Z_scope.

(** * VPS *)
Definition enc_ordering (o : ordering_info) : list bool :=
  concat [enc_ue (max_dec_pic_buffering_minus1 o); enc_ue (max_num_reorder_pics o); enc_ue (max_latency_increase_plus1 o)].
Definition ordering_ok (o : ordering_info) : Prop :=
  ue_ok (max_dec_pic_buffering_minus1 o) /\ ue_ok (max_num_reorder_pics o) /\ ue_ok (max_latency_increase_plus1 o).

(** [std] = true: the standard (cprms_present_flag is u(1), inferred to be 1 for i = 0);
    [std] = false: the code (read as ue(v), inferred to be 0). *)
Definition enc_vps_hrd (std : bool) (i : Z) (e : vps_hrd_entry) : list bool :=
  concat
  [ enc_ue (hrd_layer_set_idx e);
    opt (0 <? i) (if std then enc_u 1 (cprms_present_flag e) else enc_ue (cprms_present_flag e));
    enc_hrd (cprms_present_flag e) (vps_hrd_parameters e) ].
Definition vps_hrd_ok (std : bool) (max_sub i : Z) (e : vps_hrd_entry) : Prop :=
  ue_ok (hrd_layer_set_idx e) /\
  optf (0 <? i) (if std then u_ok 1 else ue_ok) (if std then 1 else 0) (cprms_present_flag e) /\
  hrd_ok (if std then 1 else 0) (cprms_present_flag e) max_sub (vps_hrd_parameters e).

Definition enc_vps (std : bool) (s : vps_body) : list bool :=
  let ti := nz (vps_timing_info_present_flag s) in
  concat
  [ enc_u 4 (vps_video_parameter_set_id s);
    enc_u 1 (vps_base_layer_internal_flag s);
    enc_u 1 (vps_base_layer_available_flag s);
    enc_u 6 (vps_max_layers_minus1 s);
    enc_u 3 (vps_max_sub_layers_minus1 s);
    enc_u 1 (vps_temporal_id_nesting_flag s);
    enc_u 16 (vps_reserved_0xffff_16bits s);
    enc_ptl std true (vps_max_sub_layers_minus1 s) (vps_profile_tier_level s);
    enc_u 1 (vps_sub_layer_ordering_info_present_flag s);
    flat_map enc_ordering (vps_ordering s);
    enc_u 6 (vps_max_layer_id s);
    enc_ue (vps_num_layer_sets_minus1 s);
    flat_map (flat_map (enc_u 1)) (layer_id_included_flag s);
    enc_u 1 (vps_timing_info_present_flag s);
    opt ti (enc_u 32 (vps_num_units_in_tick s));
    opt ti (enc_u 32 (vps_time_scale s));
    opt ti (enc_u 1 (vps_poc_proportional_to_timing_flag s));
    opt (ti && nz (vps_poc_proportional_to_timing_flag s)) (enc_ue (vps_num_ticks_poc_diff_one_minus1 s));
    opt ti (enc_ue (vps_num_hrd_parameters s));
    opt ti (enc_from 0 (enc_vps_hrd std) (vps_hrds s));
    enc_u 1 (vps_extension_flag s) ].
Definition vps_ok (std : bool) (s : vps_body) : Prop :=
  let ti := nz (vps_timing_info_present_flag s) in
  let max_sub := vps_max_sub_layers_minus1 s in
  u_ok 4 (vps_video_parameter_set_id s) /\
  u_ok 1 (vps_base_layer_internal_flag s) /\
  u_ok 1 (vps_base_layer_available_flag s) /\
  u_ok 6 (vps_max_layers_minus1 s) /\
  u_ok 3 max_sub /\
  u_ok 1 (vps_temporal_id_nesting_flag s) /\
  u_ok 16 (vps_reserved_0xffff_16bits s) /\
  ptl_ok std true max_sub (vps_profile_tier_level s) /\
  u_ok 1 (vps_sub_layer_ordering_info_present_flag s) /\
  vec (if nz (vps_sub_layer_ordering_info_present_flag s) then max_sub + 1 else 1) ordering_ok (vps_ordering s) /\
  0 <= vps_max_layer_id s <= 62 /\
  ue_le 1023 (vps_num_layer_sets_minus1 s) /\
  vec (vps_num_layer_sets_minus1 s) (vec (vps_max_layer_id s + 1) (u_ok 1)) (layer_id_included_flag s) /\
  u_ok 1 (vps_timing_info_present_flag s) /\
  optf ti (u_ok 32) 0 (vps_num_units_in_tick s) /\
  optf ti (u_ok 32) 0 (vps_time_scale s) /\
  optf ti (u_ok 1) 0 (vps_poc_proportional_to_timing_flag s) /\
  optf (ti && nz (vps_poc_proportional_to_timing_flag s)) (ue_le (2 ^ 32 - 2)) 0 (vps_num_ticks_poc_diff_one_minus1 s) /\
  optf ti (ue_le (vps_num_layer_sets_minus1 s + 1)) 0 (vps_num_hrd_parameters s) /\
  optf ti (veci (vps_num_hrd_parameters s) (vps_hrd_ok std max_sub)) [] (vps_hrds s) /\
  u_ok 1 (vps_extension_flag s).

(** * SPS extensions *)
Definition enc_sps_range_ext (s : sps_range_ext) : list bool :=
  concat
  [ enc_u 1 (transform_skip_rotation_enabled_flag s); enc_u 1 (transform_skip_context_enabled_flag s);
    enc_u 1 (implicit_rdpcm_enabled_flag s); enc_u 1 (explicit_rdpcm_enabled_flag s);
    enc_u 1 (extended_precision_processing_flag s); enc_u 1 (intra_smoothing_disabled_flag s);
    enc_u 1 (high_precision_offsets_enabled_flag s); enc_u 1 (persistent_rice_adaptation_enabled_flag s);
    enc_u 1 (cabac_bypass_alignment_enabled_flag s) ].
Definition sps_range_ext_ok (s : sps_range_ext) : Prop :=
  u_ok 1 (transform_skip_rotation_enabled_flag s) /\ u_ok 1 (transform_skip_context_enabled_flag s) /\
  u_ok 1 (implicit_rdpcm_enabled_flag s) /\ u_ok 1 (explicit_rdpcm_enabled_flag s) /\
  u_ok 1 (extended_precision_processing_flag s) /\ u_ok 1 (intra_smoothing_disabled_flag s) /\
  u_ok 1 (high_precision_offsets_enabled_flag s) /\ u_ok 1 (persistent_rice_adaptation_enabled_flag s) /\
  u_ok 1 (cabac_bypass_alignment_enabled_flag s).

Definition enc_sps_3d_ext (s : sps_3d_ext) : list bool :=
  concat
  [ enc_u 1 (iv_di_mc_enabled_flag0 s); enc_u 1 (iv_mv_scal_enabled_flag0 s); enc_ue (log2_ivmc_sub_pb_size_minus3 s);
    enc_u 1 (iv_res_pred_enabled_flag s); enc_u 1 (depth_ref_enabled_flag s); enc_u 1 (vsp_mc_enabled_flag s);
    enc_u 1 (dbbp_enabled_flag s);
    enc_u 1 (iv_di_mc_enabled_flag1 s); enc_u 1 (iv_mv_scal_enabled_flag1 s); enc_u 1 (tex_mc_enabled_flag s);
    enc_ue (log2_texmc_sub_pb_size_minus3 s); enc_u 1 (intra_contour_enabled_flag s);
    enc_u 1 (intra_dc_only_wedge_enabled_flag s); enc_u 1 (cqt_cu_part_pred_enabled_flag s);
    enc_u 1 (inter_dc_only_enabled_flag s); enc_u 1 (skip_intra_enabled_flag s) ].
Definition sps_3d_ext_ok (s : sps_3d_ext) : Prop :=
  u_ok 1 (iv_di_mc_enabled_flag0 s) /\ u_ok 1 (iv_mv_scal_enabled_flag0 s) /\ ue_ok (log2_ivmc_sub_pb_size_minus3 s) /\
  u_ok 1 (iv_res_pred_enabled_flag s) /\ u_ok 1 (depth_ref_enabled_flag s) /\ u_ok 1 (vsp_mc_enabled_flag s) /\
  u_ok 1 (dbbp_enabled_flag s) /\
  u_ok 1 (iv_di_mc_enabled_flag1 s) /\ u_ok 1 (iv_mv_scal_enabled_flag1 s) /\ u_ok 1 (tex_mc_enabled_flag s) /\
  ue_ok (log2_texmc_sub_pb_size_minus3 s) /\ u_ok 1 (intra_contour_enabled_flag s) /\
  u_ok 1 (intra_dc_only_wedge_enabled_flag s) /\ u_ok 1 (cqt_cu_part_pred_enabled_flag s) /\
  u_ok 1 (inter_dc_only_enabled_flag s) /\ u_ok 1 (skip_intra_enabled_flag s).

(** Bit depth of colour component [comp]. *)
Definition comp_depth (luma8 chroma8 comp : Z) : Z := if comp =? 0 then 8 + luma8 else 8 + chroma8.
Definition enc_sps_scc_ext (luma8 chroma8 : Z) (s : sps_scc_ext) : list bool :=
  let pal := nz (palette_mode_enabled_flag s) in
  let pi := pal && nz (sps_palette_predictor_initializers_present_flag s) in
  concat
  [ enc_u 1 (sps_curr_pic_ref_enabled_flag s);
    enc_u 1 (palette_mode_enabled_flag s);
    opt pal (enc_ue (palette_max_size s));
    opt pal (enc_ue (delta_palette_max_predictor_size s));
    opt pal (enc_u 1 (sps_palette_predictor_initializers_present_flag s));
    opt pi (enc_ue (sps_num_palette_predictor_initializers_minus1 s));
    opt pi (enc_from 0 (fun comp => flat_map (enc_u (Z.to_nat (comp_depth luma8 chroma8 comp)))) (sps_palette_predictor_initializers s));
    enc_u 2 (motion_vector_resolution_control_idc s);
    enc_u 1 (intra_boundary_filtering_disabled_flag s) ].
Definition sps_scc_ext_ok (chroma_format_idc luma8 chroma8 : Z) (s : sps_scc_ext) : Prop :=
  let pal := nz (palette_mode_enabled_flag s) in
  let pi := pal && nz (sps_palette_predictor_initializers_present_flag s) in
  u_ok 1 (sps_curr_pic_ref_enabled_flag s) /\
  u_ok 1 (palette_mode_enabled_flag s) /\
  optf pal (ue_le 64) 0 (palette_max_size s) /\
  optf pal (ue_le 128) 0 (delta_palette_max_predictor_size s) /\
  optf pal (u_ok 1) 0 (sps_palette_predictor_initializers_present_flag s) /\
  optf pi (ue_le 127) 0 (sps_num_palette_predictor_initializers_minus1 s) /\
  optf pi (veci (if chroma_format_idc =? 0 then 1 else 3)
             (fun comp => vec (sps_num_palette_predictor_initializers_minus1 s + 1) (u_ok (comp_depth luma8 chroma8 comp))))
       [] (sps_palette_predictor_initializers s) /\
  u_ok 2 (motion_vector_resolution_control_idc s) /\
  u_ok 1 (intra_boundary_filtering_disabled_flag s).

(** * scaling_list_data *)
(** nextCoef = ( nextCoef + scaling_list_delta_coef + 256 ) % 256 *)
Fixpoint scaling_coefs (next : Z) (deltas : list Z) : list Z :=
  match deltas with
  | [] => []
  | d :: r => let c := (next + d + 256) mod 256 in c :: scaling_coefs c r
  end.
(** coefNum = Min( 64, ( 1 << ( 4 + ( sizeId << 1 ) ) ) ) *)
Definition coef_num (sizeId : Z) : Z := if sizeId =? 0 then 16 else 64.
Definition enc_scaling_list (sizeId : Z) (s : scaling_list) : list bool :=
  let mode := nz (sl_pred_mode_flag s) in
  concat
  [ enc_u 1 (sl_pred_mode_flag s);
    opt (negb mode) (enc_ue (sl_pred_matrix_id_delta s));
    opt (mode && (1 <? sizeId)) (enc_se (sl_dc s));
    opt mode (flat_map enc_se (sl_deltas s)) ].
(** [P]: the range of the se(v) values: [se_ok] for what the parser returns, [sl_range] for what it is sure to accept (the standard has
    -7..247 for the dc coefficient and -128..127 for the deltas). *)
Definition sl_range (v : Z) : Prop := - 2 ^ 29 < v < 2 ^ 29.
Definition scaling_list_ok (P : Z -> Prop) (sizeId : Z) (s : scaling_list) : Prop :=
  let mode := nz (sl_pred_mode_flag s) in
  let start := if 1 <? sizeId then sl_dc s + 8 else 8 in
  u_ok 1 (sl_pred_mode_flag s) /\
  optf (negb mode) ue_ok 0 (sl_pred_matrix_id_delta s) /\
  optf (mode && (1 <? sizeId)) P 0 (sl_dc s) /\
  optf mode (fun l => length l = Z.to_nat (coef_num sizeId) /\ Forall P l) [] (sl_deltas s) /\
  sl_coefs s = scaling_coefs start (sl_deltas s).
Definition enc_scaling_list_data (s : list (list scaling_list)) : list bool :=
  enc_from 0 (fun sizeId => flat_map (enc_scaling_list sizeId)) s.
Definition scaling_list_data_ok (P : Z -> Prop) (s : list (list scaling_list)) : Prop :=
  veci 4 (fun sizeId => vec (if sizeId =? 3 then 2 else 6) (scaling_list_ok P sizeId)) s.

(** * st_ref_pic_set *)
Definition enc_rps_flag (f : Z * Z) : list bool := concat [enc_u 1 (fst f); opt (negb (nz (fst f))) (enc_u 1 (snd f))].
Definition rps_flag_ok (f : Z * Z) : Prop := u_ok 1 (fst f) /\ optf (negb (nz (fst f))) (u_ok 1) 1 (snd f).
Definition enc_rps_entry (e : Z * Z) : list bool := concat [enc_ue (fst e); enc_u 1 (snd e)].
Definition rps_entry_ok (e : Z * Z) : Prop := ue_ok (fst e) /\ u_ok 1 (snd e).
Definition enc_rps (idx num : Z) (s : rps) : list bool :=
  let inter := nz (inter_ref_pic_set_prediction_flag s) in
  opt (negb (idx =? 0)) (enc_u 1 (inter_ref_pic_set_prediction_flag s)) ++
  (if inter then concat
     [ opt (idx =? num) (enc_ue (delta_idx_minus1 s));
       enc_u 1 (delta_rps_sign s);
       enc_ue (abs_delta_rps_minus1 s);
       flat_map enc_rps_flag (rps_flags s) ]
   else concat
     [ enc_ue (num_negative_pics s);
       enc_ue (num_positive_pics s);
       flat_map enc_rps_entry (rps_s0 s);
       flat_map enc_rps_entry (rps_s1 s) ]).

(** Picture order count differences of a set, equations 7-65 to 7-68: DeltaPocS0[ i ] = DeltaPocS0[ i - 1 ] - ( delta_poc_s0_minus1[ i ] + 1 )
    ([sign] = -1), DeltaPocS1 likewise with + ([sign] = 1). *)
Fixpoint delta_pocs (sign prev : Z) (l : list (Z * Z)) : list Z :=
  match l with
  | [] => []
  | e :: r => let d := prev + sign * (fst e + 1) in d :: delta_pocs sign d r
  end.
Definition DeltaPocS0 (s : rps) : list Z := delta_pocs (-1) 0 (rps_s0 s).
Definition DeltaPocS1 (s : rps) : list Z := delta_pocs 1 0 (rps_s1 s).

(** Equations 7-61 and 7-62 as lists of (difference, used flag): the candidates in the order of the standard, those kept being the ones
    with use_delta_flag set and the right sign. *)
Definition shift_by (delta_rps : Z) (refs : list Z) (flags : list (Z * Z)) : list (Z * (Z * Z)) :=
  combine (map (fun d => d + delta_rps) refs) flags.
Definition keep (sign : Z) (c : list (Z * (Z * Z))) : list (Z * Z) :=
  map (fun x => (fst x, fst (snd x))) (filter (fun x => (0 <? sign * fst x) && nz (snd (snd x))) c).
Definition inter_spec (ref : rps) (delta_rps : Z) (flags : list (Z * Z)) : list (Z * Z) * list (Z * Z) :=
  let n0 := length (rps_s0 ref) in
  let n1 := length (rps_s1 ref) in
  let c0 := shift_by delta_rps (DeltaPocS0 ref) (firstn n0 flags) in
  let c1 := shift_by delta_rps (DeltaPocS1 ref) (firstn n1 (skipn n0 flags)) in
  let cr := shift_by delta_rps [0] (skipn (n0 + n1) flags) in
  (keep (-1) (rev c1 ++ cr ++ c0), keep 1 (rev c0 ++ cr ++ c1)).
(** (1 - 2 * delta_rps_sign) * (abs_delta_rps_minus1 + 1), equation 7-60 *)
Definition delta_rps_of (s : rps) : Z := (1 - 2 * delta_rps_sign s) * (abs_delta_rps_minus1 s + 1).
(** RefRpsIdx = stRpsIdx - ( delta_idx_minus1 + 1 ), equation 7-59 *)
Definition ref_idx (idx : Z) (s : rps) : Z := idx - (delta_idx_minus1 s + 1).
Definition rps_dummy : rps := mkRPS 0 0 0 0 [] 0 0 [] [].
Definition ref_of (idx : Z) (sets : list rps) (s : rps) : rps := znth sets (ref_idx idx s) rps_dummy.

(** What every returned set satisfies. *)
Definition rps_shape (s : rps) : Prop :=
  num_negative_pics s = Z.of_nat (length (rps_s0 s)) /\ num_positive_pics s = Z.of_nat (length (rps_s1 s)) /\
  num_negative_pics s + num_positive_pics s <= 16 /\
  Forall (fun e => 0 <= fst e < 2 ^ 32 /\ u_ok 1 (snd e)) (rps_s0 s) /\ Forall (fun e => 0 <= fst e < 2 ^ 32 /\ u_ok 1 (snd e)) (rps_s1 s).
Definition rps_ok (idx num : Z) (sets : list rps) (max_num_pics : Z) (s : rps) : Prop :=
  rps_shape s /\ num <= 64 /\
  optf (negb (idx =? 0)) (u_ok 1) 0 (inter_ref_pic_set_prediction_flag s) /\
  (if nz (inter_ref_pic_set_prediction_flag s) then
     optf (idx =? num) ue_ok 0 (delta_idx_minus1 s) /\
     0 <= ref_idx idx s < idx /\
     u_ok 1 (delta_rps_sign s) /\
     ue_le 32767 (abs_delta_rps_minus1 s) /\
     (let total := num_negative_pics (ref_of idx sets s) + num_positive_pics (ref_of idx sets s) in
      total <= 15 /\ vec (total + 1) rps_flag_ok (rps_flags s))
   else
     delta_idx_minus1 s = 0 /\ delta_rps_sign s = 0 /\ abs_delta_rps_minus1 s = 0 /\ rps_flags s = [] /\
     num_negative_pics s + num_positive_pics s <= max_num_pics /\
     Forall rps_entry_ok (rps_s0 s) /\ Forall rps_entry_ok (rps_s1 s)).

(** All the differences of a set are below [B] in absolute value. *)
Definition rps_bounded (B : Z) (s : rps) : Prop :=
  Forall (fun d => - B <= d <= B) (DeltaPocS0 s) /\ Forall (fun d => - B <= d <= B) (DeltaPocS1 s).
(** The derived lists are those of the standard. *)
Definition rps_derived (idx : Z) (sets : list rps) (s : rps) : Prop :=
  nz (inter_ref_pic_set_prediction_flag s) = true ->
  let spec := inter_spec (ref_of idx sets s) (delta_rps_of s) (rps_flags s) in
  combine (DeltaPocS0 s) (map snd (rps_s0 s)) = fst spec /\ combine (DeltaPocS1 s) (map snd (rps_s1 s)) = snd spec.
