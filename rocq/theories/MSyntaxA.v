(** Model of: nal_unit_header, access unit delimiter, profile_tier_level, (sub_layer_)hrd_parameters,
    vui_parameters.
    Conventions (DESIGN.md section 1): a C++ state object is a record built when the parser
    returns; [when c (read) d] is "if (c) { read } " with the C++ initial value [d], nested ifs being
    flattened into conjunctions; parallel vectors that are pushed to once per loop iteration are one
    list of per-iteration records; the stored copies of input arguments are omitted. *)
From Coq Require Import ZArith List Bool.
From Verif Require Import MBase MBitBuffer Spec Syntax MCommon.
Import ListNotations.
Open Scope Z_scope.
Open Scope monad_scope.

(** [BitBuffer bit_buffer(bytes, count); return Parse(&bit_buffer);]  [None] = nullptr / false.
    The constructor (src/rtc_common.cc:78-82) asserts count <= UINT32_MAX. *)
Definition on_buffer {A} (m : M A) (bytes : list Z) : outcome (option A) :=
  if init_ok bytes then
    match m (mk_bb bytes) with
    | Ok a _ => Done (Some a)
    | Fail _ => Done None
    | Err e => Bad e
    end
  else Bad AssertFail.

(** The (data, length) overload every parser has: UnescapeRbsp, then parse, e.g.
    src/h265_sps_parser.cc:26-32, src/h265_aud_parser.cc:22-27. *)
Definition on_data {A} (m : M A) (data : list Z) : outcome (option A) :=
  match UnescapeRbsp data with
  | Bad e => Bad e
  | Done bytes => on_buffer m bytes
  end.

(** include/h265_nal_unit_header_parser.h:33-36 *)
Record nal_header : Type := mkNH {
  forbidden_zero_bit : Z; nal_unit_type : Z; nuh_layer_id : Z; nuh_temporal_id_plus1 : Z }.

(** src/h265_nal_unit_header_parser.cc:45-73 ParseNalUnitHeader *)
Definition ParseNalUnitHeader : M nal_header :=
  fzb <- ReadBits 1 ;;
  ty <- ReadBits 6 ;;
  lay <- ReadBits 6 ;;
  tid <- ReadBits 3 ;;
  ret (mkNH fzb ty lay tid).

(** src/h265_nal_unit_header_parser.cc:31-43 GetNalUnitType: note that the data are not unescaped.
    [None] = returned false. *)
Definition GetNalUnitType (data : list Z) : outcome (option Z) :=
  on_buffer (h <- ParseNalUnitHeader ;; ret (nal_unit_type h)) data.

(** src/h265_aud_parser.cc:29-44 ParseAud: the result of rbsp_trailing_bits is ignored. *)
Definition ParseAud : M Z :=
  pic_type <- ReadBits 3 ;;
  attempt rbsp_trailing_bits ;;;
  ret pic_type.

(** include/h265_profile_tier_level_parser.h:38-62 struct ProfileInfoState (profile_type, a function
    of the others, is [GetProfileType]) *)
Record profile_info : Type := mkPI {
  profile_space : Z; tier_flag : Z; profile_idc : Z;
  profile_compatibility_flag : list Z;
  progressive_source_flag : Z; interlaced_source_flag : Z;
  non_packed_constraint_flag : Z; frame_only_constraint_flag : Z;
  max_12bit_constraint_flag : Z; max_10bit_constraint_flag : Z; max_8bit_constraint_flag : Z;
  max_422chroma_constraint_flag : Z; max_420chroma_constraint_flag : Z;
  max_monochrome_constraint_flag : Z; intra_constraint_flag : Z;
  reserved_zero_7bits : Z;
  one_picture_only_constraint_flag : Z;
  lower_bit_rate_constraint_flag : Z;
  max_14bit_constraint_flag : Z; reserved_zero_33bits : Z; reserved_zero_34bits : Z;
  reserved_zero_35bits : Z; reserved_zero_43bits : Z;
  inbld_flag : Z; reserved_zero_bit : Z }.

(** [profile_idc == j || profile_compatibility_flag[j] == 1] for some j of the list.  The array
    has 32 elements, all read before. *)
Definition idc_or_compat (idc : Z) (compat : list Z) (js : list Z) : bool :=
  existsb (fun j => (idc =? j) || (znth compat j 0 =? 1)) js.

(** src/h265_profile_tier_level_parser.cc:107-306 ParseProfileInfo.
    The three-way if of lines 153-270 is flattened; one_picture_only_constraint_flag, which is the
    eighth bit in both branches that have it, is read once. *)
Definition ParseProfileInfo : M profile_info :=
  space <- ReadBits 2 ;;
  tier <- ReadBits 1 ;;
  idc <- ReadBits 5 ;;
  compat <- collect 32 (fun _ => ReadBits 1) ;;
  progressive <- ReadBits 1 ;;
  interlaced <- ReadBits 1 ;;
  non_packed <- ReadBits 1 ;;
  frame_only <- ReadBits 1 ;;
  let c4 := idc_or_compat idc compat [4; 5; 6; 7; 8; 9; 10; 11] in
  let c5 := idc_or_compat idc compat [5; 9; 10; 11] in
  let c2 := idc_or_compat idc compat [2] in
  f12 <- when c4 (ReadBits 1) 0 ;;
  f10 <- when c4 (ReadBits 1) 0 ;;
  f8 <- when c4 (ReadBits 1) 0 ;;
  f422 <- when c4 (ReadBits 1) 0 ;;
  f420 <- when c4 (ReadBits 1) 0 ;;
  fmono <- when c4 (ReadBits 1) 0 ;;
  fintra <- when c4 (ReadBits 1) 0 ;;
  rz7 <- when (negb c4 && c2) (ReadBits 7) 0 ;;
  fone <- when (c4 || c2) (ReadBits 1) 0 ;;
  flower <- when c4 (ReadBits 1) 0 ;;
  f14 <- when (c4 && c5) (ReadBits 1) 0 ;;
  rz33 <- when (c4 && c5) (ReadHiLo 1) 0 ;;
  rz34 <- when (c4 && negb c5) (ReadHiLo 2) 0 ;;
  rz35 <- when (negb c4 && c2) (ReadHiLo 3) 0 ;;
  rz43 <- when (negb c4 && negb c2) (ReadHiLo 11) 0 ;;
  let ci := idc_or_compat idc compat [1; 2; 3; 4; 5; 9; 11] in
  inbld <- when ci (ReadBits 1) 0 ;;
  rzb <- when (negb ci) (ReadBits 1) 0 ;;
  ret (mkPI space tier idc compat progressive interlaced non_packed frame_only f12 f10 f8 f422 f420
            fmono fintra rz7 fone flower f14 rz33 rz34 rz35 rz43 inbld rzb).

(** include/h265_profile_tier_level_parser.h:98-110.  [ptl_sub_layers]: for each sub-layer what the
    loop at lines 85-101 pushed on sub_layer and sub_layer_level_idc (nothing, or one element of
    each). *)
Record ptl : Type := mkPTL {
  ptl_general : option profile_info;
  ptl_general_level_idc : Z;
  ptl_sub_layer_flags : list (Z * Z);   (* (profile_present, level_present) *)
  ptl_reserved_zero_2bits : list Z;
  ptl_sub_layers : list (option profile_info * Z) }.

Definition read_sub_layer_flags : M (Z * Z) :=
  p <- ReadBits 1 ;; l <- ReadBits 1 ;; ret (p, l).
(** src/h265_profile_tier_level_parser.cc:86-101; line 95 tests the profile flag again. *)
Definition read_sub_layer (flags : list (Z * Z)) (i : Z) : M (option profile_info * Z) :=
  fl <- at_ flags i ;;
  info <- when (nz (fst fl)) (some ParseProfileInfo) None ;;
  level <- when (nz (fst fl)) (ReadBits 8) 0 ;;
  ret (info, level).

(** src/h265_profile_tier_level_parser.cc:34-104 ParseProfileTierLevel *)
Definition ParseProfileTierLevel (profilePresentFlag : bool) (maxNumSubLayersMinus1 : Z) : M ptl :=
  general <- when profilePresentFlag (some ParseProfileInfo) None ;;
  level <- ReadBits 8 ;;
  flags <- collect maxNumSubLayersMinus1 (fun _ => read_sub_layer_flags) ;;
  rz <- when (0 <? maxNumSubLayersMinus1) (collect (8 - maxNumSubLayersMinus1) (fun _ => ReadBits 2)) [] ;;
  subs <- collect maxNumSubLayersMinus1 (read_sub_layer flags) ;;
  ret (mkPTL general level flags rz subs).

(** include/h265_sub_layer_hrd_parameters_parser.h:41-46: one element per CPB entry of the five
    parallel vectors. *)
Record cpb_entry : Type := mkCPB {
  bit_rate_value_minus1 : Z; cpb_size_value_minus1 : Z;
  cpb_size_du_value_minus1 : Z; bit_rate_du_value_minus1 : Z; cbr_flag : Z }.

(** src/h265_sub_layer_hrd_parameters_parser.cc:52-87: the loop body *)
Definition read_cpb_entry (sub_pic : Z) : M cpb_entry :=
  br <- ReadExponentialGolomb ;;
  cs <- ReadExponentialGolomb ;;
  csd <- when (nz sub_pic) ReadExponentialGolomb 0 ;;
  brd <- when (nz sub_pic) ReadExponentialGolomb 0 ;;
  cbr <- ReadBits 1 ;;
  ret (mkCPB br cs csd brd cbr).
(** src/h265_sub_layer_hrd_parameters_parser.cc:33-90 ParseSubLayerHrdParameters *)
Definition ParseSubLayerHrdParameters (CpbCnt sub_pic : Z) : M (list cpb_entry) :=
  collect CpbCnt (fun _ => read_cpb_entry sub_pic).

(** include/h265_hrd_parameters_parser.h:40-62.  One [hrd_sub] per sub-layer; the sub-layer
    structures for NAL and VCL are pushed on one vector in C++ (nal then vcl). *)
Record hrd_sub : Type := mkHS {
  fixed_pic_rate_general_flag : Z; fixed_pic_rate_within_cvs_flag : Z;
  elemental_duration_in_tc_minus1 : Z; low_delay_hrd_flag : Z; cpb_cnt_minus1 : Z;
  sub_layer_nal_hrd : option (list cpb_entry); sub_layer_vcl_hrd : option (list cpb_entry) }.
Record hrd : Type := mkHRD {
  nal_hrd_parameters_present_flag : Z; vcl_hrd_parameters_present_flag : Z;
  sub_pic_hrd_params_present_flag : Z; tick_divisor_minus2 : Z;
  du_cpb_removal_delay_increment_length_minus1 : Z;
  sub_pic_cpb_params_in_pic_timing_sei_flag : Z;
  dpb_output_delay_du_length_minus1 : Z; bit_rate_scale : Z; cpb_size_scale : Z;
  cpb_size_du_scale : Z; initial_cpb_removal_delay_length_minus1 : Z;
  au_cpb_removal_delay_length_minus1 : Z; dpb_output_delay_length_minus1 : Z;
  hrd_sub_layers : list hrd_sub }.

(** src/h265_hrd_parameters_parser.cc:135-216: the loop body.  Lines 142-150: the within_cvs flag is
    0 (not 1) when the general flag is set; 152-169 *)
Definition read_hrd_sub (nal vcl sub_pic : Z) : M hrd_sub :=
  gen <- ReadBits 1 ;;
  cvs <- when (negb (nz gen)) (ReadBits 1) 0 ;;
  dur <- when (nz cvs) ReadExponentialGolomb 0 ;;
  low <- when (negb (nz cvs)) (ReadBits 1) 0 ;;
  cnt <- when (negb (nz low)) ReadExponentialGolomb 0 ;;
  n <- when (nz nal) (some (ParseSubLayerHrdParameters (u32 (cnt + 1)) sub_pic)) None ;;
  v <- when (nz vcl) (some (ParseSubLayerHrdParameters (u32 (cnt + 1)) sub_pic)) None ;;
  ret (mkHS gen cvs dur low cnt n v).

(** src/h265_hrd_parameters_parser.cc:34-219 ParseHrdParameters *)
Definition ParseHrdParameters (commonInfPresentFlag maxNumSubLayersMinus1 : Z) : M hrd :=
  let c := nz commonInfPresentFlag in
  nal <- when c (ReadBits 1) 0 ;;
  vcl <- when c (ReadBits 1) 0 ;;
  let cnv := c && (nz nal || nz vcl) in
  sub_pic <- when cnv (ReadBits 1) 0 ;;
  tick <- when (cnv && nz sub_pic) (ReadBits 8) 0 ;;
  du_len <- when (cnv && nz sub_pic) (ReadBits 5) 0 ;;
  in_sei <- when (cnv && nz sub_pic) (ReadBits 1) 0 ;;
  dpb_du <- when (cnv && nz sub_pic) (ReadBits 5) 0 ;;
  brs <- when cnv (ReadBits 4) 0 ;;
  css <- when cnv (ReadBits 4) 0 ;;
  csds <- when (cnv && nz sub_pic) (ReadBits 4) 0 ;;
  ini <- when cnv (ReadBits 5) 0 ;;
  au <- when cnv (ReadBits 5) 0 ;;
  dpb <- when cnv (ReadBits 5) 0 ;;
  subs <- collect (maxNumSubLayersMinus1 + 1) (fun _ => read_hrd_sub nal vcl sub_pic) ;;
  ret (mkHRD nal vcl sub_pic tick du_len in_sei dpb_du brs css csds ini au dpb subs).

(** include/h265_vui_parameters_parser.h:108-149 *)
Record vui : Type := mkVUI {
  aspect_ratio_info_present_flag : Z; aspect_ratio_idc : Z; sar_width : Z; sar_height : Z;
  overscan_info_present_flag : Z; overscan_appropriate_flag : Z;
  video_signal_type_present_flag : Z; video_format : Z; video_full_range_flag : Z;
  colour_description_present_flag : Z; colour_primaries : Z; transfer_characteristics : Z;
  matrix_coeffs : Z;
  chroma_loc_info_present_flag : Z; chroma_sample_loc_type_top_field : Z;
  chroma_sample_loc_type_bottom_field : Z;
  neutral_chroma_indication_flag : Z; field_seq_flag : Z; frame_field_info_present_flag : Z;
  default_display_window_flag : Z; def_disp_win_left_offset : Z; def_disp_win_right_offset : Z;
  def_disp_win_top_offset : Z; def_disp_win_bottom_offset : Z;
  vui_timing_info_present_flag : Z; vui_num_units_in_tick : Z; vui_time_scale : Z;
  vui_poc_proportional_to_timing_flag : Z; vui_num_ticks_poc_diff_one_minus1 : Z;
  vui_hrd_parameters_present_flag : Z; vui_hrd_parameters : option hrd;
  bitstream_restriction_flag : Z; tiles_fixed_structure_flag : Z;
  motion_vectors_over_pic_boundaries_flag : Z; restricted_ref_pic_lists_flag : Z;
  min_spatial_segmentation_idc : Z; max_bytes_per_pic_denom : Z; max_bits_per_min_cu_denom : Z;
  log2_max_mv_length_horizontal : Z; log2_max_mv_length_vertical : Z }.

(** include/h265_vui_parameters_parser.h:36, 42-88: constants *)
Definition AR_EXTENDED_SAR := 255.

(** src/h265_vui_parameters_parser.cc:34-402 ParseVuiParameters *)
Definition ParseVuiParameters (sps_max_sub_layers_minus1 : Z) : M vui :=
  ar <- ReadBits 1 ;;
  ar_idc <- when (nz ar) (ReadBits 8) 0 ;;
  sarw <- when (nz ar && (ar_idc =? AR_EXTENDED_SAR)) (ReadBits 16) 0 ;;
  sarh <- when (nz ar && (ar_idc =? AR_EXTENDED_SAR)) (ReadBits 16) 0 ;;
  ov <- ReadBits 1 ;;
  ova <- when (nz ov) (ReadBits 1) 0 ;;
  vs <- ReadBits 1 ;;
  vf <- when (nz vs) (ReadBits 3) 0 ;;
  vfr <- when (nz vs) (ReadBits 1) 0 ;;
  cd <- when (nz vs) (ReadBits 1) 0 ;;
  cp <- when (nz vs && nz cd) (ReadBits 8) 0 ;;
  tc <- when (nz vs && nz cd) (ReadBits 8) 0 ;;
  mc <- when (nz vs && nz cd) (ReadBits 8) 0 ;;
  cl <- ReadBits 1 ;;
  clt <- when (nz cl) (ReadUeMax 5) 0 ;;
  clb <- when (nz cl) (ReadUeMax 5) 0 ;;
  nci <- ReadBits 1 ;;
  fs <- ReadBits 1 ;;
  ffi <- ReadBits 1 ;;
  ddw <- ReadBits 1 ;;
  dl <- when (nz ddw) (ReadUeMax 16384) 0 ;;
  dr <- when (nz ddw) (ReadUeMax 16384) 0 ;;
  dt <- when (nz ddw) (ReadUeMax 16384) 0 ;;
  db <- when (nz ddw) (ReadUeMax 16384) 0 ;;
  ti <- ReadBits 1 ;;
  nut <- when (nz ti) (ReadBits 32) 0 ;;
  ts <- when (nz ti) (ReadBits 32) 0 ;;
  ppt <- when (nz ti) (ReadBits 1) 0 ;;
  ntp <- when (nz ti && nz ppt) (ReadUeMax (u32_max - 1)) 0 ;;
  hp <- when (nz ti) (ReadBits 1) 0 ;;
  h <- when (nz ti && nz hp) (some (ParseHrdParameters 1 sps_max_sub_layers_minus1)) None ;;
  br <- ReadBits 1 ;;
  tfs <- when (nz br) (ReadBits 1) 0 ;;
  mvo <- when (nz br) (ReadBits 1) 0 ;;
  rrp <- when (nz br) (ReadBits 1) 0 ;;
  mss <- when (nz br) (ReadUeMax 4095) 0 ;;
  mbp <- when (nz br) (ReadUeMax 16) 0 ;;
  mbc <- when (nz br) (ReadUeMax 16) 0 ;;
  lmh <- when (nz br) (ReadUeMax 16) 0 ;;
  lmv <- when (nz br) (ReadUeMax 15) 0 ;;
  ret (mkVUI ar ar_idc sarw sarh ov ova vs vf vfr cd cp tc mc cl clt clb nci fs ffi ddw dl dr dt db
             ti nut ts ppt ntp hp h br tfs mvo rrp mss mbp mbc lmh lmv).
