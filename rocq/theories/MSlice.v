(** Model of pred_weight_table (src/h265_pred_weight_table_parser.cc) and of the slice segment header (src/h265_slice_parser.cc).
    Conventions as in MSyntaxA.v. *)
From Coq Require Import ZArith List Bool.
From Verif Require Import MBase MBitBuffer Spec Syntax MCommon MSyntaxA MSyntaxB MSps MPps.
Import ListNotations.
Open Scope Z_scope.
Open Scope monad_scope.

(** * pred_weight_table *)
(** include/h265_pred_weight_table_parser.h:36-57 (the l1 vectors are never filled).  [pwt_entries]: for each reference picture
    (delta_luma_weight_l0, luma_offset_l0) and (delta_chroma_weight_l0[0], delta_chroma_offset_l0[0], delta_chroma_weight_l0[1],
    delta_chroma_offset_l0[1]); the C++ vectors only have the entries that are present, in this order ([pwt_luma], [pwt_chroma] below). *)
Record pwt : Type := mkPWT {
  luma_log2_weight_denom : Z; delta_chroma_log2_weight_denom : Z; luma_weight_l0_flag : list Z; chroma_weight_l0_flag : list Z;
  pwt_entries : list (option (Z * Z) * option quad) }.
(** The vectors (delta_luma_weight_l0, luma_offset_l0) and (delta_chroma_weight_l0, delta_chroma_offset_l0) *)
Definition pwt_luma (t : pwt) : list (Z * Z) := flat_map (fun e => match fst e with Some p => [p] | None => [] end) (pwt_entries t).
Definition pwt_chroma (t : pwt) : list quad := flat_map (fun e => match snd e with Some p => [p] | None => [] end) (pwt_entries t).
(** src/h265_pred_weight_table_parser.cc:91-100 *)
Definition read_luma_weight : M (Z * Z) :=
  w <- ReadSignedExponentialGolomb ;;
  o <- ReadSignedExponentialGolomb ;;
  ret (w, o).
(** One iteration of src/h265_pred_weight_table_parser.cc:88-122 *)
Definition read_pwt_entry (chroma : bool) (lf cf : list Z) (i : Z) : M (option (Z * Z) * option quad) :=
  fl <- at_ lf i ;;
  l <- when (nz fl) (some read_luma_weight) None ;;
  fc <- (if chroma then at_ cf i else ret 0) ;;
  c <- when (nz fc) (some read_quad) None ;;
  ret (l, c).
(** src/h265_pred_weight_table_parser.cc:33-125.  The loops run for i = 0 .. num_ref_idx_l0_active_minus1; for the argument 2^32 - 1, which
    no ue(v) value can have, the C++ loop would not end before the buffer does. *)
Definition ParsePredWeightTable (ChromaArrayType num_ref_idx_l0_active_minus1 : Z) : M pwt :=
  denom <- ReadExponentialGolomb ;;
  dchroma <- when (negb (ChromaArrayType =? 0)) ReadSignedExponentialGolomb 0 ;;
  lf <- collect (num_ref_idx_l0_active_minus1 + 1) (fun _ => ReadBits 1) ;;
  cf <- when (negb (ChromaArrayType =? 0)) (collect (num_ref_idx_l0_active_minus1 + 1) (fun _ => ReadBits 1)) [] ;;
  es <- collect (num_ref_idx_l0_active_minus1 + 1) (fun i => read_pwt_entry (negb (ChromaArrayType =? 0)) lf cf i) ;;
  ret (mkPWT denom dchroma lf cf es).

(** * Parser state (include/h265_bitstream_parser_state.h:20-40): the three unordered_maps, as functions from ids.  A stored pointer is
    never null, so that GetVps, GetSps, GetPps (src/h265_bitstream_parser_state.cc:32-59) are applications of these functions. *)
Record state : Type := mkState {
  st_vps : Z -> option (vps_body * Z); st_sps : Z -> option (sps * Z); st_pps : Z -> option (pps * Z) }.
Definition empty_state : state := mkState (fun _ => None) (fun _ => None) (fun _ => None).

(** * slice_segment_header *)
(** One entry of the long-term loop; lt_idx_sps, poc_lsb_lt, used_by_curr_pic_lt_flag and delta_poc_msb_cycle_lt only have the entries
    that are present. *)
Record lt_entry : Type := mkLT {
  lt_idx_sps : Z; poc_lsb_lt : Z; used_by_curr_pic_lt_flag : Z; delta_poc_msb_present_flag : Z; delta_poc_msb_cycle_lt : Z }.
(** include/h265_slice_parser.h:71-128, without the copies of the parameters of PPS and SPS (37-69) except ChromaArrayType *)
Record slice_header : Type := mkSH {
  first_slice_segment_in_pic_flag : Z; no_output_of_prior_pics_flag : Z; slice_pic_parameter_set_id : Z; dependent_slice_segment_flag : Z;
  slice_segment_address : Z; slice_reserved_flag : list Z; slice_type : Z; pic_output_flag : Z; colour_plane_id : Z;
  slice_pic_order_cnt_lsb : Z; short_term_ref_pic_set_sps_flag : Z; sh_st_ref_pic_set : option rps; short_term_ref_pic_set_idx : Z;
  num_long_term_sps : Z; num_long_term_pics : Z; sh_lt : list lt_entry; slice_temporal_mvp_enabled_flag : Z;
  slice_sao_luma_flag : Z; slice_sao_chroma_flag : Z; num_ref_idx_active_override_flag : Z; num_ref_idx_l0_active_minus1 : Z;
  num_ref_idx_l1_active_minus1 : Z; mvd_l1_zero_flag : Z; cabac_init_flag : Z; collocated_from_l0_flag : Z; collocated_ref_idx : Z;
  sh_pred_weight_table : option pwt; five_minus_max_num_merge_cand : Z; use_integer_mv_flag : Z; slice_qp_delta : Z;
  slice_cb_qp_offset : Z; slice_cr_qp_offset : Z; slice_act_y_qp_offset : Z; slice_act_cb_qp_offset : Z; slice_act_cr_qp_offset : Z;
  deblocking_filter_override_flag : Z; slice_deblocking_filter_disabled_flag : Z; slice_beta_offset_div2 : Z; slice_tc_offset_div2 : Z;
  slice_loop_filter_across_slices_enabled_flag : Z; num_entry_point_offsets : Z; offset_len_minus1 : Z;
  entry_point_offset_minus1 : list Z; slice_segment_header_extension_length : Z; slice_segment_header_extension_data_byte : list Z;
  (* copies of the PPS flags, which fdump reads: src/h265_slice_parser.cc:461-462 *)
  sh_weighted_pred_flag : Z; sh_weighted_bipred_flag : Z }.

(** std::ceil(std::log2(static_cast<float>(n))): modelled as the exact ceiling.  MFloat.v models the floating point computation,
    C82_bits (PropsFloat.v) proves that it gives the exact ceiling for the three numbers it is applied to. *)
Definition ceil_log2 (n : Z) : Z := Z.log2_up n.

(** One iteration of src/h265_slice_parser.cc:287-342.  The loop counter is uint32_t and the bound uint64_t: they differ from
    the unbounded loop only on inputs of more than 2^32 bits. *)
Definition read_lt_entry (num_lt_sps num_lt_ref_sps lsb_len i : Z) : M lt_entry :=
  let from_sps := i <? num_lt_sps in
  idx <- when (from_sps && (1 <? num_lt_ref_sps)) (ReadBits (ceil_log2 num_lt_ref_sps)) 0 ;;
  lsb <- when (negb from_sps) (ReadBits lsb_len) 0 ;;
  used <- when (negb from_sps) (ReadBits 1) 0 ;;
  msbf <- ReadBits 1 ;;
  msb <- when (nz msbf) ReadExponentialGolomb 0 ;;
  ret (mkLT idx lsb used msbf msb).

(** src/h265_slice_parser.cc:670-713 isValidNumEntryPointOffsets (uint32_t arithmetic; tiles and sync are u(1) values) *)
Definition isValidNumEntryPointOffsets (n : Z) (s : sps) (p : pps) : bool :=
  let tiles := tiles_enabled_flag p in
  let sync := entropy_coding_sync_enabled_flag p in
  if (tiles =? 0) && (sync =? 1) then n <=? u32 (getPicHeightInCtbsY s - 1)
  else if (tiles =? 1) && (sync =? 0) then
    n <=? u32 (u32 (u32 (num_tile_columns_minus1 p + 1) * u32 (num_tile_rows_minus1 p + 1)) - 1)
  else if (tiles =? 1) && (sync =? 1) then n <=? u32 (u32 (num_tile_columns_minus1 p + 1) * u32 (getPicHeightInCtbsY s - 1))
  else n =? 0.

(** h265limits / include/h265_common.h: BLA_W_LP = 16, RSV_IRAP_VCL23 = 23, IDR_W_RADL = 19, IDR_N_LP = 20 *)
Definition irap_type (nut : Z) : bool := (16 <=? nut) && (nut <=? 23).
Definition idr_type (nut : Z) : bool := (nut =? 19) || (nut =? 20).
Definition SliceType_B := 0.
Definition SliceType_P := 1.
(** src/h265_slice_parser.cc:360-376: set only when SAO is enabled, otherwise its initial value 0 *)
Definition ChromaArrayType_of (s : sps) : Z :=
  if nz (sample_adaptive_offset_enabled_flag s) then (if separate_colour_plane_flag s =? 0 then chroma_format_idc s else 0) else 0.
(** src/h265_slice_parser.cc:484-490 *)
Definition mv_res_control (s : sps) : Z :=
  if nz (sps_scc_extension_flag s) then match sps_scc_extension s with Some e => motion_vector_resolution_control_idc e | None => 0 end else 0.
(** src/h265_slice_parser.cc:520-524; the pointer is not checked *)
Definition act_offsets_present (p : pps) : M Z :=
  if nz (pps_scc_extension_flag p) then
    match pps_scc_extension p with Some e => ret (pps_slice_act_qp_offsets_present_flag e) | None => throw NullDeref end
  else ret 0.

(** src/h265_slice_parser.cc:158-163: getPicSizeInCtbsY shifts 1 by CtbLog2SizeY (src/h265_sps_parser.cc:884-887), which must be less
    than the width of an int, and static_cast<size_t>(std::ceil(std::log2(static_cast<float>(0)))) converts minus infinity.  No SPS that
    the SPS parser returns has these values; one that the caller put in the state can. *)
Definition size_conversion (first : Z) (s : sps) : M unit :=
  if nz first then ret tt
  else if 32 <=? getCtbLog2SizeY s then throw BadShift
  else if getPicSizeInCtbsY s <=? 0 then throw BadConversion
  else ret tt.
(** The same shift in isValidNumEntryPointOffsets, src/h265_slice_parser.cc:670-713, where it calls getPicHeightInCtbsY *)
Definition height_shift (s : sps) (p : pps) : M unit :=
  if (entropy_coding_sync_enabled_flag p =? 1) && ((tiles_enabled_flag p =? 0) || (tiles_enabled_flag p =? 1)) && (32 <=? getCtbLog2SizeY s)
  then throw BadShift else ret tt.

(** src/h265_slice_parser.cc:220-223, 314-315: the sum of two uint32_t *)
Definition poc_lsb_len (s : sps) : Z := u32 (log2_max_pic_order_cnt_lsb_minus4 s + 4).

(** src/h265_slice_parser.cc:145-667: after the PPS [p] and the SPS [s] have been found.  nd: not a dependent slice segment; np: not an IDR
    picture.  lists_modification_present_flag has no effect as NumPicTotalCurr is 0 (410-423), chroma_qp_offset_list_enabled_flag is 0
    (548-560). *)
Definition slice_rest (nut : Z) (s : sps) (p : pps) (first noout pid : Z) : M slice_header :=
  dep <- when (negb (nz first) && nz (dependent_slice_segments_enabled_flag p)) (ReadBits 1) 0 ;;
  size_conversion first s ;;;
  guard (nz first || negb (ceil_log2 (getPicSizeInCtbsY s) =? 0)) ;;;
  addr <- when (negb (nz first)) (ReadBits (ceil_log2 (getPicSizeInCtbsY s))) 0 ;;
  let nd := negb (nz dep) in
  rsv <- when nd (collect (num_extra_slice_header_bits p) (fun _ => ReadBits 1)) [] ;;
  ty <- when nd ReadExponentialGolomb 0 ;;
  outp <- when (nd && nz (output_flag_present_flag p)) (ReadBits 1) 0 ;;
  plane <- when (nd && (separate_colour_plane_flag s =? 1)) (ReadBits 2) 0 ;;
  let np := nd && negb (idr_type nut) in
  lsb <- when np (ReadBits (poc_lsb_len s)) 0 ;;
  stf <- when np (ReadBits 1) 0 ;;
  st <- when (np && negb (nz stf))
     (some (ParseStRefPicSet (num_short_term_ref_pic_sets s) (num_short_term_ref_pic_sets s) (sps_st_ref_pic_set s) 15)) None ;;
  sti <- when (np && nz stf && (1 <? num_short_term_ref_pic_sets s)) (ReadBits (ceil_log2 (num_short_term_ref_pic_sets s))) 0 ;;
  let lt := np && nz (long_term_ref_pics_present_flag s) in
  nls <- when (lt && (0 <? num_long_term_ref_pics_sps s)) ReadExponentialGolomb 0 ;;
  nlp <- when lt ReadExponentialGolomb 0 ;;
  lts <- when lt (collect (nls + nlp) (read_lt_entry nls (num_long_term_ref_pics_sps s) (poc_lsb_len s))) [] ;;
  mvp <- when (np && nz (sps_temporal_mvp_enabled_flag s)) (ReadBits 1) 0 ;;
  let sao := nd && nz (sample_adaptive_offset_enabled_flag s) in
  saol <- when sao (ReadBits 1) 0 ;;
  saoc <- when (sao && negb (ChromaArrayType_of s =? 0)) (ReadBits 1) 0 ;;
  let pb := nd && ((ty =? SliceType_P) || (ty =? SliceType_B)) in
  let isb := ty =? SliceType_B in
  ovr <- when pb (ReadBits 1) 0 ;;
  l0 <- when (pb && nz ovr) ReadExponentialGolomb 0 ;;
  l1 <- when (pb && nz ovr && isb) ReadExponentialGolomb 0 ;;
  mvd <- when (pb && isb) (ReadBits 1) 0 ;;
  cab <- when (pb && nz (cabac_init_present_flag p)) (ReadBits 1) 0 ;;
  col0 <- when (pb && nz mvp && isb) (ReadBits 1) 1 ;;
  colr <- when (pb && nz mvp && ((nz col0 && (0 <? l0)) || (negb (nz col0) && (0 <? l1)))) ReadExponentialGolomb 0 ;;
  pw <- when (pb && ((nz (weighted_pred_flag p) && (ty =? SliceType_P)) || (nz (weighted_bipred_flag p) && isb)))
     (some (ParsePredWeightTable (ChromaArrayType_of s) l0)) None ;;
  merge <- when pb ReadExponentialGolomb 0 ;;
  imv <- when (pb && (mv_res_control s =? 2)) (ReadBits 1) 0 ;;
  qp <- when nd ReadSignedExponentialGolomb 0 ;;
  cb <- when (nd && nz (pps_slice_chroma_qp_offsets_present_flag p)) ReadSignedExponentialGolomb 0 ;;
  cr <- when (nd && nz (pps_slice_chroma_qp_offsets_present_flag p)) ReadSignedExponentialGolomb 0 ;;
  act <- (if nd then act_offsets_present p else ret 0) ;;
  ay <- when (nz act) ReadSignedExponentialGolomb 0 ;;
  acb <- when (nz act) ReadSignedExponentialGolomb 0 ;;
  acr <- when (nz act) ReadSignedExponentialGolomb 0 ;;
  dbo <- when (nd && nz (deblocking_filter_override_enabled_flag p)) (ReadBits 1) 0 ;;
  dbd <- when (nz dbo) (ReadBits 1) 0 ;;
  beta <- when (nz dbo && negb (nz dbd)) ReadSignedExponentialGolomb 0 ;;
  tc <- when (nz dbo && negb (nz dbd)) ReadSignedExponentialGolomb 0 ;;
  lfa <- when (nd && nz (pps_loop_filter_across_slices_enabled_flag p) && (nz saol || nz saoc || negb (nz dbd))) (ReadBits 1) 0 ;;
  let ep := nz (tiles_enabled_flag p) || nz (entropy_coding_sync_enabled_flag p) in
  nep <- when ep ReadExponentialGolomb 0 ;;
  height_shift s p ;;;
  guard (negb ep || isValidNumEntryPointOffsets nep s p) ;;;
  ol <- when (ep && (0 <? nep)) (ReadUeMax 31) 0 ;;
  eps <- when (ep && (0 <? nep)) (collect nep (fun _ => ReadBits (ol + 1))) [] ;;
  xl <- when (nz (slice_segment_header_extension_present_flag p)) ReadExponentialGolomb 0 ;;
  xb <- when (nz (slice_segment_header_extension_present_flag p)) (collect xl (fun _ => ReadBits 8)) [] ;;
  ret (mkSH first noout pid dep addr rsv ty outp plane lsb stf st sti nls nlp lts mvp saol saoc ovr l0 l1 mvd cab col0 colr pw merge imv
         qp cb cr ay acb acr dbo dbd beta tc lfa nep ol eps xl xb (if pb then weighted_pred_flag p else 0) (if pb then weighted_bipred_flag p else 0)).

(** src/h265_slice_parser.cc:93-668 ParseSliceSegmentHeader; ParseSliceSegmentLayer (37-60) returns the same *)
Definition ParseSliceSegmentHeader (nut : Z) (st : state) : M slice_header :=
  first <- ReadBits 1 ;;
  noout <- when (irap_type nut) (ReadBits 1) 0 ;;
  pid <- ReadExponentialGolomb ;;
  match st_pps st pid with
  | None => fail
  | Some (p, _) =>
    match st_sps st (pps_seq_parameter_set_id p) with
    | None => fail
    | Some (s, _) => slice_rest nut s p first noout pid
    end
  end.
