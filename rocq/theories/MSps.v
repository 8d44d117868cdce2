(** Model of the sequence parameter set (src/h265_sps_parser.cc).  Conventions as in MSyntaxA.v. *)
From Coq Require Import ZArith List Bool.
From Verif Require Import MBase MBitBuffer Spec Syntax MCommon MSyntaxA MSyntaxB.
Import ListNotations.
Open Scope Z_scope.
Open Scope monad_scope.

(** include/h265_sps_parser.h:73-142.  [sps_ordering]: the three vectors sps_max_dec_pic_buffering_minus1,
    sps_max_num_reorder_pics, sps_max_latency_increase_plus1; [sps_lt]: (lt_ref_pic_poc_lsb_sps, used_by_curr_pic_lt_sps_flag). *)
Record sps : Type := mkSPS {
  sps_video_parameter_set_id : Z; sps_max_sub_layers_minus1 : Z; sps_temporal_id_nesting_flag : Z; sps_profile_tier_level : ptl;
  sps_seq_parameter_set_id : Z; chroma_format_idc : Z; separate_colour_plane_flag : Z;
  pic_width_in_luma_samples : Z; pic_height_in_luma_samples : Z; conformance_window_flag : Z;
  conf_win_left_offset : Z; conf_win_right_offset : Z; conf_win_top_offset : Z; conf_win_bottom_offset : Z;
  bit_depth_luma_minus8 : Z; bit_depth_chroma_minus8 : Z; log2_max_pic_order_cnt_lsb_minus4 : Z;
  sps_sub_layer_ordering_info_present_flag : Z; sps_ordering : list ordering_info;
  log2_min_luma_coding_block_size_minus3 : Z; log2_diff_max_min_luma_coding_block_size : Z;
  log2_min_luma_transform_block_size_minus2 : Z; log2_diff_max_min_luma_transform_block_size : Z;
  max_transform_hierarchy_depth_inter : Z; max_transform_hierarchy_depth_intra : Z;
  scaling_list_enabled_flag : Z; sps_scaling_list_data_present_flag : Z; sps_scaling_list_data : option (list (list scaling_list));
  amp_enabled_flag : Z; sample_adaptive_offset_enabled_flag : Z; pcm_enabled_flag : Z;
  pcm_sample_bit_depth_luma_minus1 : Z; pcm_sample_bit_depth_chroma_minus1 : Z;
  log2_min_pcm_luma_coding_block_size_minus3 : Z; log2_diff_max_min_pcm_luma_coding_block_size : Z; pcm_loop_filter_disabled_flag : Z;
  num_short_term_ref_pic_sets : Z; sps_st_ref_pic_set : list rps;
  long_term_ref_pics_present_flag : Z; num_long_term_ref_pics_sps : Z; sps_lt : list (Z * Z);
  sps_temporal_mvp_enabled_flag : Z; strong_intra_smoothing_enabled_flag : Z;
  vui_parameters_present_flag : Z; sps_vui_parameters : option vui;
  sps_extension_present_flag : Z; sps_range_extension_flag : Z; sps_multilayer_extension_flag : Z; sps_3d_extension_flag : Z;
  sps_scc_extension_flag : Z; sps_extension_4bits : Z;
  sps_range_extension : option sps_range_ext; sps_multilayer_extension : option Z; sps_3d_extension : option sps_3d_ext;
  sps_scc_extension : option sps_scc_ext }.

(** src/h265_sps_parser.cc:869-882 getMinCbLog2SizeY, getMinCbSizeY, as functions of log2_min_luma_coding_block_size_minus3 *)
Definition MinCbSizeY_of (log2_min_minus3 : Z) : Z := Z.shiftl 1 (u32 (log2_min_minus3 + 3)).
Definition kMaxWidth := 16888.
Definition kMaxHeight := 16888.

(** src/h265_sps_parser.cc:107-136 and 138-166: pic_width_in_luma_samples, pic_height_in_luma_samples.  MinCbSizeY is taken at line 126,
    before log2_min_luma_coding_block_size_minus3 is read: the field still has its initial value 0. *)
Definition read_pic_size (kmax : Z) : M Z :=
  v <- ReadExponentialGolomb ;;
  guard (negb ((v <? 1) || (kmax <? v))) ;;;
  let MinCbSizeY := MinCbSizeY_of 0 in
  guard (negb ((v =? 0) || negb (u32 (MinCbSizeY * (v / MinCbSizeY)) =? v))) ;;;
  ret v.

(** One iteration of src/h265_sps_parser.cc:286-312; h265limits::HEVC_MAX_DPB_SIZE = 16 (include/h265_common.h). *)
Definition read_sps_ordering : M ordering_info :=
  a <- ReadUeMax 15 ;;
  b <- ReadExponentialGolomb ;;
  c <- ReadExponentialGolomb ;;
  ret (mkOI a b c).

(** src/h265_sps_parser.cc:436-452: the loop, with the vector built so far.  getMaxNumNegativePics (863-867) gives 15. *)
Fixpoint rps_loop (k : nat) (num : Z) (sets : list rps) : M (list rps) :=
  match k with
  | O => ret sets
  | S k' =>
    s <- ParseStRefPicSet (Z.of_nat (length sets)) num sets 15 ;;
    rps_loop k' num (sets ++ [s])
  end.
Definition read_rps_sets (num : Z) : M (list rps) := rps_loop (Z.to_nat num) num [].

(** One iteration of src/h265_sps_parser.cc:471-485 *)
Definition read_lt (log2_lsb_minus4 : Z) : M (Z * Z) :=
  lsb <- ReadBits (log2_lsb_minus4 + 4) ;;
  used <- ReadBits 1 ;;
  ret (lsb, used).

(** src/h265_sps_parser.cc:38-576, without the extension data *)
Definition ParseSpsBody : M sps :=
  vps_id <- ReadBits 4 ;;
  msub <- ReadBits 3 ;;
  nest <- ReadBits 1 ;;
  pt <- ParseProfileTierLevel true msub ;;
  id <- ReadUeMax 15 ;;
  chroma <- ReadUeMax 3 ;;
  sep <- when (chroma =? 3) (ReadBits 1) 0 ;;
  width <- read_pic_size kMaxWidth ;;
  height <- read_pic_size kMaxHeight ;;
  conf <- ReadBits 1 ;;
  cl <- when (nz conf) (ReadUeMax width) 0 ;;
  cr <- when (nz conf) (ReadUeMax width) 0 ;;
  ct <- when (nz conf) (ReadUeMax height) 0 ;;
  cb <- when (nz conf) (ReadUeMax height) 0 ;;
  bdl <- ReadUeMax 8 ;;
  bdc <- ReadUeMax 8 ;;
  lsb <- ReadUeMax 12 ;;
  ofl <- ReadBits 1 ;;
  ord <- collect (if nz ofl then msub + 1 else 1) (fun _ => read_sps_ordering) ;;
  mincb <- ReadUeMax 3 ;;
  diffcb <- ReadUeMax 3 ;;
  mintb <- ReadExponentialGolomb ;;
  difftb <- ReadExponentialGolomb ;;
  dinter <- ReadExponentialGolomb ;;
  dintra <- ReadExponentialGolomb ;;
  sl <- ReadBits 1 ;;
  slp <- when (nz sl) (ReadBits 1) 0 ;;
  sld <- when (nz sl && nz slp) (some ParseScalingListData) None ;;
  amp <- ReadBits 1 ;;
  sao <- ReadBits 1 ;;
  pcm <- ReadBits 1 ;;
  pl <- when (nz pcm) (ReadBits 4) 0 ;;
  pc <- when (nz pcm) (ReadBits 4) 0 ;;
  pmin <- when (nz pcm) ReadExponentialGolomb 0 ;;
  pdiff <- when (nz pcm) ReadExponentialGolomb 0 ;;
  plf <- when (nz pcm) (ReadBits 1) 0 ;;
  nst <- ReadUeMax 64 ;;
  sets <- read_rps_sets nst ;;
  ltp <- ReadBits 1 ;;
  nlt <- when (nz ltp) (ReadUeMax 32) 0 ;;
  lt <- when (nz ltp) (collect nlt (fun _ => read_lt lsb)) [] ;;
  mvp <- ReadBits 1 ;;
  smooth <- ReadBits 1 ;;
  vuip <- ReadBits 1 ;;
  v <- when (nz vuip) (some (ParseVuiParameters msub)) None ;;
  ext <- ReadBits 1 ;;
  xr <- when (nz ext) (ReadBits 1) 0 ;;
  xm <- when (nz ext) (ReadBits 1) 0 ;;
  x3 <- when (nz ext) (ReadBits 1) 0 ;;
  xs <- when (nz ext) (ReadBits 1) 0 ;;
  x4 <- when (nz ext) (ReadBits 4) 0 ;;
  er <- when (nz xr) (some ParseSpsRangeExtension) None ;;
  em <- when (nz xm) (some ParseSpsMultilayerExtension) None ;;
  e3 <- when (nz x3) (some ParseSps3dExtension) None ;;
  es <- when (nz xs) (some (ParseSpsSccExtension chroma bdl bdc)) None ;;
  ret (mkSPS vps_id msub nest pt id chroma sep width height conf cl cr ct cb bdl bdc lsb ofl ord mincb diffcb mintb difftb dinter dintra
         sl slp sld amp sao pcm pl pc pmin pdiff plf nst sets ltp nlt lt mvp smooth vuip v ext xr xm x3 xs x4 er em e3 es).

(** src/h265_sps_parser.cc:38-590 ParseSps; the second component is sps_extension_data_flag. *)
Definition ParseSps : M (sps * Z) := finish (fun s => nz (sps_extension_4bits s)) ParseSpsBody.

(** * Derived values *)
(** src/h265_sps_parser.cc:869-887; [1 << n] is int arithmetic, n < 31 in every accepted SPS *)
Definition getMinCbLog2SizeY (s : sps) : Z := u32 (log2_min_luma_coding_block_size_minus3 s + 3).
Definition getCtbLog2SizeY (s : sps) : Z := u32 (getMinCbLog2SizeY s + log2_diff_max_min_luma_coding_block_size s).
Definition getMinCbSizeY (s : sps) : Z := Z.shiftl 1 (getMinCbLog2SizeY s).
Definition getCtbSizeY (s : sps) : Z := Z.shiftl 1 (getCtbLog2SizeY s).
(** std::ceil(1.0 * a / b), src/h265_sps_parser.cc:896-897, 907-908: the exact ceiling, see C82_ctbs (PropsFloat.v). *)
Definition ceil_div (a b : Z) : Z := (a + b - 1) / b.
(** src/h265_sps_parser.cc:889-930 *)
Definition getPicWidthInMinCbsY (s : sps) : Z := pic_width_in_luma_samples s / getMinCbSizeY s.
Definition getPicWidthInCtbsY (s : sps) : Z := u32 (ceil_div (pic_width_in_luma_samples s) (getCtbSizeY s)).
Definition getPicHeightInMinCbsY (s : sps) : Z := pic_height_in_luma_samples s / getMinCbSizeY s.
Definition getPicHeightInCtbsY (s : sps) : Z := u32 (ceil_div (pic_height_in_luma_samples s) (getCtbSizeY s)).
Definition getPicSizeInMinCbsY (s : sps) : Z := u32 (getPicWidthInMinCbsY s * getPicHeightInMinCbsY s).
Definition getPicSizeInCtbsY (s : sps) : Z := u32 (getPicWidthInCtbsY s * getPicHeightInCtbsY s).
Definition getPicSizeInSamplesY (s : sps) : Z := u32 (pic_width_in_luma_samples s * pic_height_in_luma_samples s).
(** src/h265_sps_parser.cc:937-978 *)
Definition getSubWidthC (s : sps) : Z :=
  let c := chroma_format_idc s in let p := separate_colour_plane_flag s in
  if (c =? 0) && (p =? 0) then 1 else if (c =? 1) && (p =? 0) then 2 else if (c =? 2) && (p =? 0) then 2
  else if (c =? 3) && (p =? 0) then 1 else if (c =? 3) && (p =? 1) then 1 else -1.
Definition getSubHeightC (s : sps) : Z :=
  let c := chroma_format_idc s in let p := separate_colour_plane_flag s in
  if (c =? 0) && (p =? 0) then 1 else if (c =? 1) && (p =? 0) then 2 else if (c =? 2) && (p =? 0) then 1
  else if (c =? 3) && (p =? 0) then 1 else if (c =? 3) && (p =? 1) then 1 else -1.
(** src/h265_sps_parser.cc:980-995 getResolution with non-null pointers: int arithmetic (chk_i32: signed overflow) *)
Definition getResolution (s : sps) : M (Z * Z) :=
  w <- chk_i32 (to_i32 (pic_width_in_luma_samples s)) ;;
  h <- chk_i32 (to_i32 (pic_height_in_luma_samples s)) ;;
  a <- chk_i32 (getSubWidthC s * to_i32 (conf_win_left_offset s)) ;;
  b <- chk_i32 (getSubWidthC s * to_i32 (conf_win_right_offset s)) ;;
  ab <- chk_i32 (a + b) ;;
  w' <- chk_i32 (w - ab) ;;
  c <- chk_i32 (getSubHeightC s * to_i32 (conf_win_top_offset s)) ;;
  d <- chk_i32 (getSubHeightC s * to_i32 (conf_win_bottom_offset s)) ;;
  cd <- chk_i32 (c + d) ;;
  h' <- chk_i32 (h - cd) ;;
  ret (w', h').
