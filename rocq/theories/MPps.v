(** Model of the picture parameter set and its extensions (src/h265_pps_parser.cc, src/h265_pps_multilayer_extension_parser.cc,
    src/h265_pps_scc_extension_parser.cc).  Conventions as in MSyntaxA.v. *)
From Coq Require Import ZArith List Bool.
From Verif Require Import MBase MBitBuffer Spec Syntax MCommon MSyntaxA MSyntaxB.
Import ListNotations.
Open Scope Z_scope.
Open Scope monad_scope.

(** * pps_multilayer_extension *)
(** Four se(v) values read together (lines 90-117, 129-151, 161-184). *)
Record quad : Type := mkQ { q_1 : Z; q_2 : Z; q_3 : Z; q_4 : Z }.
Definition read_quad : M quad :=
  a <- ReadSignedExponentialGolomb ;;
  b <- ReadSignedExponentialGolomb ;;
  c <- ReadSignedExponentialGolomb ;;
  d <- ReadSignedExponentialGolomb ;;
  ret (mkQ a b c d).
(** One entry of the parallel vectors of include/h265_pps_multilayer_extension_parser.h:39-58.  The vectors of offsets and phases only
    have the entries whose flag is set; here each entry has its own ([None]: not pushed).
    [rl_scaled]: scaled_ref_layer_{left,top,right,bottom}_offset; [rl_region]: ref_region_{left,top,right,bottom}_offset;
    [rl_phase]: phase_hor_luma, phase_ver_luma, phase_hor_chroma_plus8, phase_ver_chroma_plus8. *)
Record ref_loc : Type := mkRL {
  ref_loc_offset_layer_id : Z; scaled_ref_layer_offset_present_flag : Z; rl_scaled : option quad;
  ref_region_offset_present_flag : Z; rl_region : option quad; resample_phase_set_present_flag : Z; rl_phase : option quad }.
(** src/h265_pps_multilayer_extension_parser.cc:73-186: one iteration *)
Definition read_ref_loc : M ref_loc :=
  id <- ReadBits 6 ;;
  sf <- ReadBits 1 ;;
  s <- when (nz sf) (some read_quad) None ;;
  rf <- ReadBits 1 ;;
  r <- when (nz rf) (some read_quad) None ;;
  pf <- ReadBits 1 ;;
  p <- when (nz pf) (some read_quad) None ;;
  ret (mkRL id sf s rf r pf p).
Record pps_ml_ext : Type := mkPML {
  poc_reset_info_present_flag : Z; pps_infer_scaling_list_flag : Z; pps_scaling_list_ref_layer_id : Z; num_ref_loc_offsets : Z;
  ref_locs : list ref_loc; colour_mapping_enabled_flag : Z }.
(** src/h265_pps_multilayer_extension_parser.cc:34-205; colour_mapping_table() is rejected *)
Definition ParsePpsMultilayerExtension : M pps_ml_ext :=
  poc <- ReadBits 1 ;;
  inf <- ReadBits 1 ;;
  ref <- when (nz inf) (ReadBits 6) 0 ;;
  n <- ReadExponentialGolomb ;;
  l <- collect n (fun _ => read_ref_loc) ;;
  cm <- ReadBits 1 ;;
  guard (negb (nz cm)) ;;;
  ret (mkPML poc inf ref n l cm).

(** * pps_scc_extension *)
Record pps_scc_ext : Type := mkPSC {
  pps_curr_pic_ref_enabled_flag : Z; residual_adaptive_colour_transform_enabled_flag : Z; pps_slice_act_qp_offsets_present_flag : Z;
  pps_act_y_qp_offset_plus5 : Z; pps_act_cb_qp_offset_plus5 : Z; pps_act_cr_qp_offset_plus3 : Z;
  pps_palette_predictor_initializer_present_flag : Z; pps_num_palette_predictor_initializer : Z; monochrome_palette_flag : Z;
  luma_bit_depth_entry_minus8 : Z; chroma_bit_depth_entry_minus8 : Z; pps_palette_predictor_initializers : list (list Z) }.
(** src/h265_pps_scc_extension_parser.cc:120-144: one palette entry; the depth is uint32_t arithmetic, 0 is rejected *)
Definition read_palette_entry (depth : Z) : M Z :=
  guard (negb (depth =? 0)) ;;;
  ReadBits depth.
(** src/h265_pps_scc_extension_parser.cc:33-152 *)
Definition ParsePpsSccExtension : M pps_scc_ext :=
  cpr <- ReadBits 1 ;;
  act <- ReadBits 1 ;;
  sact <- when (nz act) (ReadBits 1) 0 ;;
  ay <- when (nz act) ReadSignedExponentialGolomb 0 ;;
  acb <- when (nz act) ReadSignedExponentialGolomb 0 ;;
  acr <- when (nz act) ReadSignedExponentialGolomb 0 ;;
  pres <- ReadBits 1 ;;
  num <- when (nz pres) ReadExponentialGolomb 0 ;;
  mono <- when (nz pres && (0 <? num)) (ReadBits 1) 0 ;;
  dl <- when (nz pres && (0 <? num)) ReadExponentialGolomb 0 ;;
  dc <- when (nz pres && (0 <? num) && nz mono) ReadExponentialGolomb 0 ;;
  inits <- when (nz pres && (0 <? num))
    (collect (if nz mono then 1 else 3) (fun comp =>
       collect num (fun _ => read_palette_entry (if comp =? 0 then u32 (dl + 8) else u32 (dc + 8))))) [] ;;
  ret (mkPSC cpr act sact ay acb acr pres num mono dl dc inits).

(** * pic_parameter_set_rbsp *)
(** include/h265_pps_parser.h:38-92 *)
Record pps : Type := mkPPS {
  pps_pic_parameter_set_id : Z; pps_seq_parameter_set_id : Z; dependent_slice_segments_enabled_flag : Z;
  output_flag_present_flag : Z; num_extra_slice_header_bits : Z; sign_data_hiding_enabled_flag : Z; cabac_init_present_flag : Z;
  num_ref_idx_l0_default_active_minus1 : Z; num_ref_idx_l1_default_active_minus1 : Z; init_qp_minus26 : Z;
  constrained_intra_pred_flag : Z; transform_skip_enabled_flag : Z; cu_qp_delta_enabled_flag : Z; diff_cu_qp_delta_depth : Z;
  pps_cb_qp_offset : Z; pps_cr_qp_offset : Z; pps_slice_chroma_qp_offsets_present_flag : Z; weighted_pred_flag : Z;
  weighted_bipred_flag : Z; transquant_bypass_enabled_flag : Z; tiles_enabled_flag : Z; entropy_coding_sync_enabled_flag : Z;
  num_tile_columns_minus1 : Z; num_tile_rows_minus1 : Z; uniform_spacing_flag : Z; column_width_minus1 : list Z;
  row_height_minus1 : list Z; loop_filter_across_tiles_enabled_flag : Z; pps_loop_filter_across_slices_enabled_flag : Z;
  deblocking_filter_control_present_flag : Z; deblocking_filter_override_enabled_flag : Z; pps_deblocking_filter_disabled_flag : Z;
  pps_beta_offset_div2 : Z; pps_tc_offset_div2 : Z; pps_scaling_list_data_present_flag : Z;
  pps_scaling_list_data : option (list (list scaling_list)); lists_modification_present_flag : Z;
  log2_parallel_merge_level_minus2 : Z; slice_segment_header_extension_present_flag : Z; pps_extension_present_flag : Z;
  pps_range_extension_flag : Z; pps_multilayer_extension_flag : Z; pps_3d_extension_flag : Z; pps_scc_extension_flag : Z;
  pps_extension_4bits : Z; pps_multilayer_extension : option pps_ml_ext; pps_scc_extension : option pps_scc_ext }.

(** src/h265_pps_parser.cc:35-335.  The result of ParsePpsMultilayerExtension (line 305) is not checked: [attempt]. *)
Definition ParsePpsBody : M pps :=
  id <- ReadExponentialGolomb ;;
  sps_id <- ReadExponentialGolomb ;;
  dep <- ReadBits 1 ;;
  outp <- ReadBits 1 ;;
  extra <- ReadBits 3 ;;
  sdh <- ReadBits 1 ;;
  cabac <- ReadBits 1 ;;
  l0 <- ReadExponentialGolomb ;;
  l1 <- ReadExponentialGolomb ;;
  qp <- ReadSignedExponentialGolomb ;;
  cip <- ReadBits 1 ;;
  ts <- ReadBits 1 ;;
  cuqp <- ReadBits 1 ;;
  cuqpd <- when (nz cuqp) ReadExponentialGolomb 0 ;;
  cb <- ReadSignedExponentialGolomb ;;
  cr <- ReadSignedExponentialGolomb ;;
  scq <- ReadBits 1 ;;
  wp <- ReadBits 1 ;;
  wbp <- ReadBits 1 ;;
  tqb <- ReadBits 1 ;;
  tiles <- ReadBits 1 ;;
  sync <- ReadBits 1 ;;
  cols <- when (nz tiles) ReadExponentialGolomb 0 ;;
  rows <- when (nz tiles) ReadExponentialGolomb 0 ;;
  unif <- when (nz tiles) (ReadBits 1) 0 ;;
  cw <- when (nz tiles && negb (nz unif)) (collect cols (fun _ => ReadExponentialGolomb)) [] ;;
  rh <- when (nz tiles && negb (nz unif)) (collect rows (fun _ => ReadExponentialGolomb)) [] ;;
  lft <- when (nz tiles) (ReadBits 1) 0 ;;
  lfs <- ReadBits 1 ;;
  dbc <- ReadBits 1 ;;
  dbo <- when (nz dbc) (ReadBits 1) 0 ;;
  dbd <- when (nz dbc) (ReadBits 1) 0 ;;
  beta <- when (nz dbc && negb (nz dbd)) ReadSignedExponentialGolomb 0 ;;
  tc <- when (nz dbc && negb (nz dbd)) ReadSignedExponentialGolomb 0 ;;
  slp <- ReadBits 1 ;;
  sld <- when (nz slp) (some ParseScalingListData) None ;;
  lists <- ReadBits 1 ;;
  pml <- ReadExponentialGolomb ;;
  she <- ReadBits 1 ;;
  ext <- ReadBits 1 ;;
  xr <- when (nz ext) (ReadBits 1) 0 ;;
  xm <- when (nz ext) (ReadBits 1) 0 ;;
  x3 <- when (nz ext) (ReadBits 1) 0 ;;
  xs <- when (nz ext) (ReadBits 1) 0 ;;
  x4 <- when (nz ext) (ReadBits 4) 0 ;;
  guard (negb (nz xr)) ;;;
  em <- when (nz xm) (attempt ParsePpsMultilayerExtension) None ;;
  guard (negb (nz x3)) ;;;
  es <- when (nz xs) (some ParsePpsSccExtension) None ;;
  ret (mkPPS id sps_id dep outp extra sdh cabac l0 l1 qp cip ts cuqp cuqpd cb cr scq wp wbp tqb tiles sync cols rows unif cw rh lft lfs
         dbc dbo dbd beta tc slp sld lists pml she ext xr xm x3 xs x4 em es).

(** src/h265_pps_parser.cc:35-349 ParsePps; the second component is pps_extension_data_flag. *)
Definition ParsePps : M (pps * Z) := finish (fun s => nz (pps_extension_4bits s)) ParsePpsBody.
