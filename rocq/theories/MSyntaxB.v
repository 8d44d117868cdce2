(** Model of: the extension-data / trailing-bits tail shared by VPS, SPS and PPS; video parameter set; SPS extensions;
    scaling_list_data; st_ref_pic_set.  Conventions as in MSyntaxA.v. *)
From Coq Require Import ZArith List Bool.
From Verif Require Import MBase MBitBuffer Spec Syntax MCommon MSyntaxA.
Import ListNotations.
Open Scope Z_scope.
Open Scope monad_scope.

(** [while (more_rbsp_data(bit_buffer)) { ReadBits(1, xps_extension_data_flag) }]: the last value read stays in the
    field, which is initially 0.  src/h265_vps_parser.cc:249-257, src/h265_sps_parser.cc:613-621,
    src/h265_pps_parser.cc:321-329.  The fuel covers every bit of the buffer (see FactsB: never exhausted). *)
Fixpoint ext_loop (fuel : nat) (last : Z) : M Z := fun b =>
  match more_rbsp_data b with
  | Err e => Err e
  | Fail b' => Fail b'
  | Ok more b' =>
    if more then
      match fuel with
      | O => Err OutOfFuel
      | S f => (x <- ReadBits 1 ;; ext_loop f x) b'
      end
    else Ok last b'
  end.
Definition ext_data : M Z := fun b => ext_loop (Z.to_nat (remaining b)) 0 b.

(** The end of the three parameter set parsers: extension data if announced, trailing bits, whose result is ignored. *)
Definition finish {A} (has_ext : A -> bool) (body : M A) : M (A * Z) :=
  s <- body ;;
  flag <- when (has_ext s) ext_data 0 ;;
  attempt rbsp_trailing_bits ;;;
  ret (s, flag).

(** * VPS *)
(** One iteration of src/h265_vps_parser.cc:88-107 *)
Record ordering_info : Type := mkOI {
  max_dec_pic_buffering_minus1 : Z; max_num_reorder_pics : Z; max_latency_increase_plus1 : Z }.
Definition read_ordering_info : M ordering_info :=
  a <- ReadExponentialGolomb ;;
  b <- ReadExponentialGolomb ;;
  c <- ReadExponentialGolomb ;;
  ret (mkOI a b c).

(** One iteration of src/h265_vps_parser.cc:215-239.  C++ keeps only the hrd_parameters of the last iteration. *)
Record vps_hrd_entry : Type := mkVH { hrd_layer_set_idx : Z; cprms_present_flag : Z; vps_hrd_parameters : hrd }.
Definition read_vps_hrd (max_sub : Z) (i : Z) : M vps_hrd_entry :=
  idx <- ReadExponentialGolomb ;;
  cprms <- when (0 <? i) ReadExponentialGolomb 0 ;;
  h <- ParseHrdParameters cprms max_sub ;;
  ret (mkVH idx cprms h).

(** include/h265_vps_parser.h:50-78 *)
Record vps_body : Type := mkVPS {
  vps_video_parameter_set_id : Z; vps_base_layer_internal_flag : Z; vps_base_layer_available_flag : Z;
  vps_max_layers_minus1 : Z; vps_max_sub_layers_minus1 : Z; vps_temporal_id_nesting_flag : Z;
  vps_reserved_0xffff_16bits : Z; vps_profile_tier_level : ptl;
  vps_sub_layer_ordering_info_present_flag : Z; vps_ordering : list ordering_info;
  vps_max_layer_id : Z; vps_num_layer_sets_minus1 : Z; layer_id_included_flag : list (list Z);
  vps_timing_info_present_flag : Z; vps_num_units_in_tick : Z; vps_time_scale : Z;
  vps_poc_proportional_to_timing_flag : Z; vps_num_ticks_poc_diff_one_minus1 : Z;
  vps_num_hrd_parameters : Z; vps_hrds : list vps_hrd_entry; vps_extension_flag : Z }.

(** [ReadBits(n, v)] followed by [if (v > k) return nullptr]. *)
Definition ReadBitsMax (n k : Z) : M Z :=
  v <- ReadBits n ;; guard (v <=? k) ;;; ret v.

(** src/h265_vps_parser.cc:31-247.  Limits: include/h265_vps_parser.h:20-38, include/h265_common.h:174,179.  The loop of
    lines 88-107 runs from max_sub_layers_minus1 (or 0) up to it; the two checks of num_layer_sets_minus1 coincide. *)
Definition ParseVpsBody : M vps_body :=
  id <- ReadBits 4 ;;
  bint <- ReadBits 1 ;;
  bav <- ReadBits 1 ;;
  mlayers <- ReadBits 6 ;;
  msub <- ReadBits 3 ;;
  nest <- ReadBits 1 ;;
  res <- ReadBits 16 ;;
  pt <- ParseProfileTierLevel true msub ;;
  ofl <- ReadBits 1 ;;
  ord <- collect (if nz ofl then msub + 1 else 1) (fun _ => read_ordering_info) ;;
  maxid <- ReadBitsMax 6 62 ;;
  nsets <- ReadUeMax 1023 ;;
  incl <- collect nsets (fun _ => collect (maxid + 1) (fun _ => ReadBits 1)) ;;
  ti <- ReadBits 1 ;;
  units <- when (nz ti) (ReadBits 32) 0 ;;
  scale <- when (nz ti) (ReadBits 32) 0 ;;
  poc <- when (nz ti) (ReadBits 1) 0 ;;
  ticks <- when (nz ti && nz poc) (ReadUeMax (u32_max - 1)) 0 ;;
  nhrd <- when (nz ti) (ReadUeMax (nsets + 1)) 0 ;;
  hrds <- when (nz ti) (collect nhrd (read_vps_hrd msub)) [] ;;
  ext <- ReadBits 1 ;;
  ret (mkVPS id bint bav mlayers msub nest res pt ofl ord maxid nsets incl ti units scale poc ticks nhrd hrds ext).

(** src/h265_vps_parser.cc:31-262 ParseVps; the second component is vps_extension_data_flag. *)
Definition ParseVps : M (vps_body * Z) := finish (fun s => nz (vps_extension_flag s)) ParseVpsBody.

(** * SPS extensions *)
(** src/h265_sps_range_extension_parser.cc:31-94 *)
Record sps_range_ext : Type := mkSRE {
  transform_skip_rotation_enabled_flag : Z; transform_skip_context_enabled_flag : Z; implicit_rdpcm_enabled_flag : Z;
  explicit_rdpcm_enabled_flag : Z; extended_precision_processing_flag : Z; intra_smoothing_disabled_flag : Z;
  high_precision_offsets_enabled_flag : Z; persistent_rice_adaptation_enabled_flag : Z;
  cabac_bypass_alignment_enabled_flag : Z }.
Definition ParseSpsRangeExtension : M sps_range_ext :=
  a <- ReadBits 1 ;; b <- ReadBits 1 ;; c <- ReadBits 1 ;; d <- ReadBits 1 ;; e <- ReadBits 1 ;;
  f <- ReadBits 1 ;; g <- ReadBits 1 ;; h <- ReadBits 1 ;; i <- ReadBits 1 ;;
  ret (mkSRE a b c d e f g h i).

(** src/h265_sps_multilayer_extension_parser.cc:33-49: inter_view_mv_vert_constraint_flag *)
Definition ParseSpsMultilayerExtension : M Z := ReadBits 1.

(** src/h265_sps_3d_extension_parser.cc:33-128: the loop over d = 0, 1 unrolled *)
Record sps_3d_ext : Type := mkS3D {
  iv_di_mc_enabled_flag0 : Z; iv_mv_scal_enabled_flag0 : Z; log2_ivmc_sub_pb_size_minus3 : Z; iv_res_pred_enabled_flag : Z;
  depth_ref_enabled_flag : Z; vsp_mc_enabled_flag : Z; dbbp_enabled_flag : Z;
  iv_di_mc_enabled_flag1 : Z; iv_mv_scal_enabled_flag1 : Z; tex_mc_enabled_flag : Z; log2_texmc_sub_pb_size_minus3 : Z;
  intra_contour_enabled_flag : Z; intra_dc_only_wedge_enabled_flag : Z; cqt_cu_part_pred_enabled_flag : Z;
  inter_dc_only_enabled_flag : Z; skip_intra_enabled_flag : Z }.
Definition ParseSps3dExtension : M sps_3d_ext :=
  a0 <- ReadBits 1 ;; b0 <- ReadBits 1 ;; c0 <- ReadExponentialGolomb ;; d0 <- ReadBits 1 ;; e0 <- ReadBits 1 ;;
  f0 <- ReadBits 1 ;; g0 <- ReadBits 1 ;;
  a1 <- ReadBits 1 ;; b1 <- ReadBits 1 ;; c1 <- ReadBits 1 ;; d1 <- ReadExponentialGolomb ;; e1 <- ReadBits 1 ;;
  f1 <- ReadBits 1 ;; g1 <- ReadBits 1 ;; h1 <- ReadBits 1 ;; i1 <- ReadBits 1 ;;
  ret (mkS3D a0 b0 c0 d0 e0 f0 g0 a1 b1 c1 d1 e1 f1 g1 h1 i1).

(** src/h265_sps_scc_extension_parser.cc:34-152; limits include/h265_sps_scc_extension_parser.h:22-30 *)
Record sps_scc_ext : Type := mkSSC {
  sps_curr_pic_ref_enabled_flag : Z; palette_mode_enabled_flag : Z; palette_max_size : Z;
  delta_palette_max_predictor_size : Z; sps_palette_predictor_initializers_present_flag : Z;
  sps_num_palette_predictor_initializers_minus1 : Z; sps_palette_predictor_initializers : list (list Z);
  motion_vector_resolution_control_idc : Z; intra_boundary_filtering_disabled_flag : Z }.
Definition ParseSpsSccExtension (chroma_format_idc bit_depth_luma_minus8 bit_depth_chroma_minus8 : Z) : M sps_scc_ext :=
  cpr <- ReadBits 1 ;;
  pal <- ReadBits 1 ;;
  pmax <- when (nz pal) (ReadUeMax 64) 0 ;;
  pdelta <- when (nz pal) (ReadUeMax 128) 0 ;;
  pres <- when (nz pal) (ReadBits 1) 0 ;;
  num <- when (nz pal && nz pres) (ReadUeMax 127) 0 ;;
  inits <- when (nz pal && nz pres)
    (collect (if chroma_format_idc =? 0 then 1 else 3) (fun comp =>
       collect (num + 1) (fun _ =>
         ReadBits (if comp =? 0 then u32 (8 + bit_depth_luma_minus8) else u32 (8 + bit_depth_chroma_minus8))))) [] ;;
  mvr <- ReadBits 2 ;;
  ibf <- ReadBits 1 ;;
  ret (mkSSC cpr pal pmax pdelta pres num inits mvr ibf).

(** * scaling_list_data *)
(** One (sizeId, matrixId).  [sl_deltas] are the values of scaling_list_delta_coef, which C++ does not store; [sl_coefs] is
    ScalingList[sizeId][matrixId]; [sl_dc] is scaling_list_dc_coef_minus8[sizeId - 2][matrixId]. *)
Record scaling_list : Type := mkSL {
  sl_pred_mode_flag : Z; sl_pred_matrix_id_delta : Z; sl_dc : Z; sl_deltas : list Z; sl_coefs : list Z }.

(** src/h265_scaling_list_data_parser.cc:91-101: the coefficient loop; state (nextCoef, deltas, coefs), lists in reverse.
    [static_cast<int32_t>(nextCoef) + scaling_list_delta_coef + 256] is int arithmetic. *)
Definition coef_step (i : Z) (st : Z * list Z * list Z) : M (Z * list Z * list Z) :=
  let '(next, ds, cs) := st in
  delta <- ReadSignedExponentialGolomb ;;
  s <- chk_i32 (to_i32 next + delta) ;;
  s <- chk_i32 (s + 256) ;;
  let next := u32 s mod 256 in
  ret (next, delta :: ds, next :: cs).
Definition read_coefs (start coefNum : Z) : M (list Z * list Z) :=
  st <- for_loop coefNum coef_step (start, [], []) ;;
  ret (rev (snd (fst st)), rev (snd st)).
(** src/h265_scaling_list_data_parser.cc:62-103: the body of the two loops *)
Definition read_scaling_list (sizeId : Z) : M scaling_list :=
  mode <- ReadBits 1 ;;
  delta <- when (negb (nz mode)) ReadExponentialGolomb 0 ;;
  let coefNum := Z.min 64 (Z.shiftl 1 (4 + Z.shiftl sizeId 1)) in
  dc <- when (nz mode && (1 <? sizeId)) ReadSignedExponentialGolomb 0 ;;
  start <- when (nz mode && (1 <? sizeId)) (s <- chk_i32 (dc + 8) ;; ret (u32 s)) 8 ;;
  coefs <- when (nz mode) (read_coefs start coefNum) ([], []) ;;
  ret (mkSL mode delta dc (fst coefs) (snd coefs)).
(** src/h265_scaling_list_data_parser.cc:33-106.  matrixId takes the values 0, 3 for sizeId 3. *)
Definition ParseScalingListData : M (list (list scaling_list)) :=
  collect 4 (fun sizeId => collect (if sizeId =? 3 then 2 else 6) (fun _ => read_scaling_list sizeId)).

(** * st_ref_pic_set *)
(** include/h265_st_ref_pic_set_parser.h:64-76.  [rps_flags]: (used_by_curr_pic_flag[j], use_delta_flag[j]);
    [rps_s0]: (delta_poc_s0_minus1[i], used_by_curr_pic_s0_flag[i]), same for s1. *)
Record rps : Type := mkRPS {
  inter_ref_pic_set_prediction_flag : Z; delta_idx_minus1 : Z; delta_rps_sign : Z; abs_delta_rps_minus1 : Z;
  rps_flags : list (Z * Z);
  num_negative_pics : Z; num_positive_pics : Z; rps_s0 : list (Z * Z); rps_s1 : list (Z * Z) }.

Definition HEVC_MAX_REFS := 16.
Definition HEVC_MAX_DPB_SIZE := 16.

(** src/h265_st_ref_pic_set_parser.cc:57-73: ref_delta_poc_s0 ([sign] = -1) and ref_delta_poc_s1 ([sign] = 1), the elements that are set *)
Fixpoint cum_poc (sign : Z) (l : list (Z * Z)) (n : nat) (i d_poc : Z) : M (list Z) :=
  match n with
  | O => ret []
  | S k =>
    guard (i <? HEVC_MAX_REFS) ;;;
    e <- at_ l i ;;
    t <- chk_i32 (to_i32 (fst e) + 1) ;;
    d <- chk_i32 (d_poc + sign * t) ;;
    r <- cum_poc sign l k (i + 1) d ;;
    ret (d :: r)
  end.

(** The body of the candidate loops, lines 76-91, 93-99, 100-109 ([sign] = -1) and 119-132, 134-140, 141-152 ([sign] = 1):
    append (d_poc, used_by_curr_pic_flag[fi]) if d_poc has the right sign and use_delta_flag[fi]. *)
Definition push_cand (sign : Z) (flags : list (Z * Z)) (d_poc fi : Z) (out : list (Z * Z)) : M (list (Z * Z)) :=
  if 0 <? sign * d_poc then
    fl <- at_ flags fi ;;
    if nz (snd fl) then
      guard (Z.of_nat (length out) <? HEVC_MAX_REFS) ;;;
      ret (out ++ [(d_poc, fst fl)])
    else ret out
  else ret out.
Fixpoint cand_loop (sign : Z) (flags : list (Z * Z)) (delta_rps : Z) (ref : list Z) (base : Z) (js : list Z) (out : list (Z * Z))
  : M (list (Z * Z)) :=
  match js with
  | [] => ret out
  | j :: r =>
    x <- at_ ref j ;;
    d_poc <- chk_i32 (x + delta_rps) ;;
    out' <- push_cand sign flags d_poc (base + j) out ;;
    cand_loop sign flags delta_rps ref base r out'
  end.
(** 0, 1, ..., n-1 *)
Definition upto (n : Z) : list Z := map Z.of_nat (seq 0 (Z.to_nat n)).

(** Lines 112-116 ([sign] = -1) and 155-159 ([sign] = 1): uint32_t of (sign * (d[i] - d[i-1]) - 1) *)
Fixpoint minus1s (sign prev : Z) (l : list (Z * Z)) : M (list (Z * Z)) :=
  match l with
  | [] => ret []
  | (d, used) :: r =>
    t <- chk_i32 (d - prev) ;;
    t <- chk_i32 (sign * t) ;;
    t <- chk_i32 (t - 1) ;;
    rest <- minus1s sign d r ;;
    ret ((u32 t, used) :: rest)
  end.

(** src/h265_st_ref_pic_set_parser.cc:36-158 DeriveValues: the new s0 and s1 *)
Definition DeriveValues (ref : rps) (sign abs : Z) (flags : list (Z * Z)) : M (list (Z * Z) * list (Z * Z)) :=
  delta_rps <- chk_i32 ((1 - 2 * to_i32 sign) * to_i32 (u32 (abs + 1))) ;;
  let neg := num_negative_pics ref in
  let pos := num_positive_pics ref in
  let total := u32 (neg + pos) in
  r0 <- cum_poc (-1) (rps_s0 ref) (Z.to_nat neg) 0 0 ;;
  r1 <- cum_poc 1 (rps_s1 ref) (Z.to_nat pos) 0 0 ;;
  c <- cand_loop (-1) flags delta_rps r1 neg (rev (upto pos)) [] ;;
  c <- push_cand (-1) flags delta_rps total c ;;
  c <- cand_loop (-1) flags delta_rps r0 0 (upto neg) c ;;
  s0 <- minus1s (-1) 0 c ;;
  c <- cand_loop 1 flags delta_rps r0 0 (rev (upto neg)) [] ;;
  c <- push_cand 1 flags delta_rps total c ;;
  c <- cand_loop 1 flags delta_rps r1 neg (upto pos) c ;;
  s1 <- minus1s 1 0 c ;;
  ret (s0, s1).

(** src/h265_st_ref_pic_set_parser.cc:258-276: one iteration *)
Definition read_rps_flag : M (Z * Z) :=
  used <- ReadBits 1 ;;
  use_delta <- when (negb (nz used)) (ReadBits 1) 1 ;;
  ret (used, use_delta).
(** src/h265_st_ref_pic_set_parser.cc:316-329, 331-342 *)
Definition read_rps_entry : M (Z * Z) :=
  d <- ReadExponentialGolomb ;;
  u <- ReadBits 1 ;;
  ret (d, u).

(** src/h265_st_ref_pic_set_parser.cc:198-281 *)
Definition read_rps_inter (idx num : Z) (sets : list rps) : M rps :=
  di <- when (idx =? num) ReadExponentialGolomb 0 ;;
  guard (di <=? u32 (idx - 1)) ;;;
  sign <- ReadBits 1 ;;
  abs <- ReadUeMax 32767 ;;
  let RefRpsIdx := u32 (idx - u32 (di + 1)) in
  ref <- at_ sets RefRpsIdx ;;
  let total := u32 (num_negative_pics ref + num_positive_pics ref) in
  guard (negb (HEVC_MAX_DPB_SIZE <=? total)) ;;;
  flags <- collect (total + 1) (fun _ => read_rps_flag) ;;
  d <- DeriveValues ref sign abs flags ;;
  ret (mkRPS 1 di sign abs flags (Z.of_nat (length (fst d))) (Z.of_nat (length (snd d))) (fst d) (snd d)).
(** src/h265_st_ref_pic_set_parser.cc:283-343 *)
Definition read_rps_explicit (max_num_pics : Z) : M rps :=
  neg <- ReadExponentialGolomb ;;
  guard (neg <=? max_num_pics) ;;;
  pos <- ReadExponentialGolomb ;;
  guard (pos <=? u32 (max_num_pics - neg)) ;;;
  s0 <- collect neg (fun _ => read_rps_entry) ;;
  s1 <- collect pos (fun _ => read_rps_entry) ;;
  ret (mkRPS 0 0 0 0 [] neg pos s0 s1).
(** src/h265_st_ref_pic_set_parser.cc:160-346 ParseStRefPicSet; [sets] is *st_ref_pic_set_state_vector.  Every non-zero value of the
    one-bit inter flag is 1. *)
Definition ParseStRefPicSet (idx num : Z) (sets : list rps) (max_num_pics : Z) : M rps :=
  guard (num <=? 64) ;;;
  inter <- when (negb (idx =? 0)) (ReadBits 1) 0 ;;
  if nz inter then read_rps_inter idx num sets else read_rps_explicit max_num_pics.
