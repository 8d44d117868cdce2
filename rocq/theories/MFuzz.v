(** Model of the fuzz targets (fuzz/*.cc): what LLVMFuzzerTestOneInput(data, size) calls, in order, on the bytes it is given.  Done tt: it
    returns 0; Bad: undefined behaviour (which -fsanitize=address,undefined of fuzz/CMakeLists.txt may report) or an abort.  The results of the calls are dropped. *)
From Coq Require Import ZArith List Bool.
From Verif Require Import MBase MBitBuffer MCommon MFraming MSyntaxA MSyntaxB MSps MPps MSlice MSei MNal MRtp.
Import ListNotations.
Open Scope Z_scope.

(** A call whose result is dropped; two statements *)
Definition drop {A} (o : outcome A) : outcome unit := match o with Done _ => Done tt | Bad e => Bad e end.
Definition also (o1 o2 : outcome unit) : outcome unit := match o1 with Done _ => o2 | Bad e => Bad e end.

(** fuzz/h265_aud_parser_fuzzer.cc:15-18 *)
Definition fuzz_aud (data : list Z) : outcome unit := drop (on_data ParseAud data).
(** fuzz/h265_bitstream_parser_fuzzer.cc:17-28: add_checksum = true (which it is by default) *)
Definition fuzz_bitstream (data : list Z) : outcome unit := drop (ParseBitstream default_options data empty_state).
(** fuzz/h265_configuration_box_parser_fuzzer.cc:15-23 *)
Definition fuzz_configuration_box (data : list Z) : outcome unit := drop (ParseConfigurationBox default_options data empty_state).
(** fuzz/h265_hrd_parameters_parser_fuzzer.cc:15-23 *)
Definition fuzz_hrd_parameters (data : list Z) : outcome unit := drop (on_data (ParseHrdParameters 1 0) data).
(** fuzz/h265_nal_unit_parser_fuzzer.cc:16-26 *)
Definition fuzz_nal_unit (data : list Z) : outcome unit := drop (ParseNalUnit default_options data empty_state).
(** fuzz/h265_pps_multilayer_extension_parser_fuzzer.cc:15-22 *)
Definition fuzz_pps_multilayer_extension (data : list Z) : outcome unit := drop (on_data ParsePpsMultilayerExtension data).
(** fuzz/h265_pps_parser_fuzzer.cc:15-20 *)
Definition fuzz_pps (data : list Z) : outcome unit := drop (on_data ParsePps data).
(** fuzz/h265_pps_scc_extension_parser_fuzzer.cc:15-21 *)
Definition fuzz_pps_scc_extension (data : list Z) : outcome unit := drop (on_data ParsePpsSccExtension data).
(** fuzz/h265_pred_weight_table_parser_fuzzer.cc:15-25 *)
Definition fuzz_pred_weight_table (data : list Z) : outcome unit :=
  also (drop (on_data (ParsePredWeightTable 1 0) data)) (drop (on_data (ParsePredWeightTable 1 2) data)).
(** fuzz/h265_profile_tier_level_parser_fuzzer.cc:14-24 *)
Definition fuzz_profile_tier_level (data : list Z) : outcome unit :=
  also (drop (on_data (ParseProfileTierLevel true 0) data)) (drop (on_data (ParseProfileTierLevel true 0) data)).
(** fuzz/h265_rtp_ap_parser_fuzzer.cc:15-20 *)
Definition fuzz_rtp_ap (data : list Z) : outcome unit := drop (ParseRtpAp data empty_state).
(** fuzz/h265_rtp_parser_fuzzer.cc:16-23 *)
Definition fuzz_rtp (data : list Z) : outcome unit := drop (ParseRtp data empty_state).
(** fuzz/h265_rtp_single_parser_fuzzer.cc:17-24 *)
Definition fuzz_rtp_single (data : list Z) : outcome unit := drop (ParseRtpSingle data empty_state).
(** fuzz/h265_scaling_list_data_parser_fuzzer.cc:15-21 *)
Definition fuzz_scaling_list_data (data : list Z) : outcome unit := drop (on_data ParseScalingListData data).
(** fuzz/h265_sei_parser_fuzzer.cc:15-20 *)
Definition fuzz_sei (data : list Z) : outcome unit := drop (on_data ParseSei data).
(** fuzz/h265_sps_3d_extension_parser_fuzzer.cc:15-21 *)
Definition fuzz_sps_3d_extension (data : list Z) : outcome unit := drop (on_data ParseSps3dExtension data).
(** fuzz/h265_sps_multilayer_extension_parser_fuzzer.cc:15-20 *)
Definition fuzz_sps_multilayer_extension (data : list Z) : outcome unit := drop (on_data ParseSpsMultilayerExtension data).
(** fuzz/h265_sps_parser_fuzzer.cc:15-20 *)
Definition fuzz_sps (data : list Z) : outcome unit := drop (on_data ParseSps data).
(** fuzz/h265_sps_range_extension_parser_fuzzer.cc:15-20 *)
Definition fuzz_sps_range_extension (data : list Z) : outcome unit := drop (on_data ParseSpsRangeExtension data).
(** fuzz/h265_sps_scc_extension_parser_fuzzer.cc:15-22 *)
Definition fuzz_sps_scc_extension (data : list Z) : outcome unit := drop (on_data (ParseSpsSccExtension 1 0 0) data).
(** fuzz/h265_st_ref_pic_set_parser_fuzzer.cc:16-25: the vector of a new SpsState is empty *)
Definition fuzz_st_ref_pic_set (data : list Z) : outcome unit := drop (on_data (ParseStRefPicSet 0 1 [] 1) data).
(** fuzz/h265_sub_layer_hrd_parameters_parser_fuzzer.cc:15-26: CpbCnt = 1, sub_pic_hrd_params_present_flag = 0 *)
Definition fuzz_sub_layer_hrd_parameters (data : list Z) : outcome unit := drop (on_data (ParseSubLayerHrdParameters 1 0) data).
(** fuzz/h265_vps_parser_fuzzer.cc:15-20 *)
Definition fuzz_vps (data : list Z) : outcome unit := drop (on_data ParseVps data).
(** fuzz/h265_vui_parameters_parser_fuzzer.cc:15-32 *)
Definition fuzz_vui_parameters (data : list Z) : outcome unit :=
  also (drop (on_data (ParseVuiParameters 0) data)) (also (drop (on_data (ParseVuiParameters 0) data)) (drop (on_data (ParseVuiParameters 0) data))).

(** ** Targets with parameter sets of their own *)
(** include/h265_vps_parser.h, include/h265_sps_parser.h, include/h265_pps_parser.h: the structs after construction (all numbers are 0, all
    pointers null, all vectors empty); in the SPS sample_adaptive_offset_enabled_flag = 1 and chroma_format_idc = 1
    (fuzz/h265_slice_parser_fuzzer.cc:26-28, fuzz/h265_rtp_fu_parser_fuzzer.cc:21-23, fuzz/h265_utils_fuzzer.cc:25-27) *)
Definition new_ptl : ptl := mkPTL None 0 [] [] [].
Definition new_vps : vps_body := mkVPS 0 0 0 0 0 0 0 new_ptl 0 [] 0 0 [] 0 0 0 0 0 0 [] 0.
Definition fuzz_sps_set : MSps.sps :=
  mkSPS 0 0 0 new_ptl 0 1 0 0 0 0 0 0 0 0 0 0 0 0 [] 0 0 0 0 0 0 0 0 None 0 1 0 0 0 0 0 0 0 [] 0 0 [] 0 0 0 None 0 0 0 0 0 0 None None None None.
Definition new_pps : MPps.pps :=
  mkPPS 0 0 0 0 0 0 0 0 0 0 0 0 0 0 0 0 0 0 0 0 0 0 0 0 0 [] [] 0 0 0 0 0 0 0 0 None 0 0 0 0 0 0 0 0 0 None None.
(** All three are stored under 0. *)
Definition mock : state := mkState (fun k => if k =? 0 then Some (new_vps, 0) else None) (fun k => if k =? 0 then Some (fuzz_sps_set, 0) else None)
  (fun k => if k =? 0 then Some (new_pps, 0) else None).
(** fuzz/h265_slice_parser_fuzzer.cc:20-38: IDR_W_RADL = 19 *)
Definition fuzz_slice (data : list Z) : outcome unit := drop (on_data (ParseSliceSegmentHeader IDR_W_RADL mock) data).
(** fuzz/h265_rtp_fu_parser_fuzzer.cc:15-31 *)
Definition fuzz_rtp_fu (data : list Z) : outcome unit := drop (ParseRtpFu data mock).
(** fuzz/h265_utils_fuzzer.cc:19-38: init_qp_minus26 = 0 *)
Definition fuzz_utils (data : list Z) : outcome unit := drop (GetSliceQpY data mock).
