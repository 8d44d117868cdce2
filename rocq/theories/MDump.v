(** Model of the fdump() functions (built when FDUMP_DEFINE is set): their control flow, the pointers they dereference, the vectors they
    index and the arithmetic they do.  The text they print is not modelled: fprintf of a number has no effect here, and a range-based for
    over a vector of numbers is omitted. *)
From Coq Require Import ZArith List Bool.
From Verif Require Import MBase MBitBuffer Spec Syntax MCommon MFraming MSyntaxA MSyntaxB MSps MPps MSlice MSei MNal MRtp.
Import ListNotations.
Open Scope Z_scope.

Declare Scope dump_scope.
Definition dump := outcome unit.
Definition nop : dump := Done tt.
Definition seq (d1 d2 : dump) : dump := match d1 with Done _ => d2 | Bad e => Bad e end.
Notation "d1 >> d2" := (seq d1 d2) (at level 61, right associativity) : dump_scope.
Open Scope dump_scope.
(** [if (c) { d }] *)
Definition only (c : bool) (d : dump) : dump := if c then d else nop.
(** [p->fdump()] on a unique_ptr *)
Definition deref {A} (p : option A) (d : A -> dump) : dump := match p with Some a => d a | None => Bad NullDeref end.
(** [if (p) p->fdump()] *)
Definition checked {A} (p : option A) (d : A -> dump) : dump := match p with Some a => d a | None => nop end.
(** [for (auto& v : l) d(v)] *)
Fixpoint each {A} (l : list A) (d : A -> dump) : dump := match l with [] => nop | a :: r => d a >> each r d end.
(** [l[i]] *)
Definition elem {A} (l : list A) (i : nat) (d : A -> dump) : dump := match nth_error l i with Some a => d a | None => Bad OutOfBounds end.
(** [for (i = 0; i < n; i++) d(i)] *)
Fixpoint upto (n : nat) (d : nat -> dump) : dump := match n with O => nop | S k => upto k d >> d k end.

(** src/h265_profile_tier_level_parser.cc:816-906: numbers, a vector of numbers and a string *)
Definition dump_profile_info (s : profile_info) : dump := nop.
(** src/h265_profile_tier_level_parser.cc:908-974.  sub_layer has the elements of [ptl_sub_layers] that are present. *)
Definition dump_ptl (present : bool) (max_sub : Z) (s : ptl) : dump :=
  only present (deref (ptl_general s) dump_profile_info) >>
  only (0 <? max_sub) (each (ptl_sub_layers s) (fun e => checked (fst e) dump_profile_info)).
(** src/h265_sub_layer_hrd_parameters_parser.cc:93-135: vectors of numbers *)
Definition dump_sub_layer_hrd (s : list cpb_entry) : dump := nop.
(** src/h265_hrd_parameters_parser.cc:214-336.  sub_layer_hrd_parameters_vector has the elements that are present. *)
Definition dump_sub_layer_hrds (s : hrd) : dump :=
  each (hrd_sub_layers s) (fun e => checked (sub_layer_nal_hrd e) dump_sub_layer_hrd >> checked (sub_layer_vcl_hrd e) dump_sub_layer_hrd).
Definition dump_hrd (s : hrd) : dump :=
  only (nz (nal_hrd_parameters_present_flag s)) (dump_sub_layer_hrds s) >>
  only (nz (vcl_hrd_parameters_present_flag s)) (dump_sub_layer_hrds s).
(** src/h265_vui_parameters_parser.cc:413-585 *)
Definition dump_vui (s : vui) : dump :=
  only (nz (vui_timing_info_present_flag s)) (only (nz (vui_hrd_parameters_present_flag s)) (deref (vui_hrd_parameters s) dump_hrd)).
(** src/h265_vps_parser.cc:265-389.  hrd_parameters: the one of the last iteration of the loop that reads them, null if there was none *)
Definition dump_vps (s : vps_body) : dump :=
  dump_ptl true (vps_max_sub_layers_minus1 s) (vps_profile_tier_level s) >>
  only (0 <? vps_num_hrd_parameters s) (deref (match rev (vps_hrds s) with e :: _ => Some (vps_hrd_parameters e) | [] => None end) dump_hrd).
(** src/h265_scaling_list_data_parser.cc:110-167, src/h265_st_ref_pic_set_parser.cc:348-424, src/h265_sps_range_extension_parser.cc,
    src/h265_sps_multilayer_extension_parser.cc, src/h265_sps_3d_extension_parser.cc:129-150, src/h265_sps_scc_extension_parser.cc:166-225,
    src/h265_pps_multilayer_extension_parser.cc:203-350, src/h265_pps_scc_extension_parser.cc:158-225,
    src/h265_pred_weight_table_parser.cc:128-199, src/h265_aud_parser.cc:47-58, src/h265_nal_unit_header_parser.cc:74-98:
    only numbers and range-based loops over vectors of numbers *)
Definition dump_numbers {A} (s : A) : dump := nop.
(** src/h265_sps_parser.cc:846-855: width and height are computed *)
Definition dump_resolution (s : sps) : dump := match getResolution s (mk_bb []) with Ok _ _ => nop | Fail _ => nop | Err e => Bad e end.
(** src/h265_sps_parser.cc:593-860 *)
Definition dump_sps (add_resolution : bool) (s : sps) : dump :=
  dump_ptl true (sps_max_sub_layers_minus1 s) (sps_profile_tier_level s) >>
  only (nz (scaling_list_enabled_flag s)) (only (nz (sps_scaling_list_data_present_flag s)) (deref (sps_scaling_list_data s) dump_numbers)) >>
  upto (Z.to_nat (num_short_term_ref_pic_sets s)) (fun i => elem (sps_st_ref_pic_set s) i dump_numbers) >>
  only (nz (vui_parameters_present_flag s)) (deref (sps_vui_parameters s) dump_vui) >>
  only (nz (sps_range_extension_flag s)) (deref (sps_range_extension s) dump_numbers) >>
  only (nz (sps_multilayer_extension_flag s)) (deref (sps_multilayer_extension s) dump_numbers) >>
  only (nz (sps_3d_extension_flag s)) (deref (sps_3d_extension s) dump_numbers) >>
  only (nz (sps_scc_extension_flag s)) (deref (sps_scc_extension s) dump_numbers) >>
  only add_resolution (dump_resolution s).
(** src/h265_pps_parser.cc:341-548 *)
Definition dump_pps (s : pps) : dump :=
  only (nz (pps_scaling_list_data_present_flag s)) (checked (pps_scaling_list_data s) dump_numbers) >>
  only (nz (pps_multilayer_extension_flag s)) (deref (pps_multilayer_extension s) dump_numbers) >>
  only (nz (pps_scc_extension_flag s)) (deref (pps_scc_extension s) dump_numbers).
(** src/h265_slice_parser.cc:63-77, 716-998 *)
Definition dump_slice (nut : Z) (h : slice_header) : dump :=
  only (negb (nz (dependent_slice_segment_flag h)))
   (only (negb (nut =? IDR_W_RADL) && negb (nut =? IDR_N_LP))
      (only (negb (nz (short_term_ref_pic_set_sps_flag h))) (checked (sh_st_ref_pic_set h) dump_numbers)) >>
    only ((slice_type h =? SliceType_P) || (slice_type h =? SliceType_B))
      (only ((nz (sh_weighted_pred_flag h) && (slice_type h =? SliceType_P)) || (nz (sh_weighted_bipred_flag h) && (slice_type h =? SliceType_B)))
         (deref (sh_pred_weight_table h) dump_numbers))).
(** src/h265_sei_parser.cc:1017-1132: the arrays of three counts and the vectors indexed by component.  [pre_lut], [post_lut] model both
    pre_lut_num_val_minus1 (an array of 3, so in range) and the pairs of pre_lut_coded_value, whose size is checked. *)
Definition dump_remap (s : sei_remap) : dump :=
  only (negb (nz (colour_remap_cancel_flag s)))
   (upto 3 (fun c => elem (pre_lut s) c (fun e => only (0 <? fst e) nop)) >>
    only (nz (colour_remap_matrix_present_flag s))
      (only (negb (Nat.eqb (length (colour_remap_coeffs s)) 0)) (upto 3 (fun c => only (Nat.ltb c (length (colour_remap_coeffs s))) (elem (colour_remap_coeffs s) c dump_numbers)))) >>
    upto 3 (fun c => elem (post_lut s) c (fun e => only (0 <? fst e) nop))).
(** src/h265_sei_parser.cc:909-960: arrays of three *)
Definition dump_mastering (s : sei_mastering) : dump := upto 3 (fun c => elem (display_primaries s) c dump_numbers).
(** src/h265_sei_parser.cc:1136-1195 *)
Definition dump_ccv (s : sei_ccv) : dump :=
  only (negb (nz (ccv_cancel_flag s))) (only (nz (ccv_primaries_present_flag s)) (upto 3 (fun c => elem (ccv_primaries s) c dump_numbers))).
(** src/h265_sei_parser.cc:791-1255: a virtual call; the others print numbers *)
Definition dump_sei_payload (p : sei_payload) : dump :=
  match p with
  | P_remap s => dump_remap s
  | P_mastering s => dump_mastering s
  | P_ccv s => dump_ccv s
  | _ => nop
  end.
Definition dump_sei (s : sei_message) : dump := checked (sei_payload_state s) dump_sei_payload.

(** src/h265_nal_unit_payload_parser.cc:165-272; the cases that only break are merged with the default *)
Definition dump_payload (o : options) (ty : Z) (p : nal_payload) : dump :=
  if case_of [TRAIL_N; TRAIL_R; TSA_N; TSA_R; STSA_N; STSA_R; RADL_N; RADL_R; RASL_N; RASL_R] ty
     || case_of [BLA_W_LP; BLA_W_RADL; BLA_N_LP; IDR_W_RADL; IDR_N_LP; CRA_NUT] ty then checked (np_slice p) (dump_slice ty)
  else if ty =? VPS_NUT then checked (np_vps p) (fun v => dump_vps (fst v))
  else if ty =? SPS_NUT then checked (np_sps p) (fun v => dump_sps (add_resolution o) (fst v))
  else if ty =? PPS_NUT then checked (np_pps p) (fun v => dump_pps (fst v))
  else if ty =? AUD_NUT then deref (np_aud p) dump_numbers
  else if case_of [PREFIX_SEI_NUT; SUFFIX_SEI_NUT] ty then checked (np_sei p) dump_sei
  else nop.
(** src/h265_nal_unit_parser.cc:109-115: a 64-byte buffer of zeros *)
Definition dump_checksum (c : Z) : dump := match checksum_fdump (checksum_bytes c) (repeat 0 64) 64 with Done _ => nop | Bad e => Bad e end.
(** src/h265_nal_unit_parser.cc:86-130 *)
Definition dump_nal (o : options) (u : nal_unit) : dump :=
  only (add_checksum o) (deref (nu_checksum u) dump_checksum) >>
  dump_payload o (nal_unit_type (nu_header u)) (nu_payload u).
(** src/h265_bitstream_parser.cc:274-280: with the options of the bitstream *)
Definition dump_bitstream (bs : bitstream) : dump := each (bs_units bs) (dump_nal (bs_options bs)).

(** src/h265_rtp_single_parser.cc:61-78 *)
Definition dump_rtp_single (o : options) (r : rtp_single) : dump := dump_payload o (nal_unit_type (rs_header r)) (rs_payload r).
(** src/h265_rtp_ap_parser.cc:83-107 *)
Definition dump_rtp_ap (o : options) (r : rtp_ap) : dump := each (ra_units r) (fun u => dump_payload o (nal_unit_type (au_header u)) (au_payload u)).
(** src/h265_rtp_fu_parser.cc:71-97 *)
Definition dump_rtp_fu (o : options) (r : rtp_fu) : dump := only (s_bit r =? 1) (deref (rf_payload r) (dump_payload o (fu_type r))).
(** src/h265_rtp_parser.cc:77-99 *)
Definition dump_rtp (o : options) (r : rtp) : dump :=
  let ty := nal_unit_type (rtp_header r) in
  if ty <=? 47 then deref (r_single r) (dump_rtp_single o)
  else if ty =? AP then deref (r_ap r) (dump_rtp_ap o)
  else if ty =? FU then deref (r_fu r) (dump_rtp_fu o)
  else nop.
(** src/h265_configuration_box_parser.cc:265-370; numNalus[j] is the length of [nalus] *)
Definition dump_box (o : options) (v : hvcc) : dump :=
  upto (Z.to_nat (numOfArrays (hv_header v))) (fun j => elem (hv_arrays v) j (fun a => each (nalus a) (fun e => deref (snd e) (dump_nal o)))).
