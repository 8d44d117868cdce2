(** Model of the text that fdump() prints (built when FDUMP_DEFINE is set).  An fdump function is modelled by the sequence of its output
    operations: fprintf of a string, fdump_indent_level, the changes of its local indent_level, and calls of other fdump functions, to which
    indent_level is passed by value.  The commands are run by [run] from an initial indent_level.  Stored copies of parse-time context
    (commonInfPresentFlag, stRpsIdx, ChromaArrayType, flags of the SPS and PPS of a slice) are parameters here.  Messages to stderr are not
    modelled. *)
From Coq Require Import ZArith List Bool String Ascii.
From Coq Require Decimal DecimalString DecimalZ.
From Verif Require Import MBase MBitBuffer Spec Syntax MCommon MFraming MSyntaxA MProfile MSyntaxB MSps MPps MSlice MSei MNal MRtp.
Import ListNotations.
Open Scope string_scope.
Open Scope Z_scope.

(** Output operations.  [Save]/[Restore] bracket a call: the callee has its own copy of indent_level. *)
Inductive cmd : Type := Put (s : string) | Ind | Incr | Decr | Save | Restore.

(** src/h265_common.cc:649-655 *)
Definition indent_level_incr (l : Z) : Z := if l =? -1 then -1 else l + 1.
Definition indent_level_decr (l : Z) : Z := if l =? -1 then -1 else l - 1.
Definition newline : ascii := ascii_of_nat 10.
Fixpoint spaces (n : nat) : string := match n with O => "" | S k => String " " (spaces k) end.
(** src/h265_common.cc:657-665; "%*s" with a negative width pads to its absolute value.  2 * indent_level is assumed not to overflow. *)
Definition fdump_indent_level (l : Z) : string := if l =? -1 then " " else String newline (spaces (Z.to_nat (Z.abs (2 * l)))).

Fixpoint run (l : Z) (stack : list Z) (cs : list cmd) : string :=
  match cs with
  | [] => ""
  | Put s :: r => s ++ run l stack r
  | Ind :: r => fdump_indent_level l ++ run l stack r
  | Incr :: r => run (indent_level_incr l) stack r
  | Decr :: r => run (indent_level_decr l) stack r
  | Save :: r => run l (l :: stack) r
  | Restore :: r => match stack with l' :: st => run l' st r | [] => run l [] r end
  end.

(** A function that prints, or does something undefined *)
Declare Scope text_scope.
Definition txt := outcome (list cmd).
Definition tnop : txt := Done [].
Definition tseq (d1 d2 : txt) : txt :=
  match d1 with Bad e => Bad e | Done c1 => match d2 with Bad e => Bad e | Done c2 => Done (c1 ++ c2)%list end end.
Notation "d1 +> d2" := (tseq d1 d2) (at level 61, right associativity) : text_scope.
Open Scope text_scope.
(** [if (c) { d }] *)
Definition tif (c : bool) (d : txt) : txt := if c then d else tnop.
(** [p->fdump()] on a unique_ptr *)
Definition tderef {A} (p : option A) (d : A -> txt) : txt := match p with Some a => d a | None => Bad NullDeref end.
(** [if (p) p->fdump()] *)
Definition tchecked {A} (p : option A) (d : A -> txt) : txt := match p with Some a => d a | None => tnop end.
(** [for (auto& v : l) d(v)] *)
Fixpoint teach {A} (l : list A) (d : A -> txt) : txt := match l with [] => tnop | a :: r => d a +> teach r d end.
(** [l[i]] *)
Definition telem {A} (l : list A) (i : nat) (d : A -> txt) : txt := match nth_error l i with Some a => d a | None => Bad OutOfBounds end.
(** [for (i = 0; i < n; i++) d(i)] *)
Fixpoint tupto (n : nat) (d : nat -> txt) : txt := match n with O => tnop | S k => tupto k d +> d k end.
Definition call (d : txt) : txt := Done [Save] +> d +> Done [Restore].

(** Decimal digits of an integer *)
Definition dec (x : Z) : string := DecimalString.NilZero.string_of_int (Z.to_int x).
(** "%i" of a 32-bit value (uint32_t or int32_t) *)
Definition pr_i (x : Z) : string := dec (to_i32 x).
(** "%u" of a 32-bit (or smaller unsigned) value, "%zu", PRIu32 and PRIu64 of a value in range *)
Definition pr_u (x : Z) : string := dec x.
(** [n] hexadecimal digits: the low [4 n] bits of x *)
Fixpoint hex_digits (n : nat) (x : Z) : string :=
  match n with O => "" | S k => hex_digits k (Z.shiftr x 4) ++ String (ascii_of_nat (Z.to_nat (hex_char (Z.land x 15)))) "" end.
(** "%0nx" of a value x >= 0: at least n digits *)
Definition hex_len (x : Z) : nat := S (Z.to_nat (Z.log2 x / 4)).
Definition pr_x (n : nat) (x : Z) : string := hex_digits (Nat.max n (hex_len x)) x.
(** n decimal digits with leading zeros *)
Fixpoint dec_digits (n : nat) (x : Z) : string :=
  match n with O => "" | S k => dec_digits k (x / 10) ++ String (ascii_of_nat (Z.to_nat (48 + x mod 10))) "" end.
(** "%.df" of the double x * c, where x is a uint32_t and c = k / 10^d a decimal constant: the exact decimal.  C82_printed (PropsFloat.v)
    proves that the roundings of the constant and of the product do not show. *)
Definition pr_f (d : nat) (k x : Z) : string := dec (k * x / 10 ^ Z.of_nat d) ++ "." ++ dec_digits d (k * x mod 10 ^ Z.of_nat d).

(** fdump_indent_level(..); fprintf("...") *)
Definition line (s : string) : txt := Done [Ind; Put s].
(** fdump_indent_level(..); fprintf("n: %i", x) *)
Definition fi (n : string) (x : Z) : txt := line (n ++ ": " ++ pr_i x).
Definition fu (n : string) (x : Z) : txt := line (n ++ ": " ++ pr_u x).
(** fdump_indent_level(..); fprintf("n {"); for (v : l) fprintf(" %i", v); fprintf(" }") *)
Definition pr_list (pr : Z -> string) (pre post : string) (l : list Z) : string := fold_right (fun x r => pre ++ pr x ++ post ++ r) "" l.
Definition vec (n : string) (l : list Z) : txt := line (n ++ " {" ++ pr_list pr_i " " "" l ++ " }").
Definition vecs (n : string) (l : list Z) : txt := line (n ++ " {" ++ pr_list pr_i " " " " l ++ " }").
Definition vecu (n : string) (l : list Z) : txt := line (n ++ " {" ++ pr_list pr_u " " "" l ++ " }").
(** the same with "n: {" *)
Definition vecc (n : string) (l : list Z) : txt := line (n ++ ": {" ++ pr_list pr_u " " "" l ++ " }").
Definition vecci (n : string) (l : list Z) : txt := line (n ++ ": {" ++ pr_list pr_i " " "" l ++ " }").
(** vectors of vectors: " { .. }" for each *)
Definition pr_list2 (l : list (list Z)) : string := fold_right (fun x r => " {" ++ pr_list pr_i " " "" x ++ " }" ++ r) "" l.
Definition vec2 (n : string) (l : list (list Z)) : txt := line (n ++ " {" ++ pr_list2 l ++ " }").
Definition pr_list3 (l : list (list (list Z))) : string := fold_right (fun x r => " {" ++ pr_list2 x ++ " }" ++ r) "" l.
Definition vec3 (n : string) (l : list (list (list Z))) : txt := line (n ++ " {" ++ pr_list3 l ++ " }").
(** indent_level = indent_level_decr(indent_level); fdump_indent_level(..); fprintf("}") *)
Definition close : txt := Done [Decr; Ind; Put "}"].
(** fdump_indent_level(..); fprintf("n {"); indent_level = indent_level_incr(indent_level); .. *)
Definition block (n : string) (d : txt) : txt := Done [Ind; Put (n ++ " {"); Incr] +> d +> close.
(** the body of most fdump functions: the caller has already indented *)
Definition struct (n : string) (d : txt) : txt := Done [Put (n ++ " {"); Incr] +> d +> close.
(** fdump_indent_level(..); p->fdump(outfp, indent_level) *)
Definition sub (d : txt) : txt := Done [Ind] +> call d.

(** src/h265_common.cc:292-509.  PT_HIGH_THROUGHPUT has no case. *)
Definition profileTypeToString (p : Z) : string :=
  if p =? PT_UNSPECIFIED then "Unspecified" else
  if p =? PT_MAIN then "Main" else
  if p =? PT_MAIN_10 then "Main 10" else
  if p =? PT_MAIN_STILL_PICTURE then "Main Still Picture" else
  if p =? PT_FREXT then "FRExt" else
  if p =? PT_MULTIVIEW_MAIN then "Multiview Main" else
  if p =? PT_SCALABLE then "Scalable" else
  if p =? PT__3D_MAIN then "3D-Main" else
  if p =? PT_SCREEN_EXTENDED then "Screen-Extended" else
  if p =? PT_MULTILAYER then "Multilayer (Annex F)" else
  if p =? PT_SCREEN_EXTENDED_HIGH_THROUGHPUT then "Screen-Extended High-Throughput" else
  if p =? PT_MULTIVIEW_EXTENDED then "Multiview Extended" else
  if p =? PT_MULTIVIEW_EXTENDED_10 then "Multiview Extended 10" else
  if p =? PT_MAIN_10_STILL_PICTURE then "Main 10 Still Picture" else
  if p =? PT_MONOCHROME then "Monochrome (8-bit)" else
  if p =? PT_MONOCHROME_10 then "Monochrome (10-bit)" else
  if p =? PT_MONOCHROME_12 then "Monochrome (12-bit)" else
  if p =? PT_MONOCHROME_16 then "Monochrome (16-bit)" else
  if p =? PT_MAIN_12 then "Main 12" else
  if p =? PT_MAIN_422_10 then "Main 4:2:2 10" else
  if p =? PT_MAIN_422_12 then "Main 4:2:2 12" else
  if p =? PT_MAIN_444 then "Main 4:4:4" else
  if p =? PT_MAIN_444_10 then "Main 4:4:4 10" else
  if p =? PT_MAIN_444_12 then "Main 4:4:4 12" else
  if p =? PT_MAIN_INTRA then "Main Intra" else
  if p =? PT_MAIN_10_INTRA then "Main 10 Intra" else
  if p =? PT_MAIN_12_INTRA then "Main 12 Intra" else
  if p =? PT_MAIN_422_10_INTRA then "Main 4:2:2 10 Intra" else
  if p =? PT_MAIN_422_12_INTRA then "Main 4:2:2 12 Intra" else
  if p =? PT_MAIN_444_INTRA then "Main 4:4:4 Intra" else
  if p =? PT_MAIN_444_10_INTRA then "Main 4:4:4 10 Intra" else
  if p =? PT_MAIN_444_12_INTRA then "Main 4:4:4 12 Intra" else
  if p =? PT_MAIN_444_16_INTRA then "Main 4:4:4 16 Intra" else
  if p =? PT_MAIN_444_STILL_PICTURE then "Main 4:4:4 Still Picture" else
  if p =? PT_MAIN_444_16_STILL_PICTURE then "Main 4:4:4 16 Still Picture" else
  if p =? PT_HIGH_THROUGHPUT_444 then "High Throughput 4:4:4" else
  if p =? PT_HIGH_THROUGHPUT_444_10 then "High Throughput 4:4:4 10" else
  if p =? PT_HIGH_THROUGHPUT_444_14 then "High Throughput 4:4:4 14" else
  if p =? PT_HIGH_THROUGHPUT_444_16_INTRA then "High Throughput 4:4:4 16 Intra" else
  if p =? PT_SCALABLE_MAIN then "Scalable Main" else
  if p =? PT_SCALABLE_MAIN_10 then "Scalable Main 10" else
  if p =? PT_SCREEN_EXTENDED_MAIN then "Screen-Extended Main" else
  if p =? PT_SCREEN_EXTENDED_MAIN_10 then "Screen-Extended Main 10" else
  if p =? PT_SCREEN_EXTENDED_MAIN_444 then "Screen-Extended Main 4:4:4" else
  if p =? PT_SCREEN_EXTENDED_MAIN_444_10 then "Screen-Extended Main 4:4:4 10" else
  if p =? PT_SCREEN_EXTENDED_HIGH_THROUGHPUT_444 then "Screen-Extended High Throughput 4:4:4" else
  if p =? PT_SCREEN_EXTENDED_HIGH_THROUGHPUT_444_10 then "Screen-Extended High Throughput 4:4:4 10" else
  if p =? PT_SCREEN_EXTENDED_HIGH_THROUGHPUT_444_14 then "Screen-Extended High Throughput 4:4:4 14" else
  if p =? PT_MONOCHROME_STILL_PICTURE then "Monochrome (8-bit) Still Picture" else
  if p =? PT_MONOCHROME_10_STILL_PICTURE then "Monochrome (10-bit) Still Picture" else
  if p =? PT_MAIN_444_10_STILL_PICTURE then "Main (8-bit) 4:4:4 Still Picture" else
  "Unknown".

(** src/h265_profile_tier_level_parser.cc:816-906; profile_type is GetProfileType of the state (line 277, when all
    the fields it reads are set) *)
Definition text_profile_info (s : profile_info) : txt :=
  fi "profile_space" (profile_space s) +>
  fi "tier_flag" (tier_flag s) +>
  fi "profile_idc" (profile_idc s) +>
  vec "profile_compatibility_flag" (profile_compatibility_flag s) +>
  line ("profile: " ++ profileTypeToString (GetProfileType s)) +>
  fi "progressive_source_flag" (progressive_source_flag s) +>
  fi "interlaced_source_flag" (interlaced_source_flag s) +>
  fi "non_packed_constraint_flag" (non_packed_constraint_flag s) +>
  fi "frame_only_constraint_flag" (frame_only_constraint_flag s) +>
  fi "max_12bit_constraint_flag" (max_12bit_constraint_flag s) +>
  fi "max_10bit_constraint_flag" (max_10bit_constraint_flag s) +>
  fi "max_8bit_constraint_flag" (max_8bit_constraint_flag s) +>
  fi "max_422chroma_constraint_flag" (max_422chroma_constraint_flag s) +>
  fi "max_420chroma_constraint_flag" (max_420chroma_constraint_flag s) +>
  fi "max_monochrome_constraint_flag" (max_monochrome_constraint_flag s) +>
  fi "intra_constraint_flag" (intra_constraint_flag s) +>
  fi "one_picture_only_constraint_flag" (one_picture_only_constraint_flag s) +>
  fi "lower_bit_rate_constraint_flag" (lower_bit_rate_constraint_flag s) +>
  fi "max_14bit_constraint_flag" (max_14bit_constraint_flag s) +>
  fu "reserved_zero_33bits" (reserved_zero_33bits s) +>
  fu "reserved_zero_34bits" (reserved_zero_34bits s) +>
  fu "reserved_zero_7bits" (reserved_zero_7bits s) +>
  fu "reserved_zero_35bits" (reserved_zero_35bits s) +>
  fu "reserved_zero_43bits" (reserved_zero_43bits s) +>
  fi "inbld_flag" (inbld_flag s) +>
  fi "reserved_zero_bit" (reserved_zero_bit s).

(** src/h265_profile_tier_level_parser.cc:908-974.  sub_layer and sub_layer_level_idc have the elements of [ptl_sub_layers] whose
    profile is present (lines 86-101); the model gives level 0 to the others. *)
Definition present_levels (l : list (option profile_info * Z)) : list Z :=
  flat_map (fun e => match fst e with Some _ => [snd e] | None => [] end) l.
Definition text_ptl (present : bool) (max_sub : Z) (s : ptl) : txt :=
  struct "profile_tier_level" (
  tif present (block "general" (call (tderef (ptl_general s) text_profile_info))) +>
  fi "general_level_idc" (ptl_general_level_idc s) +>
  vec "sub_layer_profile_present_flag" (map fst (ptl_sub_layer_flags s)) +>
  vecs "sub_layer_level_present_flag" (map snd (ptl_sub_layer_flags s)) +>
  tif (0 <? max_sub) (vecs "reserved_zero_2bits" (ptl_reserved_zero_2bits s)) +>
  tif (0 <? max_sub) (
    teach (ptl_sub_layers s) (fun e => tchecked (fst e) (fun i => block "sub_layer" (call (text_profile_info i)))) +>
    vecs "sub_layer_level_idc" (present_levels (ptl_sub_layers s)))).
(** src/h265_sub_layer_hrd_parameters_parser.cc:93-136 *)
Definition text_sub_layer_hrd (s : list cpb_entry) : txt :=
  struct "sub_layer_hrd_parameters" (
  vec "bit_rate_value_minus1" (map bit_rate_value_minus1 s) +>
  vec "cpb_size_value_minus1" (map cpb_size_value_minus1 s) +>
  vec "cpb_size_du_value_minus1" (map cpb_size_du_value_minus1 s) +>
  vec "bit_rate_du_value_minus1" (map bit_rate_du_value_minus1 s) +>
  vec "cbr_flag" (map cbr_flag s)).
(** src/h265_hrd_parameters_parser.cc:214-341.  sub_layer_hrd_parameters_vector has the elements that are present, the NAL one before the VCL
    one for each sub-layer (lines 181-207). *)
Definition text_sub_layer_hrds (s : hrd) : txt :=
  block "sub_layer_hrd_parameters_vector" (teach (hrd_sub_layers s) (fun e =>
    tchecked (sub_layer_nal_hrd e) (fun l => sub (text_sub_layer_hrd l)) +> tchecked (sub_layer_vcl_hrd e) (fun l => sub (text_sub_layer_hrd l)))).
Definition text_hrd (common : bool) (s : hrd) : txt :=
  struct "hrd_parameters" (
  tif common (
    fi "nal_hrd_parameters_present_flag" (nal_hrd_parameters_present_flag s) +>
    fi "vcl_hrd_parameters_present_flag" (vcl_hrd_parameters_present_flag s) +>
    tif (nz (nal_hrd_parameters_present_flag s) || nz (vcl_hrd_parameters_present_flag s)) (
      fi "sub_pic_hrd_params_present_flag" (sub_pic_hrd_params_present_flag s) +>
      tif (nz (sub_pic_hrd_params_present_flag s)) (
        fi "tick_divisor_minus2" (tick_divisor_minus2 s) +>
        fi "du_cpb_removal_delay_increment_length_minus1" (du_cpb_removal_delay_increment_length_minus1 s) +>
        fi "sub_pic_cpb_params_in_pic_timing_sei_flag" (sub_pic_cpb_params_in_pic_timing_sei_flag s) +>
        fi "dpb_output_delay_du_length_minus1" (dpb_output_delay_du_length_minus1 s)) +>
      fi "bit_rate_scale" (bit_rate_scale s) +>
      fi "cpb_size_scale" (cpb_size_scale s) +>
      tif (nz (sub_pic_hrd_params_present_flag s)) (fi "cpb_size_du_scale" (cpb_size_du_scale s)) +>
      fi "initial_cpb_removal_delay_length_minus1" (initial_cpb_removal_delay_length_minus1 s) +>
      fi "au_cpb_removal_delay_length_minus1" (au_cpb_removal_delay_length_minus1 s) +>
      fi "dpb_output_delay_length_minus1" (dpb_output_delay_length_minus1 s))) +>
  vec "fixed_pic_rate_general_flag" (map fixed_pic_rate_general_flag (hrd_sub_layers s)) +>
  vec "fixed_pic_rate_within_cvs_flag" (map fixed_pic_rate_within_cvs_flag (hrd_sub_layers s)) +>
  vec "elemental_duration_in_tc_minus1" (map elemental_duration_in_tc_minus1 (hrd_sub_layers s)) +>
  vec "low_delay_hrd_flag" (map low_delay_hrd_flag (hrd_sub_layers s)) +>
  vec "cpb_cnt_minus1" (map cpb_cnt_minus1 (hrd_sub_layers s)) +>
  tif (nz (nal_hrd_parameters_present_flag s)) (text_sub_layer_hrds s) +>
  tif (nz (vcl_hrd_parameters_present_flag s)) (text_sub_layer_hrds s)).

(** src/h265_vui_parameters_parser.cc:413-584; its hrd_parameters() are read with commonInfPresentFlag 1 *)
Definition text_vui (s : vui) : txt :=
  struct "vui_parameters" (
  fi "aspect_ratio_info_present_flag" (aspect_ratio_info_present_flag s) +>
  tif (nz (aspect_ratio_info_present_flag s)) (
    fi "aspect_ratio_idc" (aspect_ratio_idc s) +>
    tif (aspect_ratio_idc s =? AR_EXTENDED_SAR) (fi "sar_width" (sar_width s) +> fi "sar_height" (sar_height s))) +>
  fi "overscan_info_present_flag" (overscan_info_present_flag s) +>
  tif (nz (overscan_info_present_flag s)) (fi "overscan_appropriate_flag" (overscan_appropriate_flag s)) +>
  fi "video_signal_type_present_flag" (video_signal_type_present_flag s) +>
  tif (nz (video_signal_type_present_flag s)) (
    fi "video_format" (video_format s) +>
    fi "video_full_range_flag" (video_full_range_flag s) +>
    fi "colour_description_present_flag" (colour_description_present_flag s) +>
    tif (nz (colour_description_present_flag s)) (
      fi "colour_primaries" (colour_primaries s) +>
      fi "transfer_characteristics" (transfer_characteristics s) +>
      fi "matrix_coeffs" (matrix_coeffs s))) +>
  fi "chroma_loc_info_present_flag" (chroma_loc_info_present_flag s) +>
  tif (nz (chroma_loc_info_present_flag s)) (
    fi "chroma_sample_loc_type_top_field" (chroma_sample_loc_type_top_field s) +>
    fi "chroma_sample_loc_type_bottom_field" (chroma_sample_loc_type_bottom_field s)) +>
  fi "neutral_chroma_indication_flag" (neutral_chroma_indication_flag s) +>
  fi "field_seq_flag" (field_seq_flag s) +>
  fi "frame_field_info_present_flag" (frame_field_info_present_flag s) +>
  fi "default_display_window_flag" (default_display_window_flag s) +>
  tif (nz (default_display_window_flag s)) (
    fi "def_disp_win_left_offset" (def_disp_win_left_offset s) +>
    fi "def_disp_win_right_offset" (def_disp_win_right_offset s) +>
    fi "def_disp_win_top_offset" (def_disp_win_top_offset s) +>
    fi "def_disp_win_bottom_offset" (def_disp_win_bottom_offset s)) +>
  fi "vui_timing_info_present_flag" (vui_timing_info_present_flag s) +>
  tif (nz (vui_timing_info_present_flag s)) (
    fi "vui_num_units_in_tick" (vui_num_units_in_tick s) +>
    fi "vui_time_scale" (vui_time_scale s) +>
    fi "vui_poc_proportional_to_timing_flag" (vui_poc_proportional_to_timing_flag s) +>
    tif (nz (vui_poc_proportional_to_timing_flag s)) (fi "vui_num_ticks_poc_diff_one_minus1" (vui_num_ticks_poc_diff_one_minus1 s)) +>
    fi "vui_hrd_parameters_present_flag" (vui_hrd_parameters_present_flag s) +>
    tif (nz (vui_hrd_parameters_present_flag s)) (sub (tderef (vui_hrd_parameters s) (text_hrd true)))) +>
  fi "bitstream_restriction_flag" (bitstream_restriction_flag s) +>
  tif (nz (bitstream_restriction_flag s)) (
    fi "tiles_fixed_structure_flag" (tiles_fixed_structure_flag s) +>
    fi "motion_vectors_over_pic_boundaries_flag" (motion_vectors_over_pic_boundaries_flag s) +>
    fi "restricted_ref_pic_lists_flag" (restricted_ref_pic_lists_flag s) +>
    fi "min_spatial_segmentation_idc" (MSyntaxA.min_spatial_segmentation_idc s) +>
    fi "max_bytes_per_pic_denom" (max_bytes_per_pic_denom s) +>
    fi "max_bits_per_min_cu_denom" (max_bits_per_min_cu_denom s) +>
    fi "log2_max_mv_length_horizontal" (log2_max_mv_length_horizontal s) +>
    fi "log2_max_mv_length_vertical" (log2_max_mv_length_vertical s))).

(** src/h265_vps_parser.cc:265-389.  hrd_parameters: the one of the last iteration of the loop that reads them, null if there was none.
    [data_flag] is vps_extension_data_flag. *)
Definition text_vps (s : vps_body) (data_flag : Z) : txt :=
  struct "vps" (
  fi "vps_video_parameter_set_id" (vps_video_parameter_set_id s) +>
  fi "vps_base_layer_internal_flag" (vps_base_layer_internal_flag s) +>
  fi "vps_base_layer_available_flag" (vps_base_layer_available_flag s) +>
  fi "vps_max_layers_minus1" (vps_max_layers_minus1 s) +>
  fi "vps_max_sub_layers_minus1" (vps_max_sub_layers_minus1 s) +>
  fi "vps_temporal_id_nesting_flag" (vps_temporal_id_nesting_flag s) +>
  line ("vps_reserved_0xffff_16bits: 0x" ++ pr_x 4 (vps_reserved_0xffff_16bits s)) +>
  sub (text_ptl true (vps_max_sub_layers_minus1 s) (vps_profile_tier_level s)) +>
  fi "vps_sub_layer_ordering_info_present_flag" (vps_sub_layer_ordering_info_present_flag s) +>
  vec "vps_max_dec_pic_buffering_minus1" (map max_dec_pic_buffering_minus1 (vps_ordering s)) +>
  vec "vps_max_num_reorder_pics" (map max_num_reorder_pics (vps_ordering s)) +>
  vec "vps_max_latency_increase_plus1" (map max_latency_increase_plus1 (vps_ordering s)) +>
  fi "vps_max_layer_id" (vps_max_layer_id s) +>
  fi "vps_num_layer_sets_minus1" (vps_num_layer_sets_minus1 s) +>
  vec2 "layer_id_included_flag" (layer_id_included_flag s) +>
  fi "vps_timing_info_present_flag" (vps_timing_info_present_flag s) +>
  fi "vps_num_units_in_tick" (vps_num_units_in_tick s) +>
  fi "vps_time_scale" (vps_time_scale s) +>
  fi "vps_poc_proportional_to_timing_flag" (vps_poc_proportional_to_timing_flag s) +>
  fi "vps_num_ticks_poc_diff_one_minus1" (vps_num_ticks_poc_diff_one_minus1 s) +>
  fi "vps_num_hrd_parameters" (vps_num_hrd_parameters s) +>
  tif (0 <? vps_num_hrd_parameters s) (
    vec "hrd_layer_set_idx" (map hrd_layer_set_idx (vps_hrds s)) +>
    vec "cprms_present_flag" (map cprms_present_flag (vps_hrds s)) +>
    sub (tderef (match rev (vps_hrds s) with e :: _ => Some e | [] => None end)
           (fun e => text_hrd (nz (cprms_present_flag e)) (vps_hrd_parameters e)))) +>
  fi "vps_extension_flag" (vps_extension_flag s) +>
  fi "vps_extension_data_flag" data_flag).

(** src/h265_scaling_list_data_parser.cc:110-166.  The vectors are 4 x 6 (lines 41-53); for sizeId 3 only the matrices 0 and 3 are
    read, the DC coefficient of sizeId is stored in row sizeId - 2, and a list that is predicted is empty. *)
Definition spread {A} (d : A) (size_id : nat) (l : list A) : list A :=
  match size_id, l with 3%nat, [a; b] => [a; d; d; b; d; d] | _, _ => l end.
Definition rows {A} (f : scaling_list -> A) (d : A) (s : list (list scaling_list)) : list (list A) :=
  map (fun e => spread d (fst e) (map f (snd e))) (combine (seq 0 (List.length s)) s).
Definition text_scaling_list_data (s : list (list scaling_list)) : txt :=
  struct "scaling_list_data" (
  vec2 "scaling_list_pred_mode_flag" (rows sl_pred_mode_flag 0 s) +>
  vec2 "scaling_list_pred_matrix_id_delta" (rows sl_pred_matrix_id_delta 0 s) +>
  vec2 "scaling_list_dc_coef_minus8" (skipn 2 (rows sl_dc 0 s) ++ [repeat 0 6; repeat 0 6])%list +>
  vec3 "ScalingList" (rows sl_coefs [] s)).
(** src/h265_st_ref_pic_set_parser.cc:348-424 *)
Definition text_rps (stRpsIdx num_sets : Z) (s : rps) : txt :=
  struct "st_ref_pic_set" (
  tif (negb (stRpsIdx =? 0)) (fi "inter_ref_pic_set_prediction_flag" (inter_ref_pic_set_prediction_flag s)) +>
  (if nz (inter_ref_pic_set_prediction_flag s) then
    tif (stRpsIdx =? num_sets) (fi "delta_idx_minus1" (delta_idx_minus1 s)) +>
    fi "delta_rps_sign" (delta_rps_sign s) +>
    fi "abs_delta_rps_minus1" (abs_delta_rps_minus1 s) +>
    vec "used_by_curr_pic_flag" (map fst (rps_flags s)) +>
    vec "use_delta_flag" (map snd (rps_flags s))
  else
    fi "num_negative_pics" (num_negative_pics s) +>
    fi "num_positive_pics" (num_positive_pics s) +>
    vec "delta_poc_s0_minus1" (map fst (rps_s0 s)) +>
    vec "used_by_curr_pic_s0_flag" (map snd (rps_s0 s)) +>
    vec "delta_poc_s1_minus1" (map fst (rps_s1 s)) +>
    vec "used_by_curr_pic_s1_flag" (map snd (rps_s1 s)))).
(** src/h265_sps_range_extension_parser.cc:97-141 *)
Definition text_sps_range (s : sps_range_ext) : txt :=
  struct "sps_range_extension" (
  fi "transform_skip_rotation_enabled_flag" (transform_skip_rotation_enabled_flag s) +>
  fi "transform_skip_context_enabled_flag" (transform_skip_context_enabled_flag s) +>
  fi "implicit_rdpcm_enabled_flag" (implicit_rdpcm_enabled_flag s) +>
  fi "explicit_rdpcm_enabled_flag" (explicit_rdpcm_enabled_flag s) +>
  fi "extended_precision_processing_flag" (extended_precision_processing_flag s) +>
  fi "intra_smoothing_disabled_flag" (intra_smoothing_disabled_flag s) +>
  fi "high_precision_offsets_enabled_flag" (high_precision_offsets_enabled_flag s) +>
  fi "persistent_rice_adaptation_enabled_flag" (persistent_rice_adaptation_enabled_flag s) +>
  fi "cabac_bypass_alignment_enabled_flag" (cabac_bypass_alignment_enabled_flag s)).
(** src/h265_sps_multilayer_extension_parser.cc:51-63 *)
Definition text_sps_multilayer (v : Z) : txt := struct "sps_multilayer_extension" (fi "inter_view_mv_vert_constraint_flag" v).
(** src/h265_sps_3d_extension_parser.cc:129-191 *)
Definition text_sps_3d (s : sps_3d_ext) : txt :=
  struct "sps_3d_extension" (
  vec "iv_di_mc_enabled_flag" [iv_di_mc_enabled_flag0 s; iv_di_mc_enabled_flag1 s] +>
  vec "iv_mv_scal_enabled_flag" [iv_mv_scal_enabled_flag0 s; iv_mv_scal_enabled_flag1 s] +>
  fi "log2_ivmc_sub_pb_size_minus3" (log2_ivmc_sub_pb_size_minus3 s) +>
  fi "iv_res_pred_enabled_flag" (iv_res_pred_enabled_flag s) +>
  fi "depth_ref_enabled_flag" (depth_ref_enabled_flag s) +>
  fi "vsp_mc_enabled_flag" (vsp_mc_enabled_flag s) +>
  fi "dbbp_enabled_flag" (dbbp_enabled_flag s) +>
  fi "tex_mc_enabled_flag" (tex_mc_enabled_flag s) +>
  fi "log2_texmc_sub_pb_size_minus3" (log2_texmc_sub_pb_size_minus3 s) +>
  fi "intra_contour_enabled_flag" (intra_contour_enabled_flag s) +>
  fi "intra_dc_only_wedge_enabled_flag" (intra_dc_only_wedge_enabled_flag s) +>
  fi "cqt_cu_part_pred_enabled_flag" (cqt_cu_part_pred_enabled_flag s) +>
  fi "inter_dc_only_enabled_flag" (inter_dc_only_enabled_flag s) +>
  fi "skip_intra_enabled_flag" (skip_intra_enabled_flag s)).
(** src/h265_sps_scc_extension_parser.cc:166-220 *)
Definition text_sps_scc (s : sps_scc_ext) : txt :=
  struct "sps_scc_extension" (
  fi "sps_curr_pic_ref_enabled_flag" (sps_curr_pic_ref_enabled_flag s) +>
  fi "palette_mode_enabled_flag" (palette_mode_enabled_flag s) +>
  tif (nz (palette_mode_enabled_flag s)) (
    fi "palette_max_size" (palette_max_size s) +>
    fi "delta_palette_max_predictor_size" (delta_palette_max_predictor_size s) +>
    fi "sps_palette_predictor_initializers_present_flag" (sps_palette_predictor_initializers_present_flag s) +>
    tif (nz (sps_palette_predictor_initializers_present_flag s)) (
      fi "sps_num_palette_predictor_initializers_minus1" (sps_num_palette_predictor_initializers_minus1 s) +>
      vec2 "sps_palette_predictor_initializers" (sps_palette_predictor_initializers s))) +>
  fi "motion_vector_resolution_control_idc" (motion_vector_resolution_control_idc s) +>
  fi "intra_boundary_filtering_disabled_flag" (intra_boundary_filtering_disabled_flag s)).

(** src/h265_sps_parser.cc:846-855: width and height are computed into int variables that stay -1 if getResolution does not set them *)
Definition text_resolution (s : sps) : txt :=
  match getResolution s (mk_bb []) with
  | Ok (w, h) _ => fi "width" w +> fi "height" h
  | Fail _ => fi "width" (-1) +> fi "height" (-1)
  | Err e => Bad e
  end.
(** src/h265_sps_parser.cc:593-860 *)
Definition text_sps (add_resolution : bool) (s : sps) : txt :=
  struct "sps" (
  fi "sps_video_parameter_set_id" (sps_video_parameter_set_id s) +>
  fi "sps_max_sub_layers_minus1" (sps_max_sub_layers_minus1 s) +>
  fi "sps_temporal_id_nesting_flag" (sps_temporal_id_nesting_flag s) +>
  sub (text_ptl true (sps_max_sub_layers_minus1 s) (sps_profile_tier_level s)) +>
  fi "sps_seq_parameter_set_id" (sps_seq_parameter_set_id s) +>
  fi "chroma_format_idc" (chroma_format_idc s) +>
  tif (chroma_format_idc s =? 3) (fi "separate_colour_plane_flag" (separate_colour_plane_flag s)) +>
  fi "pic_width_in_luma_samples" (pic_width_in_luma_samples s) +>
  fi "pic_height_in_luma_samples" (pic_height_in_luma_samples s) +>
  fi "conformance_window_flag" (conformance_window_flag s) +>
  tif (nz (conformance_window_flag s)) (
    fi "conf_win_left_offset" (conf_win_left_offset s) +>
    fi "conf_win_right_offset" (conf_win_right_offset s) +>
    fi "conf_win_top_offset" (conf_win_top_offset s) +>
    fi "conf_win_bottom_offset" (conf_win_bottom_offset s)) +>
  fi "bit_depth_luma_minus8" (bit_depth_luma_minus8 s) +>
  fi "bit_depth_chroma_minus8" (bit_depth_chroma_minus8 s) +>
  fi "log2_max_pic_order_cnt_lsb_minus4" (log2_max_pic_order_cnt_lsb_minus4 s) +>
  fi "sps_sub_layer_ordering_info_present_flag" (sps_sub_layer_ordering_info_present_flag s) +>
  vec "sps_max_dec_pic_buffering_minus1" (map max_dec_pic_buffering_minus1 (sps_ordering s)) +>
  vec "sps_max_num_reorder_pics" (map max_num_reorder_pics (sps_ordering s)) +>
  vec "sps_max_latency_increase_plus1" (map max_latency_increase_plus1 (sps_ordering s)) +>
  fi "log2_min_luma_coding_block_size_minus3" (log2_min_luma_coding_block_size_minus3 s) +>
  fi "log2_diff_max_min_luma_coding_block_size" (log2_diff_max_min_luma_coding_block_size s) +>
  fi "log2_min_luma_transform_block_size_minus2" (log2_min_luma_transform_block_size_minus2 s) +>
  fi "log2_diff_max_min_luma_transform_block_size" (log2_diff_max_min_luma_transform_block_size s) +>
  fi "max_transform_hierarchy_depth_inter" (max_transform_hierarchy_depth_inter s) +>
  fi "max_transform_hierarchy_depth_intra" (max_transform_hierarchy_depth_intra s) +>
  fi "scaling_list_enabled_flag" (scaling_list_enabled_flag s) +>
  tif (nz (scaling_list_enabled_flag s)) (
    fi "sps_scaling_list_data_present_flag" (sps_scaling_list_data_present_flag s) +>
    tif (nz (sps_scaling_list_data_present_flag s)) (sub (tderef (sps_scaling_list_data s) text_scaling_list_data))) +>
  fi "amp_enabled_flag" (amp_enabled_flag s) +>
  fi "sample_adaptive_offset_enabled_flag" (sample_adaptive_offset_enabled_flag s) +>
  fi "pcm_enabled_flag" (pcm_enabled_flag s) +>
  tif (nz (pcm_enabled_flag s)) (
    fi "pcm_sample_bit_depth_luma_minus1" (pcm_sample_bit_depth_luma_minus1 s) +>
    fi "pcm_sample_bit_depth_chroma_minus1" (pcm_sample_bit_depth_chroma_minus1 s) +>
    fi "log2_min_pcm_luma_coding_block_size_minus3" (log2_min_pcm_luma_coding_block_size_minus3 s) +>
    fi "log2_diff_max_min_pcm_luma_coding_block_size" (log2_diff_max_min_pcm_luma_coding_block_size s) +>
    fi "pcm_loop_filter_disabled_flag" (pcm_loop_filter_disabled_flag s)) +>
  fi "num_short_term_ref_pic_sets" (num_short_term_ref_pic_sets s) +>
  tupto (Z.to_nat (num_short_term_ref_pic_sets s)) (fun i =>
    sub (telem (sps_st_ref_pic_set s) i (text_rps (Z.of_nat i) (num_short_term_ref_pic_sets s)))) +>
  fi "long_term_ref_pics_present_flag" (long_term_ref_pics_present_flag s) +>
  tif (nz (long_term_ref_pics_present_flag s)) (
    fi "num_long_term_ref_pics_sps" (num_long_term_ref_pics_sps s) +>
    vec "lt_ref_pic_poc_lsb_sps" (map fst (sps_lt s)) +>
    vec "used_by_curr_pic_lt_sps_flag" (map snd (sps_lt s))) +>
  fi "sps_temporal_mvp_enabled_flag" (sps_temporal_mvp_enabled_flag s) +>
  fi "strong_intra_smoothing_enabled_flag" (strong_intra_smoothing_enabled_flag s) +>
  fi "vui_parameters_present_flag" (vui_parameters_present_flag s) +>
  tif (nz (vui_parameters_present_flag s)) (sub (tderef (sps_vui_parameters s) text_vui)) +>
  fi "sps_extension_present_flag" (sps_extension_present_flag s) +>
  tif (nz (sps_extension_present_flag s)) (
    fi "sps_range_extension_flag" (sps_range_extension_flag s) +>
    fi "sps_multilayer_extension_flag" (sps_multilayer_extension_flag s) +>
    fi "sps_3d_extension_flag" (sps_3d_extension_flag s) +>
    fi "sps_scc_extension_flag" (sps_scc_extension_flag s) +>
    fi "sps_extension_4bits" (sps_extension_4bits s)) +>
  tif (nz (sps_range_extension_flag s)) (sub (tderef (sps_range_extension s) text_sps_range)) +>
  tif (nz (sps_multilayer_extension_flag s)) (sub (tderef (sps_multilayer_extension s) text_sps_multilayer)) +>
  tif (nz (sps_3d_extension_flag s)) (sub (tderef (sps_3d_extension s) text_sps_3d)) +>
  tif (nz (sps_scc_extension_flag s)) (sub (tderef (sps_scc_extension s) text_sps_scc)) +>
  tif add_resolution (text_resolution s)).

(** src/h265_pps_multilayer_extension_parser.cc:203-352.  Each vector has the elements of the [ref_locs] in which it is present. *)
Definition col (f : ref_loc -> option quad) (q : quad -> Z) (l : list ref_loc) : list Z :=
  flat_map (fun e => match f e with Some x => [q x] | None => [] end) l.
Definition text_pps_multilayer (s : pps_ml_ext) : txt :=
  let l := ref_locs s in
  struct "pps_multilayer_extension" (
  fi "poc_reset_info_present_flag" (poc_reset_info_present_flag s) +>
  fi "pps_infer_scaling_list_flag" (pps_infer_scaling_list_flag s) +>
  tif (nz (pps_infer_scaling_list_flag s)) (fi "pps_scaling_list_ref_layer_id" (pps_scaling_list_ref_layer_id s)) +>
  fi "num_ref_loc_offsets" (num_ref_loc_offsets s) +>
  tif (0 <? num_ref_loc_offsets s) (
    vec "ref_loc_offset_layer_id" (map ref_loc_offset_layer_id l) +>
    vec "scaled_ref_layer_offset_present_flag" (map scaled_ref_layer_offset_present_flag l) +>
    vec "scaled_ref_layer_left_offset" (col rl_scaled q_1 l) +>
    vec "scaled_ref_layer_top_offset" (col rl_scaled q_2 l) +>
    vec "scaled_ref_layer_right_offset" (col rl_scaled q_3 l) +>
    vec "scaled_ref_layer_bottom_offset" (col rl_scaled q_4 l) +>
    vecu "ref_region_offset_present_flag" (map ref_region_offset_present_flag l) +>
    vec "ref_region_left_offset" (col rl_region q_1 l) +>
    vec "ref_region_top_offset" (col rl_region q_2 l) +>
    vec "ref_region_right_offset" (col rl_region q_3 l) +>
    vec "ref_region_bottom_offset" (col rl_region q_4 l) +>
    vecu "resample_phase_set_present_flag" (map resample_phase_set_present_flag l) +>
    vec "phase_hor_luma" (col rl_phase q_1 l) +>
    vec "phase_ver_luma" (col rl_phase q_2 l) +>
    vec "phase_hor_chroma_plus8" (col rl_phase q_3 l) +>
    vec "phase_ver_chroma_plus8" (col rl_phase q_4 l)) +>
  fi "colour_mapping_enabled_flag" (colour_mapping_enabled_flag s)).
(** src/h265_pps_scc_extension_parser.cc:158-228 *)
Definition text_pps_scc (s : pps_scc_ext) : txt :=
  struct "pps_scc_extension" (
  fi "pps_curr_pic_ref_enabled_flag" (pps_curr_pic_ref_enabled_flag s) +>
  fi "residual_adaptive_colour_transform_enabled_flag" (residual_adaptive_colour_transform_enabled_flag s) +>
  tif (nz (residual_adaptive_colour_transform_enabled_flag s)) (
    fi "pps_slice_act_qp_offsets_present_flag" (pps_slice_act_qp_offsets_present_flag s) +>
    fi "pps_act_y_qp_offset_plus5" (pps_act_y_qp_offset_plus5 s) +>
    fi "pps_act_cb_qp_offset_plus5" (pps_act_cb_qp_offset_plus5 s) +>
    fi "pps_act_cr_qp_offset_plus3" (pps_act_cr_qp_offset_plus3 s)) +>
  fi "pps_palette_predictor_initializer_present_flag" (pps_palette_predictor_initializer_present_flag s) +>
  tif (nz (pps_palette_predictor_initializer_present_flag s)) (
    fi "pps_num_palette_predictor_initializer" (pps_num_palette_predictor_initializer s) +>
    tif (0 <? pps_num_palette_predictor_initializer s) (
      fi "monochrome_palette_flag" (monochrome_palette_flag s) +>
      fi "luma_bit_depth_entry_minus8" (luma_bit_depth_entry_minus8 s) +>
      tif (negb (nz (monochrome_palette_flag s))) (fi "chroma_bit_depth_entry_minus8" (chroma_bit_depth_entry_minus8 s)) +>
      vec2 "pps_palette_predictor_initializers" (pps_palette_predictor_initializers s)))).
(** src/h265_pps_parser.cc:341-548.  Lines 386-389 print cu_qp_delta_enabled_flag a second time; diff_cu_qp_delta_depth is not printed. *)
Definition text_pps (s : pps) : txt :=
  struct "pps" (
  fi "pps_pic_parameter_set_id" (pps_pic_parameter_set_id s) +>
  fi "pps_seq_parameter_set_id" (pps_seq_parameter_set_id s) +>
  fi "dependent_slice_segments_enabled_flag" (dependent_slice_segments_enabled_flag s) +>
  fi "output_flag_present_flag" (output_flag_present_flag s) +>
  fi "num_extra_slice_header_bits" (num_extra_slice_header_bits s) +>
  fi "sign_data_hiding_enabled_flag" (sign_data_hiding_enabled_flag s) +>
  fi "cabac_init_present_flag" (cabac_init_present_flag s) +>
  fi "num_ref_idx_l0_default_active_minus1" (num_ref_idx_l0_default_active_minus1 s) +>
  fi "num_ref_idx_l1_default_active_minus1" (num_ref_idx_l1_default_active_minus1 s) +>
  fi "init_qp_minus26" (init_qp_minus26 s) +>
  fi "constrained_intra_pred_flag" (constrained_intra_pred_flag s) +>
  fi "transform_skip_enabled_flag" (transform_skip_enabled_flag s) +>
  fi "cu_qp_delta_enabled_flag" (cu_qp_delta_enabled_flag s) +>
  tif (nz (cu_qp_delta_enabled_flag s)) (fi "cu_qp_delta_enabled_flag" (cu_qp_delta_enabled_flag s)) +>
  fi "pps_cb_qp_offset" (pps_cb_qp_offset s) +>
  fi "pps_cr_qp_offset" (pps_cr_qp_offset s) +>
  fi "pps_slice_chroma_qp_offsets_present_flag" (pps_slice_chroma_qp_offsets_present_flag s) +>
  fi "weighted_pred_flag" (weighted_pred_flag s) +>
  fi "weighted_bipred_flag" (weighted_bipred_flag s) +>
  fi "transquant_bypass_enabled_flag" (transquant_bypass_enabled_flag s) +>
  fi "tiles_enabled_flag" (tiles_enabled_flag s) +>
  fi "entropy_coding_sync_enabled_flag" (entropy_coding_sync_enabled_flag s) +>
  tif (nz (tiles_enabled_flag s)) (
    fi "num_tile_columns_minus1" (num_tile_columns_minus1 s) +>
    fi "num_tile_rows_minus1" (num_tile_rows_minus1 s) +>
    fi "uniform_spacing_flag" (uniform_spacing_flag s) +>
    tif (negb (nz (uniform_spacing_flag s))) (
      vec "column_width_minus1" (column_width_minus1 s) +>
      vec "row_height_minus1" (row_height_minus1 s)) +>
    fi "loop_filter_across_tiles_enabled_flag" (loop_filter_across_tiles_enabled_flag s)) +>
  fi "pps_loop_filter_across_slices_enabled_flag" (pps_loop_filter_across_slices_enabled_flag s) +>
  fi "deblocking_filter_control_present_flag" (deblocking_filter_control_present_flag s) +>
  tif (nz (deblocking_filter_control_present_flag s)) (
    fi "deblocking_filter_override_enabled_flag" (deblocking_filter_override_enabled_flag s) +>
    fi "pps_deblocking_filter_disabled_flag" (pps_deblocking_filter_disabled_flag s) +>
    tif (negb (nz (pps_deblocking_filter_disabled_flag s))) (
      fi "pps_beta_offset_div2" (pps_beta_offset_div2 s) +>
      fi "pps_tc_offset_div2" (pps_tc_offset_div2 s))) +>
  fi "pps_scaling_list_data_present_flag" (pps_scaling_list_data_present_flag s) +>
  tif (nz (pps_scaling_list_data_present_flag s)) (tchecked (pps_scaling_list_data s) (fun d => sub (text_scaling_list_data d))) +>
  fi "lists_modification_present_flag" (lists_modification_present_flag s) +>
  fi "log2_parallel_merge_level_minus2" (log2_parallel_merge_level_minus2 s) +>
  fi "slice_segment_header_extension_present_flag" (slice_segment_header_extension_present_flag s) +>
  fi "pps_extension_present_flag" (pps_extension_present_flag s) +>
  tif (nz (pps_extension_present_flag s)) (
    fi "pps_range_extension_flag" (pps_range_extension_flag s) +>
    fi "pps_multilayer_extension_flag" (pps_multilayer_extension_flag s) +>
    fi "pps_3d_extension_flag" (pps_3d_extension_flag s) +>
    fi "pps_scc_extension_flag" (pps_scc_extension_flag s) +>
    fi "pps_extension_4bits" (pps_extension_4bits s)) +>
  tif (nz (pps_multilayer_extension_flag s)) (sub (tderef (pps_multilayer_extension s) text_pps_multilayer)) +>
  tif (nz (pps_scc_extension_flag s)) (sub (tderef (pps_scc_extension s) text_pps_scc))).

(** src/h265_pred_weight_table_parser.cc:128-199; only entries that are present are stored (lines 88-123).  A quad is weight and offset of
    the first, then of the second chroma component. *)
Definition text_pwt (ChromaArrayType : Z) (s : pwt) : txt :=
  let chroma := negb (ChromaArrayType =? 0) in
  struct "pred_weight_table" (
  fi "luma_log2_weight_denom" (luma_log2_weight_denom s) +>
  tif chroma (fi "delta_chroma_log2_weight_denom" (delta_chroma_log2_weight_denom s)) +>
  vecu "luma_weight_l0_flag" (luma_weight_l0_flag s) +>
  tif chroma (vecu "chroma_weight_l0_flag" (chroma_weight_l0_flag s)) +>
  vec "delta_luma_weight_l0" (map fst (pwt_luma s)) +>
  vec "luma_offset_l0" (map snd (pwt_luma s)) +>
  tif chroma (
    vec2 "delta_chroma_weight_l0" (map (fun q => [q_1 q; q_3 q]) (pwt_chroma s)) +>
    vec2 "delta_chroma_offset_l0" (map (fun q => [q_2 q; q_4 q]) (pwt_chroma s)))).
(** src/h265_slice_parser.cc:716-998.  [s] and [p] are the SPS and PPS the header was parsed with: the header has copies of the fields that
    are read here, assigned whenever the lines that read them are reached.  use of uint32_t: num_long_term_sps + num_long_term_pics wraps.
    lt_idx_sps, poc_lsb_lt, .. have the elements that are present (lines 287-342).  lists_modification_present_flag and
    chroma_qp_offset_list_enabled_flag print nothing (see MSlice.slice_rest). *)
Definition act_flag (p : pps) : Z :=
  if nz (pps_scc_extension_flag p) then match pps_scc_extension p with Some e => pps_slice_act_qp_offsets_present_flag e | None => 0 end else 0.
Definition lt_col (keep : nat -> lt_entry -> bool) (f : lt_entry -> Z) (l : list lt_entry) : list Z :=
  flat_map (fun e => if keep (fst e) (snd e) then [f (snd e)] else []) (combine (seq 0 (List.length l)) l).
Definition text_lt (s : sps) (h : slice_header) (i : nat) : txt :=
  let from_sps := fun (j : nat) => Z.of_nat j <? num_long_term_sps h in
  (if from_sps i then
     tif (1 <? num_long_term_ref_pics_sps s) (vec "lt_idx_sps" (lt_col (fun j _ => from_sps j && (1 <? num_long_term_ref_pics_sps s)) lt_idx_sps (sh_lt h)))
   else
     vec "poc_lsb_lt" (lt_col (fun j _ => negb (from_sps j)) poc_lsb_lt (sh_lt h)) +>
     vec "used_by_curr_pic_lt_flag" (lt_col (fun j _ => negb (from_sps j)) used_by_curr_pic_lt_flag (sh_lt h))) +>
  vec "delta_poc_msb_present_flag" (map delta_poc_msb_present_flag (sh_lt h)) +>
  vec "delta_poc_msb_cycle_lt" (lt_col (fun _ e => nz (delta_poc_msb_present_flag e)) delta_poc_msb_cycle_lt (sh_lt h)).
Definition text_slice_header (s : sps) (p : pps) (nut : Z) (h : slice_header) : txt :=
  let isp := slice_type h =? SliceType_P in
  let isb := slice_type h =? SliceType_B in
  struct "slice_segment_header" (
  fi "first_slice_segment_in_pic_flag" (first_slice_segment_in_pic_flag h) +>
  fi "no_output_of_prior_pics_flag" (no_output_of_prior_pics_flag h) +>
  fi "slice_pic_parameter_set_id" (slice_pic_parameter_set_id h) +>
  fi "dependent_slice_segment_flag" (dependent_slice_segment_flag h) +>
  fi "slice_segment_address" (slice_segment_address h) +>
  tif (negb (nz (dependent_slice_segment_flag h))) (
    vec "slice_reserved_flag" (slice_reserved_flag h) +>
    fi "slice_type" (slice_type h) +>
    fi "pic_output_flag" (pic_output_flag h) +>
    fi "colour_plane_id" (colour_plane_id h) +>
    tif (negb (nut =? IDR_W_RADL) && negb (nut =? IDR_N_LP)) (
      fi "slice_pic_order_cnt_lsb" (slice_pic_order_cnt_lsb h) +>
      fi "short_term_ref_pic_set_sps_flag" (short_term_ref_pic_set_sps_flag h) +>
      (if negb (nz (short_term_ref_pic_set_sps_flag h)) then
         Done [Ind] +> tchecked (sh_st_ref_pic_set h) (fun r => call (text_rps (num_short_term_ref_pic_sets s) (num_short_term_ref_pic_sets s) r))
       else tif (1 <? num_short_term_ref_pic_sets s) (fi "short_term_ref_pic_set_idx" (short_term_ref_pic_set_idx h))) +>
      tif (nz (long_term_ref_pics_present_flag s)) (
        tif (0 <? num_long_term_ref_pics_sps s) (fi "num_long_term_sps" (num_long_term_sps h)) +>
        fi "num_long_term_pics" (num_long_term_pics h) +>
        tupto (Z.to_nat (u32 (num_long_term_sps h + num_long_term_pics h))) (text_lt s h)) +>
      tif (nz (sps_temporal_mvp_enabled_flag s)) (fi "slice_temporal_mvp_enabled_flag" (slice_temporal_mvp_enabled_flag h))) +>
    tif (nz (sample_adaptive_offset_enabled_flag s)) (
      fi "slice_sao_luma_flag" (slice_sao_luma_flag h) +>
      tif (negb (ChromaArrayType_of s =? 0)) (fi "slice_sao_chroma_flag" (slice_sao_chroma_flag h))) +>
    tif (isp || isb) (
      fi "num_ref_idx_active_override_flag" (num_ref_idx_active_override_flag h) +>
      tif (nz (num_ref_idx_active_override_flag h)) (
        fi "num_ref_idx_l0_active_minus1" (num_ref_idx_l0_active_minus1 h) +>
        tif isb (fi "num_ref_idx_l1_active_minus1" (num_ref_idx_l1_active_minus1 h))) +>
      tif isb (fi "mvd_l1_zero_flag" (mvd_l1_zero_flag h)) +>
      tif (nz (cabac_init_present_flag p)) (fi "cabac_init_flag" (cabac_init_flag h)) +>
      tif (nz (slice_temporal_mvp_enabled_flag h)) (
        tif isb (fi "collocated_from_l0_flag" (collocated_from_l0_flag h)) +>
        tif ((nz (collocated_from_l0_flag h) && (0 <? num_ref_idx_l0_active_minus1 h)) ||
             (negb (nz (collocated_from_l0_flag h)) && (0 <? num_ref_idx_l1_active_minus1 h)))
          (fi "collocated_ref_idx" (collocated_ref_idx h))) +>
      tif ((nz (sh_weighted_pred_flag h) && isp) || (nz (sh_weighted_bipred_flag h) && isb))
        (sub (tderef (sh_pred_weight_table h) (text_pwt (ChromaArrayType_of s)))) +>
      fi "five_minus_max_num_merge_cand" (five_minus_max_num_merge_cand h) +>
      tif (mv_res_control s =? 2) (fi "use_integer_mv_flag" (use_integer_mv_flag h))) +>
    fi "slice_qp_delta" (slice_qp_delta h) +>
    tif (nz (pps_slice_chroma_qp_offsets_present_flag p)) (
      fi "slice_cb_qp_offset" (slice_cb_qp_offset h) +>
      fi "slice_cr_qp_offset" (slice_cr_qp_offset h)) +>
    tif (nz (act_flag p)) (
      fi "slice_act_y_qp_offset" (slice_act_y_qp_offset h) +>
      fi "slice_act_cb_qp_offset" (slice_act_cb_qp_offset h) +>
      fi "slice_act_cr_qp_offset" (slice_act_cr_qp_offset h)) +>
    tif (nz (deblocking_filter_override_enabled_flag p)) (fi "deblocking_filter_override_flag" (deblocking_filter_override_flag h)) +>
    tif (nz (deblocking_filter_override_flag h)) (
      fi "slice_deblocking_filter_disabled_flag" (slice_deblocking_filter_disabled_flag h) +>
      tif (negb (nz (slice_deblocking_filter_disabled_flag h))) (
        fi "slice_beta_offset_div2" (slice_beta_offset_div2 h) +>
        fi "slice_tc_offset_div2" (slice_tc_offset_div2 h))) +>
    tif (nz (pps_loop_filter_across_slices_enabled_flag p) &&
         (nz (slice_sao_luma_flag h) || nz (slice_sao_chroma_flag h) || negb (nz (slice_deblocking_filter_disabled_flag h))))
      (fi "slice_loop_filter_across_slices_enabled_flag" (slice_loop_filter_across_slices_enabled_flag h))) +>
  tif (nz (tiles_enabled_flag p) || nz (entropy_coding_sync_enabled_flag p)) (
    fi "num_entry_point_offsets" (num_entry_point_offsets h) +>
    tif (0 <? num_entry_point_offsets h) (
      fi "offset_len_minus1" (offset_len_minus1 h) +>
      vec "entry_point_offset_minus1" (entry_point_offset_minus1 h))) +>
  tif (nz (slice_segment_header_extension_present_flag p)) (
    fi "slice_segment_header_extension_length" (slice_segment_header_extension_length h) +>
    vec "slice_segment_header_extension_data_byte" (slice_segment_header_extension_data_byte h))).
(** src/h265_slice_parser.cc:63-79 *)
Definition text_slice (s : sps) (p : pps) (nut : Z) (h : slice_header) : txt :=
  struct "slice_segment_layer" (sub (text_slice_header s p nut h)).

(** src/h265_sei_parser.cc:812-838 *)
Definition text_t35 (s : sei_t35) : txt :=
  struct "user_data_registered_itu_t_t35" (
  fi "itu_t_t35_country_code" (itu_t_t35_country_code s) +>
  fi "itu_t_t35_country_code_extension_byte" (itu_t_t35_country_code_extension_byte s) +>
  fu "payload_size" (Z.of_nat (List.length (t35_payload s))) +>
  vecu "payload" (t35_payload s)).
(** src/h265_sei_parser.cc:840-867 *)
Definition text_unregistered (s : sei_unregistered) : txt :=
  let u1 := uuid_iso_iec_11578_1 s in
  let u2 := uuid_iso_iec_11578_2 s in
  struct "user_data_unregistered" (
  line ("uuid_iso_iec_11578: " ++ pr_x 8 (Z.shiftr u1 32) ++ "-" ++ pr_x 4 (Z.land (Z.shiftr u1 16) 65535) ++ "-" ++ pr_x 4 (Z.land u1 65535)
        ++ "-" ++ pr_x 4 (Z.shiftr u2 48) ++ "-" ++ pr_x 12 (Z.land u2 281474976710655)) +>
  fu "payload_size" (Z.of_nat (List.length (ur_payload s))) +>
  vecu "payload" (ur_payload s)).
(** src/h265_sei_parser.cc:869-907 *)
Definition text_alpha (s : sei_alpha) : txt :=
  struct "alpha_channel_info" (
  fi "alpha_channel_cancel_flag" (alpha_channel_cancel_flag s) +>
  tif (negb (nz (alpha_channel_cancel_flag s))) (
    fi "alpha_channel_use_idc" (alpha_channel_use_idc s) +>
    fi "alpha_channel_bit_depth_minus8" (alpha_channel_bit_depth_minus8 s) +>
    fi "alpha_transparent_value" (alpha_transparent_value s) +>
    fi "alpha_opaque_value" (alpha_opaque_value s) +>
    fi "alpha_channel_incr_flag" (alpha_channel_incr_flag s) +>
    fi "alpha_channel_clip_flag" (alpha_channel_clip_flag s) +>
    tif (nz (alpha_channel_clip_flag s)) (fi "alpha_channel_clip_type_flag" (alpha_channel_clip_type_flag s)))).
(** src/h265_sei_parser.cc:909-945.  display_primaries_x and _y are arrays of three. *)
Definition text_mastering (s : sei_mastering) : txt :=
  struct "mastering_display_colour_volume" (
  tupto 3 (fun c => telem (display_primaries s) c (fun e =>
    line ("display_primaries[" ++ dec (Z.of_nat c) ++ "]_x: " ++ pr_u (fst e) ++ " (" ++ pr_f 5 2 (fst e) ++ ")") +>
    line ("display_primaries[" ++ dec (Z.of_nat c) ++ "]_y: " ++ pr_u (snd e) ++ " (" ++ pr_f 5 2 (snd e) ++ ")"))) +>
  line ("white_point_x: " ++ pr_u (white_point_x s) ++ " (" ++ pr_f 5 2 (white_point_x s) ++ ")") +>
  line ("white_point_y: " ++ pr_u (white_point_y s) ++ " (" ++ pr_f 5 2 (white_point_y s) ++ ")") +>
  line ("max_display_mastering_luminance: " ++ pr_u (max_display_mastering_luminance s) ++ " (" ++ pr_f 4 1 (max_display_mastering_luminance s) ++ " cd/m^2)") +>
  line ("min_display_mastering_luminance: " ++ pr_u (min_display_mastering_luminance s) ++ " (" ++ pr_f 4 1 (min_display_mastering_luminance s) ++ " cd/m^2)")).
(** src/h265_sei_parser.cc:947-962 *)
Definition text_light (s : sei_light) : txt :=
  struct "content_light_level_info" (
  line ("max_content_light_level: " ++ pr_u (max_content_light_level s) ++ " cd/m^2") +>
  line ("max_pic_average_light_level: " ++ pr_u (max_pic_average_light_level s) ++ " cd/m^2")).
(** src/h265_sei_parser.cc:964-1015 *)
Definition text_knee (s : sei_knee) : txt :=
  struct "knee_function_info" (
  fu "knee_function_id" (knee_function_id s) +>
  fu "knee_function_cancel_flag" (knee_function_cancel_flag s) +>
  tif (negb (nz (knee_function_cancel_flag s))) (
    fu "knee_function_persistence_flag" (knee_function_persistence_flag s) +>
    fu "input_d_range" (input_d_range s) +>
    fu "input_disp_luminance" (input_disp_luminance s) +>
    fu "output_d_range" (output_d_range s) +>
    fu "output_disp_luminance" (output_disp_luminance s) +>
    fu "num_knee_points_minus1" (num_knee_points_minus1 s) +>
    tif (negb (Nat.eqb (List.length (knee_points s)) 0)) (
      vecc "input_knee_point" (map fst (knee_points s)) +>
      vecc "output_knee_point" (map snd (knee_points s))))).
(** src/h265_sei_parser.cc:1017-1134; the two tables are alike.  pre_lut_num_val_minus1 is an array of three, the vectors of coded and target
    values have three elements as well (lines 512-513). *)
Definition index (n : string) (c : nat) : string := n ++ "[" ++ dec (Z.of_nat c) ++ "]".
Definition text_lut (pre : string) (l : list (Z * list (Z * Z))) : txt :=
  tupto 3 (fun c => telem l c (fun e =>
    fu (index (pre ++ "_lut_num_val_minus1") c) (fst e) +>
    tif (0 <? fst e) (
      vecc (index (pre ++ "_lut_coded_value") c) (map fst (snd e)) +>
      vecc (index (pre ++ "_lut_target_value") c) (map snd (snd e))))).
Definition text_remap (s : sei_remap) : txt :=
  struct "colour_remapping_info" (
  fu "colour_remap_id" (colour_remap_id s) +>
  fu "colour_remap_cancel_flag" (colour_remap_cancel_flag s) +>
  tif (negb (nz (colour_remap_cancel_flag s))) (
    fu "colour_remap_persistence_flag" (colour_remap_persistence_flag s) +>
    fu "colour_remap_video_signal_info_present_flag" (colour_remap_video_signal_info_present_flag s) +>
    tif (nz (colour_remap_video_signal_info_present_flag s)) (
      fu "colour_remap_full_range_flag" (colour_remap_full_range_flag s) +>
      fu "colour_remap_primaries" (colour_remap_primaries s) +>
      fu "colour_remap_transfer_function" (colour_remap_transfer_function s) +>
      fu "colour_remap_matrix_coefficients" (colour_remap_matrix_coefficients s)) +>
    fu "colour_remap_input_bit_depth" (colour_remap_input_bit_depth s) +>
    fu "colour_remap_output_bit_depth" (colour_remap_output_bit_depth s) +>
    text_lut "pre" (pre_lut s) +>
    fu "colour_remap_matrix_present_flag" (colour_remap_matrix_present_flag s) +>
    tif (nz (colour_remap_matrix_present_flag s)) (
      fu "log2_matrix_denom" (log2_matrix_denom s) +>
      tif (negb (Nat.eqb (List.length (colour_remap_coeffs s)) 0)) (
        tupto 3 (fun c => tif (Nat.ltb c (List.length (colour_remap_coeffs s))) (
          telem (colour_remap_coeffs s) c (fun l => vecci (index "colour_remap_coeffs" c) l))))) +>
    text_lut "post" (post_lut s))).
(** src/h265_sei_parser.cc:1136-1196 *)
Definition text_ccv (s : sei_ccv) : txt :=
  struct "content_colour_volume" (
  fu "ccv_cancel_flag" (ccv_cancel_flag s) +>
  tif (negb (nz (ccv_cancel_flag s))) (
    fu "ccv_persistence_flag" (ccv_persistence_flag s) +>
    fu "ccv_primaries_present_flag" (ccv_primaries_present_flag s) +>
    fu "ccv_min_luminance_value_present_flag" (ccv_min_luminance_value_present_flag s) +>
    fu "ccv_max_luminance_value_present_flag" (ccv_max_luminance_value_present_flag s) +>
    fu "ccv_avg_luminance_value_present_flag" (ccv_avg_luminance_value_present_flag s) +>
    fu "ccv_reserved_zero_2bits" (ccv_reserved_zero_2bits s) +>
    tif (nz (ccv_primaries_present_flag s)) (
      tupto 3 (fun c => telem (ccv_primaries s) c (fun e =>
        fi (index "ccv_primaries_x" c) (fst e) +> fi (index "ccv_primaries_y" c) (snd e)))) +>
    tif (nz (ccv_min_luminance_value_present_flag s)) (fu "ccv_min_luminance_value" (ccv_min_luminance_value s)) +>
    tif (nz (ccv_max_luminance_value_present_flag s)) (fu "ccv_max_luminance_value" (ccv_max_luminance_value s)) +>
    tif (nz (ccv_avg_luminance_value_present_flag s)) (fu "ccv_avg_luminance_value" (ccv_avg_luminance_value s)))).
(** src/h265_sei_parser.cc:1198-1251 *)
Definition text_alt (v : Z) : txt := struct "alternative_transfer_characteristics" (fu "preferred_transfer_characteristics" v).
Definition text_ambient (s : sei_ambient) : txt :=
  struct "ambient_viewing_environment" (
  fu "ambient_illuminance" (ambient_illuminance s) +> fu "ambient_light_x" (ambient_light_x s) +> fu "ambient_light_y" (ambient_light_y s)).
Definition text_unknown (l : list Z) : txt :=
  struct "unimplemented" (line ("payload_size: " ++ pr_u (Z.of_nat (List.length l)) ++ " ") +> vecu "payload" l).
(** a virtual call *)
Definition text_sei_payload (p : sei_payload) : txt :=
  match p with
  | P_t35 s => text_t35 s
  | P_unregistered s => text_unregistered s
  | P_alpha s => text_alpha s
  | P_mastering s => text_mastering s
  | P_light s => text_light s
  | P_knee s => text_knee s
  | P_remap s => text_remap s
  | P_ccv s => text_ccv s
  | P_alt v => text_alt v
  | P_ambient s => text_ambient s
  | P_unknown l => text_unknown l
  end.
(** src/h265_sei_parser.cc:791-810 *)
Definition text_sei (s : sei_message) : txt :=
  struct "sei message" (
  fi "payload_type" (payload_type s) +>
  fu "payload_size" (MSei.payload_size s) +>
  tchecked (sei_payload_state s) (fun p => sub (text_sei_payload p))).

(** src/h265_aud_parser.cc:47-57 *)
Definition text_aud (v : Z) : txt := struct "aud" (fi "pic_type" v).
(** src/h265_nal_unit_header_parser.cc:74-94 *)
Definition text_header (s : nal_header) : txt :=
  struct "nal_unit_header" (
  fi "forbidden_zero_bit" (forbidden_zero_bit s) +>
  fi "nal_unit_type" (nal_unit_type s) +>
  fi "nuh_layer_id" (nuh_layer_id s) +>
  fi "nuh_temporal_id_plus1" (nuh_temporal_id_plus1 s)).
(** src/h265_nal_unit_payload_parser.cc:165-272; the cases that only break are merged with the default.  [sp]: the SPS and PPS that a slice
    header was parsed with. *)
Definition text_payload (sp : sps * pps) (o : options) (ty : Z) (p : nal_payload) : txt :=
  struct "nal_unit_payload" (
  Done [Ind] +>
  (if case_of [TRAIL_N; TRAIL_R; TSA_N; TSA_R; STSA_N; STSA_R; RADL_N; RADL_R; RASL_N; RASL_R] ty
      || case_of [BLA_W_LP; BLA_W_RADL; BLA_N_LP; IDR_W_RADL; IDR_N_LP; CRA_NUT] ty
   then tchecked (np_slice p) (fun h => call (text_slice (fst sp) (snd sp) ty h))
   else if ty =? VPS_NUT then tchecked (np_vps p) (fun v => call (text_vps (fst v) (snd v)))
   else if ty =? SPS_NUT then tchecked (np_sps p) (fun v => call (text_sps (add_resolution o) (fst v)))
   else if ty =? PPS_NUT then tchecked (np_pps p) (fun v => call (text_pps (fst v)))
   else if ty =? AUD_NUT then call (tderef (np_aud p) text_aud)
   else if case_of [PREFIX_SEI_NUT; SUFFIX_SEI_NUT] ty then tchecked (np_sei p) (fun s => call (text_sei s))
   else tnop)).
(** "%s" of a char array: up to its first NUL; the array is out of bounds if there is none *)
Fixpoint c_string (buf : list Z) : outcome string :=
  match buf with
  | [] => Bad OutOfBounds
  | x :: r => if x =? 0 then Done "" else match c_string r with Done s => Done (String (ascii_of_nat (Z.to_nat x)) s) | Bad e => Bad e end
  end.
(** src/h265_nal_unit_parser.cc:109-115: a 64-byte buffer of zeros *)
Definition text_checksum (c : Z) : txt :=
  match checksum_fdump (checksum_bytes c) (repeat 0 64) 64 with
  | Bad e => Bad e
  | Done buf => match c_string buf with Bad e => Bad e | Done s => line ("checksum: 0x" ++ s) end
  end.
(** src/h265_nal_unit_parser.cc:87-130 *)
Definition text_nal (sp : sps * pps) (o : options) (u : nal_unit) : txt :=
  struct "nal_unit" (
  tif (add_offset o) (line ("offset: 0x" ++ pr_x 8 (nu_offset u))) +>
  tif (add_length o) (fu "length" (nu_length u)) +>
  tif (add_parsed_length o) (fu "parsed_length" (nu_parsed_length u)) +>
  tif (add_checksum o) (tderef (nu_checksum u) text_checksum) +>
  sub (text_header (nu_header u)) +>
  sub (text_payload sp o (nal_unit_type (nu_header u)) (nu_payload u))).
(** src/h265_bitstream_parser.cc:274-280: with the options of the bitstream; each unit with its SPS and PPS *)
Definition text_bitstream (o : options) (l : list ((sps * pps) * nal_unit)) : txt :=
  teach l (fun e => call (text_nal (fst e) o (snd e)) +> Done [Put (String newline "")]).

(** src/h265_rtp_single_parser.cc:61-78 *)
Definition text_rtp_single (sp : sps * pps) (o : options) (r : rtp_single) : txt :=
  struct "rtp_single" (
  sub (text_header (rs_header r)) +>
  sub (text_payload sp o (nal_unit_type (rs_header r)) (rs_payload r))).
(** src/h265_rtp_ap_parser.cc:83-107; each unit with its SPS and PPS *)
Definition text_rtp_ap (sp : nat -> sps * pps) (o : options) (r : rtp_ap) : txt :=
  struct "rtp_ap" (
  sub (text_header (ra_header r)) +>
  tupto (List.length (ra_units r)) (fun i => telem (ra_units r) i (fun u =>
    fu "nal_unit_size" (au_size u) +>
    sub (text_header (au_header u)) +>
    sub (text_payload (sp i) o (nal_unit_type (au_header u)) (au_payload u))))).
(** src/h265_rtp_fu_parser.cc:71-97 *)
Definition text_rtp_fu (sp : sps * pps) (o : options) (r : rtp_fu) : txt :=
  struct "rtp_fu" (
  sub (text_header (rf_header r)) +>
  fi "s_bit" (s_bit r) +>
  fi "e_bit" (e_bit r) +>
  fi "fu_type" (fu_type r) +>
  tif (s_bit r =? 1) (sub (tderef (rf_payload r) (text_payload sp o (fu_type r))))).
(** src/h265_rtp_parser.cc:77-99: no fdump_indent_level before the packet *)
Definition text_rtp (sp : nat -> sps * pps) (o : options) (r : rtp) : txt :=
  let ty := nal_unit_type (rtp_header r) in
  struct "rtp" (
  sub (text_header (rtp_header r)) +>
  (if ty <=? 47 then call (tderef (r_single r) (text_rtp_single (sp O) o))
   else if ty =? AP then call (tderef (r_ap r) (text_rtp_ap sp o))
   else if ty =? FU then call (tderef (r_fu r) (text_rtp_fu (sp O) o))
   else tnop)).
(** src/h265_configuration_box_parser.cc:265-370.  numNalus[j] is the length of [nalus]; the checked constants configurationVersion (1),
    reserved1..6 are printed as such. *)
Definition index2 (n : string) (j i : nat) : string := index n j ++ "[" ++ dec (Z.of_nat i) ++ "]".
Definition text_box (sp : nat -> nat -> sps * pps) (o : options) (v : hvcc) : txt :=
  let h := hv_header v in
  struct "configuration_box" (
  fi "configurationVersion" 1 +>
  fi "general_profile_space" (general_profile_space h) +>
  fi "general_tier_flag" (general_tier_flag h) +>
  fi "general_profile_idc" (general_profile_idc h) +>
  vec "general_profile_compatibility_flags" (general_profile_compatibility_flags h) +>
  fu "general_constraint_indicator_flags" (general_constraint_indicator_flags h) +>
  fi "general_level_idc" (general_level_idc h) +>
  fi "reserved1" 15 +>
  fi "min_spatial_segmentation_idc" (MRtp.min_spatial_segmentation_idc h) +>
  fi "reserved2" 63 +>
  fi "parallelismType" (parallelismType h) +>
  fi "reserved3" 63 +>
  fi "chroma_format_idc" (hvcc_chroma_format_idc h) +>
  fi "reserved4" 31 +>
  fi "bit_depth_luma_minus8" (hvcc_bit_depth_luma_minus8 h) +>
  fi "reserved5" 31 +>
  fi "bit_depth_chroma_minus8" (hvcc_bit_depth_chroma_minus8 h) +>
  fi "avgFrameRate" (avgFrameRate h) +>
  fi "constantFrameRate" (constantFrameRate h) +>
  fi "numTemporalLayers" (numTemporalLayers h) +>
  fi "temporalIdNested" (temporalIdNested h) +>
  fi "lengthSizeMinusOne" (lengthSizeMinusOne h) +>
  fi "numOfArrays" (numOfArrays h) +>
  tupto (Z.to_nat (numOfArrays h)) (fun j => telem (hv_arrays v) j (fun a =>
    fi (index "array_completeness" j) (array_completeness a) +>
    fi (index "reserved6" j) 0 +>
    fi (index "NAL_unit_type" j) (NAL_unit_type a) +>
    fi (index "numNalus" j) (Z.of_nat (List.length (nalus a))) +>
    tupto (List.length (nalus a)) (fun i => telem (nalus a) i (fun e =>
      fi (index2 "nalUnitLength" j i) (fst e) +>
      sub (tderef (snd e) (text_nal (sp j i) o))))))).
