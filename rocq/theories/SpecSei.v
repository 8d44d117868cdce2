(** Layout of sei_message() (7.3.5) and of the payloads (Annex D.2, F.14.2.8). *)
From Coq Require Import ZArith List Bool.
From Verif Require Import MBase Spec Rules ReaderFacts Syntax SyntaxSe MSyntaxA SpecA MSei.
Import ListNotations.
Open Scope Z_scope.

(** payloadType and payloadSize: bytes 255 and a last byte below 255, to be added up. *)
Definition ff_bytes (n : Z) : list Z := repeat 255 (Z.to_nat (n / 255)) ++ [n mod 255].
Definition enc_ff (n : Z) : list bool := flat_map (enc_u 8) (ff_bytes n).
Definition ff_ok (n : Z) : Prop := 0 <= n < 2 ^ 32.

Definition enc_t35 (s : sei_t35) : list bool :=
  concat [enc_u 8 (itu_t_t35_country_code s); opt (itu_t_t35_country_code s =? 255) (enc_u 8 (itu_t_t35_country_code_extension_byte s));
          flat_map (enc_u 8) (t35_payload s)].
(** payload_size = country code + extension byte if any + payload bytes *)
Definition t35_ok (size : Z) (s : sei_t35) : Prop :=
  u_ok 8 (itu_t_t35_country_code s) /\
  optf (itu_t_t35_country_code s =? 255) (u_ok 8) 0 (itu_t_t35_country_code_extension_byte s) /\
  Forall (u_ok 8) (t35_payload s) /\
  size = 1 + (if itu_t_t35_country_code s =? 255 then 1 else 0) + Z.of_nat (length (t35_payload s)).
(** uuid_iso_iec_11578 u(128), stored as two halves *)
Definition enc_unregistered (s : sei_unregistered) : list bool :=
  concat [enc_u 64 (uuid_iso_iec_11578_1 s); enc_u 64 (uuid_iso_iec_11578_2 s); flat_map (enc_u 8) (ur_payload s)].
Definition unregistered_ok (size : Z) (s : sei_unregistered) : Prop :=
  u_ok 64 (uuid_iso_iec_11578_1 s) /\ u_ok 64 (uuid_iso_iec_11578_2 s) /\ Forall (u_ok 8) (ur_payload s) /\
  size = 16 + Z.of_nat (length (ur_payload s)).
Definition enc_alpha (s : sei_alpha) : list bool :=
  let p := negb (nz (alpha_channel_cancel_flag s)) in
  let n := Z.to_nat (alpha_channel_bit_depth_minus8 s + 9) in
  concat [enc_u 1 (alpha_channel_cancel_flag s); opt p (enc_u 3 (alpha_channel_use_idc s)); opt p (enc_u 3 (alpha_channel_bit_depth_minus8 s));
          opt p (enc_u n (alpha_transparent_value s)); opt p (enc_u n (alpha_opaque_value s)); opt p (enc_u 1 (alpha_channel_incr_flag s));
          opt p (enc_u 1 (alpha_channel_clip_flag s)); opt (p && nz (alpha_channel_clip_flag s)) (enc_u 1 (alpha_channel_clip_type_flag s))].
Definition alpha_ok (s : sei_alpha) : Prop :=
  let p := negb (nz (alpha_channel_cancel_flag s)) in
  let n := alpha_channel_bit_depth_minus8 s + 9 in
  u_ok 1 (alpha_channel_cancel_flag s) /\ optf p (u_ok 3) 0 (alpha_channel_use_idc s) /\ optf p (u_ok 3) 0 (alpha_channel_bit_depth_minus8 s) /\
  optf p (u_ok n) 0 (alpha_transparent_value s) /\ optf p (u_ok n) 0 (alpha_opaque_value s) /\ optf p (u_ok 1) 0 (alpha_channel_incr_flag s) /\
  optf p (u_ok 1) 0 (alpha_channel_clip_flag s) /\ optf (p && nz (alpha_channel_clip_flag s)) (u_ok 1) 0 (alpha_channel_clip_type_flag s).
Definition enc_pair (n m : Z) (p : Z * Z) : list bool := concat [enc_u (Z.to_nat n) (fst p); enc_u (Z.to_nat m) (snd p)].
Definition pair_ok (n m : Z) (p : Z * Z) : Prop := u_ok n (fst p) /\ u_ok m (snd p).
Definition enc_mastering (s : sei_mastering) : list bool :=
  concat [flat_map (enc_pair 16 16) (display_primaries s); enc_u 16 (white_point_x s); enc_u 16 (white_point_y s);
          enc_u 32 (max_display_mastering_luminance s); enc_u 32 (min_display_mastering_luminance s)].
Definition mastering_ok (s : sei_mastering) : Prop :=
  vec 3 (pair_ok 16 16) (display_primaries s) /\ u_ok 16 (white_point_x s) /\ u_ok 16 (white_point_y s) /\
  u_ok 32 (max_display_mastering_luminance s) /\ u_ok 32 (min_display_mastering_luminance s).
Definition enc_light (s : sei_light) : list bool := concat [enc_u 16 (max_content_light_level s); enc_u 16 (max_pic_average_light_level s)].
Definition light_ok (s : sei_light) : Prop := u_ok 16 (max_content_light_level s) /\ u_ok 16 (max_pic_average_light_level s).
Definition enc_knee (s : sei_knee) : list bool :=
  let p := negb (nz (knee_function_cancel_flag s)) in
  concat [enc_ue (knee_function_id s); enc_u 1 (knee_function_cancel_flag s); opt p (enc_u 1 (knee_function_persistence_flag s));
          opt p (enc_u 32 (input_d_range s)); opt p (enc_u 32 (input_disp_luminance s)); opt p (enc_u 32 (output_d_range s));
          opt p (enc_u 32 (output_disp_luminance s)); opt p (enc_ue (num_knee_points_minus1 s)); opt p (flat_map (enc_pair 10 10) (knee_points s))].
Definition knee_ok (s : sei_knee) : Prop :=
  let p := negb (nz (knee_function_cancel_flag s)) in
  ue_ok (knee_function_id s) /\ u_ok 1 (knee_function_cancel_flag s) /\ optf p (u_ok 1) 0 (knee_function_persistence_flag s) /\
  optf p (u_ok 32) 0 (input_d_range s) /\ optf p (u_ok 32) 0 (input_disp_luminance s) /\ optf p (u_ok 32) 0 (output_d_range s) /\
  optf p (u_ok 32) 0 (output_disp_luminance s) /\ optf p ue_ok 0 (num_knee_points_minus1 s) /\
  optf p (vec (num_knee_points_minus1 s + 1) (pair_ok 10 10)) [] (knee_points s).
(** Bits of a LUT value of depth [bd]: a multiple of 8. *)
Definition lut_bits (bd : Z) : Z := 8 * ((bd + 7) / 8).
(** A LUT with coded values of [n] and target values of [m] bits.  The parser only reads values of up to 32 bits. *)
Definition enc_lut (n m : Z) (l : Z * list (Z * Z)) : list bool :=
  concat [enc_u 8 (fst l); opt (0 <? fst l) (flat_map (enc_pair n m) (snd l))].
Definition lut_pair_ok (n m : Z) (p : Z * Z) : Prop := n <= 32 /\ m <= 32 /\ pair_ok n m p.
Definition lut_ok (n m : Z) (l : Z * list (Z * Z)) : Prop :=
  u_ok 8 (fst l) /\ optf (0 <? fst l) (vec (fst l + 1) (lut_pair_ok n m)) [] (snd l).
(** The code reads the target values of the first LUTs with the input bit depth, the standard has the output bit depth. *)
Definition pre_target_bits (std : bool) (s : sei_remap) : Z :=
  lut_bits (if std then colour_remap_output_bit_depth s else colour_remap_input_bit_depth s).
Definition enc_remap (std : bool) (s : sei_remap) : list bool :=
  let p := negb (nz (colour_remap_cancel_flag s)) in
  let v := p && nz (colour_remap_video_signal_info_present_flag s) in
  let m := p && nz (colour_remap_matrix_present_flag s) in
  concat [enc_ue (colour_remap_id s); enc_u 1 (colour_remap_cancel_flag s); opt p (enc_u 1 (colour_remap_persistence_flag s));
          opt p (enc_u 1 (colour_remap_video_signal_info_present_flag s)); opt v (enc_u 1 (colour_remap_full_range_flag s));
          opt v (enc_u 8 (colour_remap_primaries s)); opt v (enc_u 8 (colour_remap_transfer_function s));
          opt v (enc_u 8 (colour_remap_matrix_coefficients s)); opt p (enc_u 8 (colour_remap_input_bit_depth s));
          opt p (enc_u 8 (colour_remap_output_bit_depth s));
          opt p (flat_map (enc_lut (lut_bits (colour_remap_input_bit_depth s)) (pre_target_bits std s)) (pre_lut s));
          opt p (enc_u 1 (colour_remap_matrix_present_flag s)); opt m (enc_u 4 (log2_matrix_denom s));
          opt m (flat_map (flat_map enc_se) (colour_remap_coeffs s));
          opt p (flat_map (enc_lut (lut_bits (colour_remap_output_bit_depth s)) (lut_bits (colour_remap_output_bit_depth s))) (post_lut s))].
Definition remap_ok (std : bool) (s : sei_remap) : Prop :=
  let p := negb (nz (colour_remap_cancel_flag s)) in
  let v := p && nz (colour_remap_video_signal_info_present_flag s) in
  let m := p && nz (colour_remap_matrix_present_flag s) in
  ue_ok (colour_remap_id s) /\ u_ok 1 (colour_remap_cancel_flag s) /\ optf p (u_ok 1) 0 (colour_remap_persistence_flag s) /\
  optf p (u_ok 1) 0 (colour_remap_video_signal_info_present_flag s) /\ optf v (u_ok 1) 0 (colour_remap_full_range_flag s) /\
  optf v (u_ok 8) 0 (colour_remap_primaries s) /\ optf v (u_ok 8) 0 (colour_remap_transfer_function s) /\
  optf v (u_ok 8) 0 (colour_remap_matrix_coefficients s) /\
  optf p (u_ok 8) 0 (colour_remap_input_bit_depth s) /\ optf p (u_ok 8) 0 (colour_remap_output_bit_depth s) /\
  (p = true -> colour_remap_input_bit_depth s <> 0 /\ colour_remap_output_bit_depth s <> 0) /\
  optf p (vec 3 (lut_ok (lut_bits (colour_remap_input_bit_depth s)) (pre_target_bits std s))) [] (pre_lut s) /\
  optf p (u_ok 1) 0 (colour_remap_matrix_present_flag s) /\ optf m (u_ok 4) 0 (log2_matrix_denom s) /\
  optf m (vec 3 (vec 3 se_ok)) [] (colour_remap_coeffs s) /\
  optf p (vec 3 (lut_ok (lut_bits (colour_remap_output_bit_depth s)) (lut_bits (colour_remap_output_bit_depth s)))) [] (post_lut s).
(** i(32): two's complement *)
Definition i32_ok (v : Z) : Prop := - 2 ^ 31 <= v < 2 ^ 31.
Definition enc_i32_pair (p : Z * Z) : list bool := concat [enc_u 32 (fst p); enc_u 32 (snd p)].
Definition i32_pair_ok (p : Z * Z) : Prop := i32_ok (fst p) /\ i32_ok (snd p).
Definition enc_ccv (s : sei_ccv) : list bool :=
  let p := negb (nz (ccv_cancel_flag s)) in
  concat [enc_u 1 (ccv_cancel_flag s); opt p (enc_u 1 (ccv_persistence_flag s)); opt p (enc_u 1 (ccv_primaries_present_flag s));
          opt p (enc_u 1 (ccv_min_luminance_value_present_flag s)); opt p (enc_u 1 (ccv_max_luminance_value_present_flag s));
          opt p (enc_u 1 (ccv_avg_luminance_value_present_flag s)); opt p (enc_u 2 (ccv_reserved_zero_2bits s));
          opt (p && nz (ccv_primaries_present_flag s)) (flat_map enc_i32_pair (ccv_primaries s));
          opt (p && nz (ccv_min_luminance_value_present_flag s)) (enc_u 32 (ccv_min_luminance_value s));
          opt (p && nz (ccv_max_luminance_value_present_flag s)) (enc_u 32 (ccv_max_luminance_value s));
          opt (p && nz (ccv_avg_luminance_value_present_flag s)) (enc_u 32 (ccv_avg_luminance_value s))].
Definition ccv_ok (s : sei_ccv) : Prop :=
  let p := negb (nz (ccv_cancel_flag s)) in
  u_ok 1 (ccv_cancel_flag s) /\ optf p (u_ok 1) 0 (ccv_persistence_flag s) /\ optf p (u_ok 1) 0 (ccv_primaries_present_flag s) /\
  optf p (u_ok 1) 0 (ccv_min_luminance_value_present_flag s) /\ optf p (u_ok 1) 0 (ccv_max_luminance_value_present_flag s) /\
  optf p (u_ok 1) 0 (ccv_avg_luminance_value_present_flag s) /\ optf p (u_ok 2) 0 (ccv_reserved_zero_2bits s) /\
  optf (p && nz (ccv_primaries_present_flag s)) (vec 3 i32_pair_ok) [] (ccv_primaries s) /\
  optf (p && nz (ccv_min_luminance_value_present_flag s)) (u_ok 32) 0 (ccv_min_luminance_value s) /\
  optf (p && nz (ccv_max_luminance_value_present_flag s)) (u_ok 32) 0 (ccv_max_luminance_value s) /\
  optf (p && nz (ccv_avg_luminance_value_present_flag s)) (u_ok 32) 0 (ccv_avg_luminance_value s).
Definition enc_ambient (s : sei_ambient) : list bool :=
  concat [enc_u 32 (ambient_illuminance s); enc_u 16 (ambient_light_x s); enc_u 16 (ambient_light_y s)].
Definition ambient_ok (s : sei_ambient) : Prop := u_ok 32 (ambient_illuminance s) /\ u_ok 16 (ambient_light_x s) /\ u_ok 16 (ambient_light_y s).

(** sei_payload( payloadType, payloadSize ): the types with a parser of their own, the others are kept as bytes. *)
Definition known_types : list Z := [4; 5; 137; 141; 142; 144; 147; 148; 149; 165].
Definition enc_payload (std : bool) (p : sei_payload) : list bool :=
  match p with
  | P_t35 s => enc_t35 s | P_unregistered s => enc_unregistered s | P_alpha s => enc_alpha s | P_mastering s => enc_mastering s
  | P_light s => enc_light s | P_knee s => enc_knee s | P_remap s => enc_remap std s | P_ccv s => enc_ccv s | P_alt v => enc_u 8 v
  | P_ambient s => enc_ambient s | P_unknown l => flat_map (enc_u 8) l
  end.
Definition payload_ok (std : bool) (ty size : Z) (p : sei_payload) : Prop :=
  match p with
  | P_t35 s => ty = 4 /\ t35_ok size s
  | P_unregistered s => ty = 5 /\ unregistered_ok size s
  | P_mastering s => ty = 137 /\ mastering_ok s
  | P_knee s => ty = 141 /\ knee_ok s
  | P_remap s => ty = 142 /\ remap_ok std s
  | P_light s => ty = 144 /\ light_ok s
  | P_alt v => ty = 147 /\ u_ok 8 v
  | P_ambient s => ty = 148 /\ ambient_ok s
  | P_ccv s => ty = 149 /\ ccv_ok s
  | P_alpha s => ty = 165 /\ alpha_ok s
  | P_unknown l => ~ In ty known_types /\ Forall (u_ok 8) l /\ size = Z.of_nat (length l) /\ size <> 0
  end.
