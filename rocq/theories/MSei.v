(** Model of the SEI message parser (src/h265_sei_parser.cc).  Conventions as in MSyntaxA.v. *)
From Coq Require Import ZArith List Bool.
From Verif Require Import MBase MBitBuffer Spec Syntax MCommon MSyntaxA MSyntaxB.
Import ListNotations.
Open Scope Z_scope.
Open Scope monad_scope.

Definition fmap {A B} (f : A -> B) (m : M A) : M B := x <- m ;; ret (f x).

(** src/h265_sei_parser.cc:43-52 and 56-65: the while loop over ff_byte; each iteration consumes a byte, so it runs at most once per byte
    of the buffer (plus the failing one). *)
Fixpoint ff_loop (fuel : nat) (acc : Z) : M Z :=
  match fuel with
  | O => throw OutOfFuel
  | S f =>
    v <- ReadBits 8 ;;
    guard (negb (u32_max - v <? acc)) ;;;
    (if v =? 255 then ff_loop f (acc + v) else ret (acc + v))
  end.
Definition read_ff : M Z := fun b => ff_loop (S (length (bb_bytes b))) 0 b.

(** src/h265_sei_parser.cc:117-157; include/h265_sei_parser.h:134-136 *)
Record sei_t35 : Type := mkT35 { itu_t_t35_country_code : Z; itu_t_t35_country_code_extension_byte : Z; t35_payload : list Z }.
Definition parse_t35 (size : Z) : M sei_t35 :=
  guard (negb (size =? 0)) ;;;
  c <- ReadUInt8 ;;
  guard (negb (c =? 255) || negb (size - 1 =? 0)) ;;;
  x <- when (c =? 255) ReadUInt8 0 ;;
  p <- collect (if c =? 255 then size - 1 - 1 else size - 1) (fun _ => ReadUInt8) ;;
  ret (mkT35 c x p).
(** src/h265_sei_parser.cc:159-204; include/h265_sei_parser.h:161-163 *)
Record sei_unregistered : Type := mkUR { uuid_iso_iec_11578_1 : Z; uuid_iso_iec_11578_2 : Z; ur_payload : list Z }.
Definition parse_unregistered (size : Z) : M sei_unregistered :=
  guard (negb (size <? 16)) ;;;
  u1 <- ReadHiLo 32 ;;
  u2 <- ReadHiLo 32 ;;
  p <- collect (size - 16) (fun _ => ReadUInt8) ;;
  ret (mkUR u1 u2 p).
(** src/h265_sei_parser.cc:206-270; include/h265_sei_parser.h:186-193 *)
Record sei_alpha : Type := mkAlpha {
  alpha_channel_cancel_flag : Z; alpha_channel_use_idc : Z; alpha_channel_bit_depth_minus8 : Z; alpha_transparent_value : Z;
  alpha_opaque_value : Z; alpha_channel_incr_flag : Z; alpha_channel_clip_flag : Z; alpha_channel_clip_type_flag : Z }.
Definition parse_alpha : M sei_alpha :=
  c <- ReadBits 1 ;;
  use <- when (negb (nz c)) (ReadBits 3) 0 ;;
  d <- when (negb (nz c)) (ReadBits 3) 0 ;;
  t <- when (negb (nz c)) (ReadBits (d + 9)) 0 ;;
  o <- when (negb (nz c)) (ReadBits (d + 9)) 0 ;;
  i <- when (negb (nz c)) (ReadBits 1) 0 ;;
  cl <- when (negb (nz c)) (ReadBits 1) 0 ;;
  ct <- when (negb (nz c) && nz cl) (ReadBits 1) 0 ;;
  ret (mkAlpha c use d t o i cl ct).
(** Two values read together: display_primaries_x/y (283-295), input/output_knee_point (407-421). *)
Definition read_pair (n : Z) : M (Z * Z) :=
  x <- ReadBits n ;;
  y <- ReadBits n ;;
  ret (x, y).
(** src/h265_sei_parser.cc:272-323; include/h265_sei_parser.h:219-226 *)
Record sei_mastering : Type := mkMD {
  display_primaries : list (Z * Z); white_point_x : Z; white_point_y : Z; max_display_mastering_luminance : Z;
  min_display_mastering_luminance : Z }.
Definition parse_mastering : M sei_mastering :=
  p <- collect 3 (fun _ => read_pair 16) ;;
  x <- ReadBits 16 ;;
  y <- ReadBits 16 ;;
  mx <- ReadBits 32 ;;
  mn <- ReadBits 32 ;;
  ret (mkMD p x y mx mn).
(** src/h265_sei_parser.cc:325-350 *)
Record sei_light : Type := mkCL { max_content_light_level : Z; max_pic_average_light_level : Z }.
Definition parse_light : M sei_light :=
  a <- ReadBits 16 ;;
  b <- ReadBits 16 ;;
  ret (mkCL a b).
(** src/h265_sei_parser.cc:352-425; include/h265_sei_parser.h:277-286 *)
Record sei_knee : Type := mkKnee {
  knee_function_id : Z; knee_function_cancel_flag : Z; knee_function_persistence_flag : Z; input_d_range : Z; input_disp_luminance : Z;
  output_d_range : Z; output_disp_luminance : Z; num_knee_points_minus1 : Z; knee_points : list (Z * Z) }.
Definition parse_knee : M sei_knee :=
  id <- ReadExponentialGolomb ;;
  c <- ReadBits 1 ;;
  per <- when (negb (nz c)) (ReadBits 1) 0 ;;
  i1 <- when (negb (nz c)) (ReadBits 32) 0 ;;
  i2 <- when (negb (nz c)) (ReadBits 32) 0 ;;
  o1 <- when (negb (nz c)) (ReadBits 32) 0 ;;
  o2 <- when (negb (nz c)) (ReadBits 32) 0 ;;
  n <- when (negb (nz c)) ReadExponentialGolomb 0 ;;
  p <- when (negb (nz c)) (collect (n + 1) (fun _ => read_pair 10)) [] ;;
  ret (mkKnee id c per i1 i2 o1 o2 n p).
(** src/h265_sei_parser.cc:427-620; include/h265_sei_parser.h:310-328.  One LUT: pre/post_lut_num_val_minus1[c] and the pairs
    of pre/post_lut_coded_value[c][i] and pre/post_lut_target_value[c][i].  If cancelled the arrays of num_val_minus1 are 0 and the vectors empty; here
    there are no LUTs then. *)
Definition depth_used (bd : Z) : Z := Z.shiftl (Z.shiftr (bd + 7) 3) 3.
Definition read_lut (d : Z) : M (Z * list (Z * Z)) :=
  n <- ReadBits 8 ;;
  l <- when (0 <? n) (collect (n + 1) (fun _ => read_pair d)) [] ;;
  ret (n, l).
Record sei_remap : Type := mkRemap {
  colour_remap_id : Z; colour_remap_cancel_flag : Z; colour_remap_persistence_flag : Z; colour_remap_video_signal_info_present_flag : Z;
  colour_remap_full_range_flag : Z; colour_remap_primaries : Z; colour_remap_transfer_function : Z; colour_remap_matrix_coefficients : Z;
  colour_remap_input_bit_depth : Z; colour_remap_output_bit_depth : Z; pre_lut : list (Z * list (Z * Z));
  colour_remap_matrix_present_flag : Z; log2_matrix_denom : Z; colour_remap_coeffs : list (list Z); post_lut : list (Z * list (Z * Z)) }.
Definition parse_remap : M sei_remap :=
  id <- ReadExponentialGolomb ;;
  c <- ReadBits 1 ;;
  per <- when (negb (nz c)) (ReadBits 1) 0 ;;
  vs <- when (negb (nz c)) (ReadBits 1) 0 ;;
  fr <- when (negb (nz c) && nz vs) (ReadBits 1) 0 ;;
  pr <- when (negb (nz c) && nz vs) (ReadBits 8) 0 ;;
  tf <- when (negb (nz c) && nz vs) (ReadBits 8) 0 ;;
  mc <- when (negb (nz c) && nz vs) (ReadBits 8) 0 ;;
  ib <- when (negb (nz c)) (ReadBits 8) 0 ;;
  ob <- when (negb (nz c)) (ReadBits 8) 0 ;;
  guard (nz c || negb ((ib =? 0) || (ob =? 0))) ;;;
  pre <- when (negb (nz c)) (collect 3 (fun _ => read_lut (depth_used ib))) [] ;;
  mf <- when (negb (nz c)) (ReadBits 1) 0 ;;
  ld <- when (negb (nz c) && nz mf) (ReadBits 4) 0 ;;
  co <- when (negb (nz c) && nz mf) (collect 3 (fun _ => collect 3 (fun _ => ReadSignedExponentialGolomb))) [] ;;
  post <- when (negb (nz c)) (collect 3 (fun _ => read_lut (depth_used ob))) [] ;;
  ret (mkRemap id c per vs fr pr tf mc ib ob pre mf ld co post).
(** src/h265_sei_parser.cc:622-711; include/h265_sei_parser.h:352-363 (ccv_primaries_x/y as pairs, empty if absent; i(32) values) *)
Definition ReadI32 : M Z := v <- ReadBits 32 ;; ret (to_i32 v).
Definition read_i32_pair : M (Z * Z) :=
  x <- ReadI32 ;;
  y <- ReadI32 ;;
  ret (x, y).
Record sei_ccv : Type := mkCCV {
  ccv_cancel_flag : Z; ccv_persistence_flag : Z; ccv_primaries_present_flag : Z; ccv_min_luminance_value_present_flag : Z;
  ccv_max_luminance_value_present_flag : Z; ccv_avg_luminance_value_present_flag : Z; ccv_reserved_zero_2bits : Z;
  ccv_primaries : list (Z * Z); ccv_min_luminance_value : Z; ccv_max_luminance_value : Z; ccv_avg_luminance_value : Z }.
Definition parse_ccv : M sei_ccv :=
  c <- ReadBits 1 ;;
  per <- when (negb (nz c)) (ReadBits 1) 0 ;;
  fp <- when (negb (nz c)) (ReadBits 1) 0 ;;
  fmin <- when (negb (nz c)) (ReadBits 1) 0 ;;
  fmax <- when (negb (nz c)) (ReadBits 1) 0 ;;
  favg <- when (negb (nz c)) (ReadBits 1) 0 ;;
  rsv <- when (negb (nz c)) (ReadBits 2) 0 ;;
  p <- when (negb (nz c) && nz fp) (collect 3 (fun _ => read_i32_pair)) [] ;;
  vmin <- when (negb (nz c) && nz fmin) (ReadBits 32) 0 ;;
  vmax <- when (negb (nz c) && nz fmax) (ReadBits 32) 0 ;;
  vavg <- when (negb (nz c) && nz favg) (ReadBits 32) 0 ;;
  ret (mkCCV c per fp fmin fmax favg rsv p vmin vmax vavg).
(** src/h265_sei_parser.cc:735-768; include/h265_sei_parser.h:416-422 *)
Record sei_ambient : Type := mkAmb { ambient_illuminance : Z; ambient_light_x : Z; ambient_light_y : Z }.
Definition parse_ambient : M sei_ambient :=
  i <- ReadBits 32 ;;
  x <- ReadBits 16 ;;
  y <- ReadBits 16 ;;
  ret (mkAmb i x y).
(** src/h265_sei_parser.cc:770-787 *)
Definition parse_unknown (size : Z) : M (list Z) :=
  guard (negb (size =? 0)) ;;;
  collect size (fun _ => ReadUInt8).

(** The classes derived from H265SeiPayloadState.  [P_alt]: src/h265_sei_parser.cc:713-733 (one byte). *)
Inductive sei_payload : Type :=
| P_t35 (s : sei_t35) | P_unregistered (s : sei_unregistered) | P_alpha (s : sei_alpha) | P_mastering (s : sei_mastering)
| P_light (s : sei_light) | P_knee (s : sei_knee) | P_remap (s : sei_remap) | P_ccv (s : sei_ccv)
| P_alt (preferred_transfer_characteristics : Z) | P_ambient (s : sei_ambient) | P_unknown (bytes : list Z).

(** src/h265_sei_parser.cc:68-111: the dispatcher; include/h265_sei_parser.h:16-81: the values of SeiType.  The cast of payload_type to the
    enum (an int) is injective, so comparing the uint32_t is the same. *)
Definition parse_payload (ty size : Z) : M sei_payload :=
  if ty =? 4 then fmap P_t35 (parse_t35 size)
  else if ty =? 5 then fmap P_unregistered (parse_unregistered size)
  else if ty =? 137 then fmap P_mastering parse_mastering
  else if ty =? 144 then fmap P_light parse_light
  else if ty =? 141 then fmap P_knee parse_knee
  else if ty =? 142 then fmap P_remap parse_remap
  else if ty =? 149 then fmap P_ccv parse_ccv
  else if ty =? 147 then fmap P_alt (ReadBits 8)
  else if ty =? 148 then fmap P_ambient parse_ambient
  else if ty =? 165 then fmap P_alpha parse_alpha
  else fmap P_unknown (parse_unknown size).

(** include/h265_sei_parser.h:463-465.  payload_type: the uint32_t before the cast to SeiType. *)
Record sei_message : Type := mkSEI { payload_type : Z; payload_size : Z; sei_payload_state : option sei_payload }.
(** src/h265_sei_parser.cc:30-115.  The result of parse_payload is not checked: [attempt]. *)
Definition ParseSei : M sei_message :=
  t <- read_ff ;;
  s <- read_ff ;;
  p <- attempt (parse_payload t s) ;;
  ret (mkSEI t s p).
