(** Model of the RTP payload parsers (src/h265_rtp_parser.cc, src/h265_rtp_single_parser.cc, src/h265_rtp_ap_parser.cc,
    src/h265_rtp_fu_parser.cc), of the configuration box parser (src/h265_configuration_box_parser.cc) and of GetSliceQpY
    (src/h265_utils.cc). *)
From Coq Require Import ZArith List Bool.
From Verif Require Import MBase MBitBuffer Spec Syntax MCommon MFraming MSyntaxA MSyntaxB MSps MPps MSlice MSei MNal.
Import ListNotations.
Open Scope Z_scope.
Open Scope monad_scope.
Open Scope smonad_scope.

(** src/h265_nal_unit_payload_parser.cc:27-38 ParseNalUnitPayload(data, length) *)
Definition ParseNalUnitPayloadData (nal_unit_type : Z) (data : list Z) (st : state) : outcome (option nal_payload * state) :=
  on_data_st (ParseNalUnitPayload nal_unit_type) data st.

(** * RTP *)
(** include/h265_rtp_single_parser.h:36-39 struct RtpSingleState *)
Record rtp_single : Type := mkRS { rs_header : nal_header; rs_payload : nal_payload }.
(** src/h265_rtp_single_parser.cc:33-58 ParseRtpSingle(BitBuffer* ) *)
Definition ParseRtpSingleBuffer : SM rtp_single :=
  h <~ lift ParseNalUnitHeader ;;
  p <~ ParseNalUnitPayload (nal_unit_type h) ;;
  sret (mkRS h p).
(** src/h265_rtp_single_parser.cc:24-31 *)
Definition ParseRtpSingle (data : list Z) (st : state) : outcome (option rtp_single * state) := on_data_st ParseRtpSingleBuffer data st.

(** include/h265_rtp_ap_parser.h:36-47 struct RtpApState: the vectors nal_unit_sizes, nal_unit_headers and nal_unit_payloads have the same
    length, so they are one list of triples. *)
Record ap_unit : Type := mkAU { au_size : Z; au_header : nal_header; au_payload : nal_payload }.
Record rtp_ap : Type := mkRA { ra_header : nal_header; ra_units : list ap_unit }.
(** src/h265_rtp_ap_parser.cc:48-78: the while loop.  Every iteration that continues has consumed 32 bits, see C44_safe, which excludes OutOfFuel. *)
Fixpoint ap_loop (fuel : nat) : SM (list ap_unit) := fun st b =>
  if negb (0 <? remaining b) then sret [] st b else
  match fuel with
  | O => Err OutOfFuel
  | S f =>
    (size <~ lift (ReadBits 16) ;;
     rem <~ lift (fun b => Ok (remaining b) b) ;;
     (if rem <? u32 (size * 8) then sfail else
      h <~ lift ParseNalUnitHeader ;;
      p <~ ParseNalUnitPayload (nal_unit_type h) ;;
      us <~ ap_loop f ;;
      sret (mkAU size h p :: us))) st b
  end.
(** src/h265_rtp_ap_parser.cc:33-80 ParseRtpAp(BitBuffer* ) *)
Definition ParseRtpApBuffer : SM rtp_ap :=
  h <~ lift ParseNalUnitHeader ;;
  us <~ (fun st b => ap_loop (S (Z.to_nat (remaining b))) st b) ;;
  sret (mkRA h us).
(** src/h265_rtp_ap_parser.cc:25-31 *)
Definition ParseRtpAp (data : list Z) (st : state) : outcome (option rtp_ap * state) := on_data_st ParseRtpApBuffer data st.

(** include/h265_rtp_fu_parser.h:35-46 struct RtpFuState *)
Record rtp_fu : Type := mkRF { rf_header : nal_header; s_bit : Z; e_bit : Z; fu_type : Z; rf_payload : option nal_payload }.
(** src/h265_rtp_fu_parser.cc:33-68 ParseRtpFu(BitBuffer* ) *)
Definition ParseRtpFuBuffer : SM rtp_fu :=
  h <~ lift ParseNalUnitHeader ;;
  s <~ lift (ReadBits 1) ;;
  e <~ lift (ReadBits 1) ;;
  t <~ lift (ReadBits 6) ;;
  if s =? 0 then sret (mkRF h s e t None) else
  p <~ ParseNalUnitPayload t ;;
  sret (mkRF h s e t (Some p)).
(** src/h265_rtp_fu_parser.cc:25-31 *)
Definition ParseRtpFu (data : list Z) (st : state) : outcome (option rtp_fu * state) := on_data_st ParseRtpFuBuffer data st.

(** include/h265_rtp_parser.h:36-42 struct RtpState *)
Record rtp : Type := mkRtp {
  rtp_header : nal_header; r_single : option rtp_single; r_ap : option rtp_ap; r_fu : option rtp_fu }.
(** src/h265_rtp_parser.cc:31-74 ParseRtp(BitBuffer* ); the result of Seek is ignored. *)
Definition ParseRtpBuffer : SM rtp :=
  h <~ lift ParseNalUnitHeader ;;
  lift (attempt (Seek 0 0)) ;;~
  if nal_unit_type h <=? 47 then
    s <~ ParseRtpSingleBuffer ;; sret (mkRtp h (Some s) None None)
  else if nal_unit_type h =? AP then
    a <~ ParseRtpApBuffer ;; sret (mkRtp h None (Some a) None)
  else if nal_unit_type h =? FU then
    f <~ ParseRtpFuBuffer ;; sret (mkRtp h None None (Some f))
  else sret (mkRtp h None None None).
(** src/h265_rtp_parser.cc:22-29 *)
Definition ParseRtp (data : list Z) (st : state) : outcome (option rtp * state) := on_data_st ParseRtpBuffer data st.

(** * Configuration box *)
(** A for loop that fills a vector, with the state. *)
Fixpoint scollect {A} (n : nat) (body : SM A) : SM (list A) :=
  match n with
  | O => sret []
  | S k => x <~ body ;; l <~ scollect k body ;; sret (x :: l)
  end.
(** A call of a function that has its own buffer. *)
Definition scall {A} (f : state -> outcome (A * state)) : SM A := fun st b =>
  match f st with
  | Bad e => Err e
  | Done (a, st') => Ok (Some a, st') b
  end.

(** include/h265_configuration_box_parser.h:37-68 struct ConfigurationBoxState.  reserved1..6 are constants on success; the vectors of the
    arrays (array_completeness, NAL_unit_type, numNalus, nalUnitLength, nalUnit) are one list; numNalus[j] is the length of nalus. *)
Record hvcc_array : Type := mkHA { array_completeness : Z; NAL_unit_type : Z; nalus : list (Z * option nal_unit) }.
Record hvcc_header : Type := mkHH {
  general_profile_space : Z; general_tier_flag : Z; general_profile_idc : Z; general_profile_compatibility_flags : list Z;
  general_constraint_indicator_flags : Z; general_level_idc : Z; min_spatial_segmentation_idc : Z; parallelismType : Z;
  hvcc_chroma_format_idc : Z; hvcc_bit_depth_luma_minus8 : Z; hvcc_bit_depth_chroma_minus8 : Z; avgFrameRate : Z; constantFrameRate : Z;
  numTemporalLayers : Z; temporalIdNested : Z; lengthSizeMinusOne : Z; numOfArrays : Z }.
Record hvcc : Type := mkHV { hv_header : hvcc_header; hv_arrays : list hvcc_array }.

(** [if (!ReadBits(n, x)) return nullptr; if (x != v) return nullptr;] *)
Definition ReadFixed (n v : Z) : M unit := x <- ReadBits n ;; guard (x =? v).

(** src/h265_configuration_box_parser.cc:44-203: up to numOfArrays *)
Definition ParseHvccHeader : M hvcc_header :=
  ReadFixed 8 1 ;;;
  a1 <- ReadBits 2 ;; a2 <- ReadBits 1 ;; a3 <- ReadBits 5 ;;
  a4 <- collect 32 (fun _ => ReadBits 1) ;;
  a5 <- ReadBits64 48 ;; a6 <- ReadBits 8 ;;
  ReadFixed 4 15 ;;; a7 <- ReadBits 12 ;;
  ReadFixed 6 63 ;;; a8 <- ReadBits 2 ;;
  ReadFixed 6 63 ;;; a9 <- ReadBits 2 ;;
  ReadFixed 5 31 ;;; a10 <- ReadBits 3 ;;
  ReadFixed 5 31 ;;; a11 <- ReadBits 3 ;;
  a12 <- ReadBits 16 ;; a13 <- ReadBits 2 ;; a14 <- ReadBits 3 ;; a15 <- ReadBits 1 ;; a16 <- ReadBits 2 ;;
  a17 <- ReadBits 8 ;;
  ret (mkHH a1 a2 a3 a4 a5 a6 a7 a8 a9 a10 a11 a12 a13 a14 a15 a16 a17).
(** src/h265_configuration_box_parser.cc:239-256: one NAL unit of an array; a null NAL unit is stored *)
Definition ParseHvccNalu (opts : options) : SM (Z * option nal_unit) :=
  len <~ lift (ReadBits 16) ;;
  bytes <~ lift (ReadBytes len) ;;
  u <~ scall (ParseNalUnit opts bytes) ;;
  sret (len, u).
(** src/h265_configuration_box_parser.cc:205-257: one array *)
Definition ParseHvccArray (opts : options) : SM hvcc_array :=
  c <~ lift (ReadBits 1) ;;
  lift (ReadFixed 1 0) ;;~
  t <~ lift (ReadBits 6) ;;
  n <~ lift (ReadBits 16) ;;
  l <~ scollect (Z.to_nat n) (ParseHvccNalu opts) ;;
  sret (mkHA c t l).
(** src/h265_configuration_box_parser.cc:37-261 ParseConfigurationBox(BitBuffer* ) *)
Definition ParseConfigurationBoxBuffer (opts : options) : SM hvcc :=
  h <~ lift ParseHvccHeader ;;
  l <~ scollect (Z.to_nat (numOfArrays h)) (ParseHvccArray opts) ;;
  sret (mkHV h l).
(** src/h265_configuration_box_parser.cc:24-35 (no unescaping) *)
Definition ParseConfigurationBox (opts : options) (data : list Z) (st : state) : outcome (option hvcc * state) :=
  on_buffer_st (ParseConfigurationBoxBuffer opts) data st.

(** * Slice QP *)
(** int32_t addition *)
Definition add_i32 (x y : Z) : outcome Z := if in_i32 (x + y) then Done (x + y) else Bad SignedOverflow.
(** src/h265_utils.cc:45-77 GetSliceQpYInternal.  A payload stored by the payload parser is never null, and slice_segment_layer and its
    slice_segment_header are null together (src/h265_slice_parser.cc). *)
Definition GetSliceQpYInternal (nal_unit_type : Z) (payload : nal_payload) (st : state) : outcome (option Z) :=
  if negb (IsSliceSegment nal_unit_type) then Done None else
  match np_slice payload with
  | None => Done None
  | Some h =>
    match st_pps st (slice_pic_parameter_set_id h) with
    | None => Done None
    | Some (pps, _) =>
      match add_i32 26 (init_qp_minus26 pps) with
      | Bad e => Bad e
      | Done q =>
        match add_i32 q (slice_qp_delta h) with
        | Bad e => Bad e
        | Done q' => Done (Some q')
        end
      end
    end
  end.
(** src/h265_utils.cc:80-112 GetSliceQpY(rtp): index size() - 1 of an empty vector is out of bounds, and so are null parts. *)
Definition GetSliceQpYRtp (r : rtp) (st : state) : outcome (option Z) :=
  if nal_unit_type (rtp_header r) <=? 47 then
    match r_single r with
    | None => Bad NullDeref
    | Some s => GetSliceQpYInternal (nal_unit_type (rs_header s)) (rs_payload s) st
    end
  else if nal_unit_type (rtp_header r) =? AP then
    match r_ap r with
    | None => Bad NullDeref
    | Some a =>
      match rev (ra_units a) with
      | [] => Bad OutOfBounds
      | u :: _ => GetSliceQpYInternal (nal_unit_type (au_header u)) (au_payload u) st
      end
    end
  else if nal_unit_type (rtp_header r) =? FU then
    match r_fu r with
    | None => Bad NullDeref
    | Some f =>
      if s_bit f =? 0 then Done None
      else match rf_payload f with
           | None => Done None   (* payload == nullptr is checked, or the type is not a slice *)
           | Some p => GetSliceQpYInternal (fu_type f) p st
           end
    end
  else Done None.

(** src/h265_utils.cc:124-133: the loop over the NAL units *)
Fixpoint qp_loop (us : list nal_unit) (st : state) : outcome (list Z) :=
  match us with
  | [] => Done []
  | u :: r =>
    match GetSliceQpYInternal (nal_unit_type (nu_header u)) (nu_payload u) st with
    | Bad e => Bad e
    | Done o =>
      match qp_loop r st with
      | Bad e => Bad e
      | Done l => Done (match o with Some q => q :: l | None => l end)
      end
    end
  end.
(** src/h265_utils.cc:114-135 GetSliceQpY(data, length): the state used is the one after the whole stream *)
Definition qp_options : options := mkOpts true true true false true.
Definition GetSliceQpY (data : list Z) (st : state) : outcome (list Z * state) :=
  match ParseBitstream qp_options data st with
  | Bad e => Bad e
  | Done (bs, st') =>
    match qp_loop (bs_units bs) st' with
    | Bad e => Bad e
    | Done l => Done (l, st')
    end
  end.
