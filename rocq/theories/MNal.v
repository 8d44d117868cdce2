(** Model of NAL units, their payload dispatch and the parameter set store (src/h265_nal_unit_parser.cc,
    src/h265_nal_unit_payload_parser.cc, src/h265_bitstream_parser_state.cc) and of whole streams
    (src/h265_bitstream_parser.cc). *)
From Coq Require Import ZArith List Bool.
From Verif Require Import MBase MBitBuffer Spec Syntax MCommon MFraming MSyntaxA MSyntaxB MSps MPps MSlice MSei.
Import ListNotations.
Open Scope Z_scope.
Open Scope monad_scope.

(** include/h265_common.h:217-229 struct ParsingOptions *)
Record options : Type := mkOpts {
  add_offset : bool; add_length : bool; add_parsed_length : bool; add_checksum : bool; add_resolution : bool }.
(** The default constructor *)
Definition default_options : options := mkOpts true true true true true.

(** Functions that take a BitBuffer* and a H265BitstreamParserState*: the new state is part of the result even when nullptr
    (None) is returned, as a parameter set may have been stored before the failure. *)
Definition SM (A : Type) : Type := state -> M (option A * state).
Definition sret {A} (a : A) : SM A := fun st => ret (Some a, st).
Definition sfail {A} : SM A := fun st => ret (None, st).
Definition sbind {A B} (m : SM A) (f : A -> SM B) : SM B := fun st =>
  r <- m st ;;
  match r with
  | (Some a, st') => f a st'
  | (None, st') => ret (None, st')
  end.
(** A call that does not use the state *)
Definition lift {A} (m : M A) : SM A := fun st => o <- attempt m ;; ret (o, st).
(** A call whose null result is stored *)
Definition sattempt {A} (m : SM A) : SM (option A) := fun st => r <- m st ;; ret (Some (fst r), snd r).
Definition get_state : SM state := fun st => ret (Some st, st).
Definition put_state (st' : state) : SM unit := fun _ => ret (Some tt, st').
Declare Scope smonad_scope.
Delimit Scope smonad_scope with smonad.
Notation "x <~ m ;; f" := (sbind m (fun x => f)) (at level 61, m at next level, right associativity) : smonad_scope.
Notation "m1 ;;~ m2" := (sbind m1 (fun _ => m2)) (at level 61, right associativity) : smonad_scope.
Open Scope smonad_scope.

(** A call on a fresh BitBuffer over [bytes]; the constructor asserts the size (src/rtc_common.cc:78-82). *)
Definition on_buffer_st {A} (m : SM A) (bytes : list Z) (st : state) : outcome (option A * state) :=
  if init_ok bytes then
    match m st (mk_bb bytes) with
    | Ok r _ => Done r
    | Fail _ => Done (None, st)   (* does not happen: an SM never fails *)
    | Err e => Bad e
    end
  else Bad AssertFail.
Definition on_data_st {A} (m : SM A) (data : list Z) (st : state) : outcome (option A * state) :=
  match UnescapeRbsp data with
  | Bad e => Bad e
  | Done bytes => on_buffer_st m bytes st
  end.

(** * Payload *)
(** include/h265_nal_unit_payload_parser.h:42-48 struct NalUnitPayloadState; each alternative is a pointer *)
Record nal_payload : Type := mkNP {
  np_vps : option (vps_body * Z); np_sps : option (sps * Z); np_pps : option (pps * Z); np_aud : option Z;
  np_slice : option slice_header; np_sei : option sei_message }.
Definition empty_payload : nal_payload := mkNP None None None None None None.

(** map[key] = value *)
Definition upd {A} (m : Z -> option A) (k : Z) (v : A) : Z -> option A := fun k' => if k' =? k then Some v else m k'.

(** src/h265_nal_unit_payload_parser.cc:101-109 *)
Definition store_vps (o : option (vps_body * Z)) (st : state) : state :=
  match o with
  | Some v => mkState (upd (st_vps st) (vps_video_parameter_set_id (fst v)) v) (st_sps st) (st_pps st)
  | None => st
  end.
(** src/h265_nal_unit_payload_parser.cc:110-118 *)
Definition store_sps (o : option (sps * Z)) (st : state) : state :=
  match o with
  | Some v => mkState (st_vps st) (upd (st_sps st) (sps_seq_parameter_set_id (fst v)) v) (st_pps st)
  | None => st
  end.
(** src/h265_nal_unit_payload_parser.cc:119-127 *)
Definition store_pps (o : option (pps * Z)) (st : state) : state :=
  match o with
  | Some v => mkState (st_vps st) (st_sps st) (upd (st_pps st) (pps_pic_parameter_set_id (fst v)) v)
  | None => st
  end.

(** src/h265_nal_unit_payload_parser.cc:40-165 ParseNalUnitPayload.  The cases that only break are merged with the default. *)
Definition ParseNalUnitPayload (nal_unit_type : Z) : SM nal_payload := fun st =>
  if case_of [TRAIL_N; TRAIL_R; TSA_N; TSA_R; STSA_N; STSA_R; RADL_N; RADL_R; RASL_N; RASL_R] nal_unit_type
     || case_of [BLA_W_LP; BLA_W_RADL; BLA_N_LP; IDR_W_RADL; IDR_N_LP; CRA_NUT] nal_unit_type then
    o <- attempt (ParseSliceSegmentHeader nal_unit_type st) ;;
    ret (Some (mkNP None None None None o None), st)
  else if nal_unit_type =? VPS_NUT then
    o <- attempt ParseVps ;;
    ret (Some (mkNP o None None None None None), store_vps o st)
  else if nal_unit_type =? SPS_NUT then
    o <- attempt ParseSps ;;
    ret (Some (mkNP None o None None None None), store_sps o st)
  else if nal_unit_type =? PPS_NUT then
    o <- attempt ParsePps ;;
    ret (Some (mkNP None None o None None None), store_pps o st)
  else if nal_unit_type =? AUD_NUT then
    o <- attempt ParseAud ;;
    ret (Some (mkNP None None None o None None), st)
  else if case_of [PREFIX_SEI_NUT; SUFFIX_SEI_NUT] nal_unit_type then
    o <- attempt ParseSei ;;
    ret (Some (mkNP None None None None None o), st)
  else ret (Some empty_payload, st).

(** * NAL unit *)
(** include/h265_nal_unit_parser.h:37-50 struct NalUnitState *)
Record nal_unit : Type := mkNU {
  nu_offset : Z; nu_length : Z; nu_parsed_length : Z; nu_checksum : option Z;
  nu_header : nal_header; nu_payload : nal_payload }.

(** src/h265_nal_unit_parser.cc:47-86 ParseNalUnit(BitBuffer* ) (make_unique sets offset and length to 0) *)
Definition ParseNalUnitBuffer (opts : options) : SM nal_unit :=
  cs <~ (if add_checksum opts then c <~ lift GetNaluChecksum ;; sret (Some c) else sret None) ;;
  h <~ lift ParseNalUnitHeader ;;
  p <~ ParseNalUnitPayload (nal_unit_type h) ;;
  len <~ lift (fun b => Ok (get_current_offset b) b) ;;
  sret (mkNU 0 0 len cs h p).

(** src/h265_nal_unit_parser.cc:24-32 ParseNalUnitUnescaped *)
Definition ParseNalUnitUnescaped (opts : options) (data : list Z) (st : state) : outcome (option nal_unit * state) :=
  on_buffer_st (ParseNalUnitBuffer opts) data st.
(** src/h265_nal_unit_parser.cc:34-45 ParseNalUnit(data, length) *)
Definition ParseNalUnit (opts : options) (data : list Z) (st : state) : outcome (option nal_unit * state) :=
  on_data_st (ParseNalUnitBuffer opts) data st.

(** * Streams *)
Definition set_range (off len : Z) (u : nal_unit) : nal_unit :=
  mkNU off len (nu_parsed_length u) (nu_checksum u) (nu_header u) (nu_payload u).

(** src/h265_bitstream_parser.cc:144-161: the loop over the NAL units of ParseBitstream *)
Fixpoint bitstream_loop (opts : options) (data : list Z) (ixs : list nalu_index) (st : state) : outcome (list nal_unit * state) :=
  match ixs with
  | [] => Done ([], st)
  | ix :: r =>
    match sub data (payload_start_offset ix) (MFraming.payload_size ix) with
    | Bad e => Bad e
    | Done bytes =>
      match ParseNalUnit opts bytes st with
      | Bad e => Bad e
      | Done (None, st') => bitstream_loop opts data r st'
      | Done (Some u, st') =>
        match bitstream_loop opts data r st' with
        | Bad e => Bad e
        | Done (us, st'') => Done (set_range (payload_start_offset ix) (MFraming.payload_size ix) u :: us, st'')
        end
      end
    end
  end.

(** include/h265_bitstream_parser.h:33-37 struct BitstreamState *)
Record bitstream : Type := mkBS { bs_options : options; bs_units : list nal_unit }.

(** src/h265_bitstream_parser.cc:127-164 ParseBitstream: parsing_options_ keeps its default value *)
Definition ParseBitstream (opts : options) (data : list Z) (st : state) : outcome (bitstream * state) :=
  match FindNaluIndices data with
  | Bad e => Bad e
  | Done ixs =>
    match bitstream_loop opts data ixs st with
    | Bad e => Bad e
    | Done (us, st') => Done (mkBS default_options us, st')
    end
  end.
(** src/h265_bitstream_parser.cc:166-184 *)
Definition ParseBitstreamNoState (opts : options) (data : list Z) : outcome bitstream :=
  match ParseBitstream opts data empty_state with
  | Bad e => Bad e
  | Done (bs, _) => Done (mkBS opts (bs_units bs))
  end.

(** src/h265_bitstream_parser.cc:227-244: the rest of the loop body of ParseBitstreamNALULength; the units are kept in reverse order.
    Line 240 stores nalu_length_bytes as the length. *)
Definition nalulength_step (opts : options) (data : list Z) (nalu_length_bytes : Z) (s : list nal_unit * state) (off len : Z)
  : outcome (list nal_unit * state) :=
  match sub data off len with
  | Bad e => Bad e
  | Done bytes =>
    match ParseNalUnit opts bytes (snd s) with
    | Bad e => Bad e
    | Done (None, st') => Done (fst s, st')
    | Done (Some u, st') => Done (set_range off nalu_length_bytes u :: fst s, st')
    end
  end.
(** src/h265_bitstream_parser.cc:192-248 ParseBitstreamNALULength *)
Definition ParseBitstreamNALULength (opts : options) (data : list Z) (nalu_length_bytes : Z) (st : state) : outcome (bitstream * state) :=
  match nalulength_loop (S (length data)) data nalu_length_bytes 0 (nalulength_step opts data nalu_length_bytes) ([], st) with
  | Bad e => Bad e
  | Done (us, st') => Done (mkBS default_options (rev us), st')
  end.
(** src/h265_bitstream_parser.cc:250-271 *)
Definition ParseBitstreamNALULengthNoState (opts : options) (data : list Z) (nalu_length_bytes : Z) : outcome bitstream :=
  match ParseBitstreamNALULength opts data nalu_length_bytes empty_state with
  | Bad e => Bad e
  | Done (bs, _) => Done (mkBS opts (bs_units bs))
  end.
