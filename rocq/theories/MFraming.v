(** Model of src/h265_bitstream_parser.cc: splitting a buffer into NAL units. *)
From Coq Require Import ZArith List Bool.
From Verif Require Import MBase MBitBuffer MCommon.
Import ListNotations.
Open Scope Z_scope.

(** include/h265_bitstream_parser.h:64-71 struct NaluIndex *)
Record nalu_index : Type := mkIx { start_offset : Z; payload_start_offset : Z; payload_size : Z }.

(** src/h265_bitstream_parser.cc:73-76 and 86-88: set payload_size of the last entry of the
    vector (kept in reverse order here). *)
Definition set_last_size (size_end : Z) (rev_seqs : list nalu_index) : list nalu_index :=
  match rev_seqs with
  | [] => []
  | it :: r => mkIx (start_offset it) (payload_start_offset it)
                    (u64 (size_end - payload_start_offset it)) :: r
  end.

(** src/h265_bitstream_parser.cc:62-83: the for loop of FindNaluIndices. *)
Fixpoint find_loop (fuel : nat) (data : list Z) (i end_ : Z) (rev_seqs : list nalu_index)
  : outcome (list nalu_index) :=
  if negb (i <? end_) then Done rev_seqs else
  match fuel with
  | O => Bad OutOfFuel
  | S f =>
    match byte_at data (i + 2) with
    | None => Bad OutOfBounds
    | Some d2 =>
      if 1 <? d2 then find_loop f data (i + 3) end_ rev_seqs else
      match byte_at data (i + 1), byte_at data i with
      | Some d1, Some d0 =>
        if (d2 =? 1) && (d1 =? 0) && (d0 =? 0) then
          let found start :=
            find_loop f data (i + 3) end_ (mkIx start (i + 3) 0 :: set_last_size start rev_seqs) in
          if 0 <? i then
            match byte_at data (i - 1) with
            | None => Bad OutOfBounds
            | Some x => if x =? 0 then found (i - 1) else found i
            end
          else found i
        else find_loop f data (i + 1) end_ rev_seqs
      | _, _ => Bad OutOfBounds
      end
    end
  end.

(** src/h265_bitstream_parser.cc:49-91 FindNaluIndices *)
Definition FindNaluIndices (data : list Z) : outcome (list nalu_index) :=
  let length := Z.of_nat (length data) in
  if length <? 3 then Done [] else
  match find_loop (List.length data) data 0 (length - 3) [] with
  | Bad e => Bad e
  | Done rev_seqs => Done (rev (set_last_size length rev_seqs))
  end.

(** memcpy of 4 bytes then ntohl: a big-endian 32-bit number; every access is checked. *)
Definition read_be32 (data : list Z) (i : Z) : option Z :=
  match byte_at data i, byte_at data (i + 1), byte_at data (i + 2), byte_at data (i + 3) with
  | Some a, Some b, Some c, Some d => Some (a * 2 ^ 24 + b * 2 ^ 16 + c * 2 ^ 8 + d)
  | _, _, _, _ => None
  end.

(** src/h265_bitstream_parser.cc:94-119 FindNaluIndicesExplicitFraming *)
Fixpoint explicit_loop (fuel : nat) (data : list Z) (i : Z) (rev_seqs : list nalu_index)
  : outcome (list nalu_index) :=
  let length := Z.of_nat (length data) in
  if negb (i <? length) then Done (rev rev_seqs) else
  match fuel with
  | O => Bad OutOfFuel
  | S f =>
    if length <? u64 (i + 4) then Done (rev rev_seqs) else
    match read_be32 data i with
    | None => Bad OutOfBounds
    | Some nal_unit_size =>
      if u64 (length - i - 4) <? nal_unit_size then Done (rev rev_seqs) else
      (* 4 + nal_unit_size: int + uint32_t is computed in uint32_t *)
      explicit_loop f data (u64 (i + u32 (4 + nal_unit_size)))
                    (mkIx i (i + 4) nal_unit_size :: rev_seqs)
    end
  end.
Definition FindNaluIndicesExplicitFraming (data : list Z) : outcome (list nalu_index) :=
  explicit_loop (S (length data)) data 0 [].

(** src/h265_bitstream_parser.cc:31-41 read_nalu_length(data + i, ...): the accumulation loop. *)
Fixpoint read_length_loop (n : nat) (data : list Z) (i nalu_length : Z) : outcome Z :=
  match n with
  | O => Done nalu_length
  | S m => match byte_at data i with
           | None => Bad OutOfBounds
           | Some x => read_length_loop m data (i + 1) (u64 (u64 (Z.shiftl nalu_length 8) + x))
           end
  end.

(** src/h265_bitstream_parser.cc:209-245: the for loop of ParseBitstreamNALULength; [step s off len]
    is the loop body from the ParseNalUnit call on (it is given data[off .. off+len)). *)
Fixpoint nalulength_loop {S} (fuel : nat) (data : list Z) (nalu_length_bytes i : Z)
    (step : S -> Z -> Z -> outcome S) (s : S) : outcome S :=
  let length := Z.of_nat (length data) in
  if negb (i <? length) then Done s else
  match fuel with
  | O => Bad OutOfFuel
  | Datatypes.S f =>
    let continue i nalu_length :=
      match step s i nalu_length with
      | Bad e => Bad e
      | Done s' => nalulength_loop f data nalu_length_bytes (u64 (i + nalu_length)) step s'
      end in
    if 0 <? nalu_length_bytes then
      if length - i <? nalu_length_bytes then Done s else
      match read_length_loop (Z.to_nat nalu_length_bytes) data i 0 with
      | Bad e => Bad e
      | Done nalu_length =>
        let i := u64 (i + nalu_length_bytes) in
        if (nalu_length =? 0) || (length <? u64 (i + nalu_length)) then Done s
        else continue i nalu_length
      end
    else continue i length
  end.

(** data[off .. off+len): a read outside the buffer is an error. *)
Definition sub (data : list Z) (off len : Z) : outcome (list Z) :=
  if (off <? 0) || (len <? 0) || (Z.of_nat (length data) <? off + len) then Bad OutOfBounds
  else Done (firstn (Z.to_nat len) (skipn (Z.to_nat off) data)).

(** The ranges ParseBitstreamNALULength hands to the NAL unit parser, in order (reads checked). *)
Definition nalulength_ranges (data : list Z) (nalu_length_bytes : Z) : outcome (list (Z * Z)) :=
  match nalulength_loop (S (length data)) data nalu_length_bytes 0
    (fun l off len => match sub data off len with Bad e => Bad e | Done _ => Done ((off, len) :: l) end) [] with
  | Bad e => Bad e
  | Done l => Done (rev l)
  end.
