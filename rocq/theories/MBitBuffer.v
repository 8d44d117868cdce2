(** Model of src/rtc_common.cc (BitBuffer, BitBufferWriter). *)
From Coq Require Import ZArith List Bool.
From Verif Require Import MBase.
Import ListNotations.
Open Scope Z_scope.
Local Open Scope monad_scope.

(** [RTC_DCHECK_LE(bit_count, 8)] *)
Definition chk8 {A} (bit_count : Z) (k : res A) : res A :=
  if 8 <? bit_count then Err AssertFail else k.

(** A read of [p[i]]: out of bounds is an error. *)
Definition byte_at (l : list Z) (i : Z) : option Z :=
  if i <? 0 then None else nth_error l (Z.to_nat i).

(** src/rtc_common.cc:31-34 LowestBits.  Its [RTC_DCHECK_LE(bit_count, 8)] (and that of
    HighestBits and WritePartialByte below) is checked at the call sites, see [chk8]. *)
Definition LowestBits (byte bit_count : Z) : Z :=
  Z.land byte (Z.shiftl 1 bit_count - 1).

(** src/rtc_common.cc:38-43 HighestBits ([uint8_t] parameter, so the argument is truncated) *)
Definition HighestBits (byte bit_count : Z) : Z :=
  let shift := u8 (8 - bit_count) in
  let mask := u8 (Z.shiftl 255 shift) in
  Z.shiftr (Z.land (u8 byte) mask) shift.

(** src/rtc_common.cc:46 HighestByte *)
Definition HighestByte (val : Z) : Z := u8 (Z.shiftr val 56).

(** src/rtc_common.cc:51-66 WritePartialByte *)
Definition WritePartialByte (source source_bit_count target target_bit_offset : Z) : Z :=
  let mask := Z.shiftr (u8 (Z.shiftl 255 (8 - source_bit_count))) target_bit_offset in
  u8 (Z.lor (Z.land target (Z.lnot mask)) (Z.shiftr source target_bit_offset)).

(** src/rtc_common.cc:69-76 CountBits: the while loop shifts right until zero, so it runs
    once per significant bit; 64 steps suffice for a uint64_t. *)
Fixpoint CountBits_loop (fuel : nat) (bit_count val : Z) : Z :=
  match fuel with
  | O => bit_count
  | S f => if val =? 0 then bit_count else CountBits_loop f (bit_count + 1) (Z.shiftr val 1)
  end.
Definition CountBits (val : Z) : Z := CountBits_loop 64 0 val.

(** src/rtc_common.cc:78-82 BitBuffer::BitBuffer (the assertion on the size is
    [init_ok]). *)
Definition mk_bb (bytes : list Z) : bb := mkBB bytes (Z.of_nat (length bytes)) 0 0.
Definition init_ok (bytes : list Z) : bool := Z.of_nat (length bytes) <=? u32_max.

(** src/rtc_common.cc:84-86 RemainingBitCount *)
Definition remaining (b : bb) : Z :=
  u64 (u64 (u64 (bb_count b - bb_byte b) * 8) - bb_bit b).

(** src/rtc_common.cc:116-146 and 148-178: the inner
    [while (bit_count >= 8)] loop of PeekBits, for words of [w] bits.
    Result: pointer, bits, bit_count left. *)
Fixpoint peek_loop (fuel : nat) (w : Z) (bytes : list Z) (p bits n : Z) : option (Z * Z * Z) :=
  match fuel with
  | O => Some (p, bits, n)
  | S f =>
    if 8 <=? n then
      match byte_at bytes p with
      | None => None
      | Some x =>
        peek_loop f w bytes (p + 1) (Z.lor (Z.shiftl bits 8 mod 2 ^ w) x) (n - 8)
      end
    else Some (p, bits, n)
  end.

(** src/rtc_common.cc:116-146 PeekBits(size_t, uint32_t&) with [w = 32];
    src/rtc_common.cc:148-178 PeekBits(size_t, uint64_t&) with [w = 64]. *)
Definition PeekBits_w (w bit_count : Z) : M Z := fun b =>
  if negb (0 <? bit_count) then Err AssertFail else
  if (remaining b <? bit_count) || (w <? bit_count) then Fail b else
  match byte_at (bb_bytes b) (bb_byte b) with
  | None => Err OutOfBounds
  | Some x0 =>
    let remaining_bits_in_current_byte := 8 - bb_bit b in
    chk8 remaining_bits_in_current_byte (
    let bits := LowestBits x0 remaining_bits_in_current_byte in
    if bit_count <? remaining_bits_in_current_byte then
      chk8 (bb_bit b + bit_count) (Ok (HighestBits bits (bb_bit b + bit_count)) b)
    else
      match peek_loop (Z.to_nat bit_count) w (bb_bytes b) (bb_byte b + 1) bits
                      (bit_count - remaining_bits_in_current_byte) with
      | None => Err OutOfBounds
      | Some (p, bits, n) =>
        if 0 <? n then
          match byte_at (bb_bytes b) p with
          | None => Err OutOfBounds
          | Some x => chk8 n (Ok (Z.lor (Z.shiftl bits n mod 2 ^ w) (HighestBits x n)) b)
          end
        else Ok bits b
      end)
  end.
Definition PeekBits : Z -> M Z := PeekBits_w 32.
Definition PeekBits64 : Z -> M Z := PeekBits_w 64.

(** src/rtc_common.cc:206-214 ConsumeBits *)
Definition ConsumeBits (bit_count : Z) : M unit := fun b =>
  if remaining b <? bit_count then Fail b else
  Ok tt (mkBB (bb_bytes b) (bb_count b)
              (bb_byte b + (bb_bit b + bit_count) / 8)
              ((bb_bit b + bit_count) mod 8)).

(** src/rtc_common.cc:199-204 ConsumeBytes (SIZE_MAX = 2^64-1) *)
Definition ConsumeBytes (byte_count : Z) : M unit :=
  if (2 ^ 64 - 1) / 8 <? byte_count then fail else ConsumeBits (byte_count * 8).

(** src/rtc_common.cc:180-186 ReadBits *)
Definition ReadBits (bit_count : Z) : M Z :=
  v <- PeekBits bit_count ;; ConsumeBits bit_count ;;; ret v.
Definition ReadBits64 (bit_count : Z) : M Z :=
  v <- PeekBits64 bit_count ;; ConsumeBits bit_count ;;; ret v.

(** src/rtc_common.cc:88-114 ReadUInt8/16/32 *)
Definition ReadUInt8 : M Z := ReadBits 8.
Definition ReadUInt16 : M Z := ReadBits 16.
Definition ReadUInt32 : M Z := ReadBits 32.

(** src/rtc_common.cc:188-197 ReadBytes: the bytes read before a failure have been consumed. *)
Definition ReadBytes (byte_count : Z) : M (list Z) :=
  collect byte_count (fun _ => ReadUInt8).

(** src/rtc_common.cc:289-297 Seek *)
Definition Seek (byte_offset bit_offset : Z) : M unit := fun b =>
  if (bb_count b <? byte_offset) || (7 <? bit_offset) ||
     ((byte_offset =? bb_count b) && (0 <? bit_offset))
  then Fail b
  else Ok tt (mkBB (bb_bytes b) (bb_count b) byte_offset bit_offset).

(** src/rtc_common.cc:281-287 GetCurrentOffset *)
Definition GetCurrentOffset : M (Z * Z) := fun b => Ok (bb_byte b, bb_bit b) b.

(** src/rtc_common.cc:216-237 ReadNonSymmetric.
    [uint32_t{1} << count_bits] is undefined for count_bits >= 32. *)
Definition ReadNonSymmetric (num_values : Z) : M Z :=
  if negb (0 <? num_values) || (2 ^ 31 <? num_values) then throw AssertFail else
  let count_bits := CountBits num_values in
  if 32 <=? count_bits then throw BadShift else
  let num_min_bits_values := u32 (2 ^ count_bits - num_values) in
  val <- ReadBits (count_bits - 1) ;;
  if val <? num_min_bits_values then ret val else
  extra_bit <- ReadBits 1 ;;
  ret (u32 (val * 2 + extra_bit - num_min_bits_values)).

(** src/rtc_common.cc:245-251: the loop
    [while (PeekBits(1, peeked_bit) && peeked_bit == 0) { zero_bit_count++; ConsumeBits(1); }].
    The result of ConsumeBits is ignored in C++. *)
Fixpoint zero_loop (fuel : nat) (zero_bit_count : Z) : M Z := fun b =>
  match fuel with
  | O => Err OutOfFuel
  | S f =>
    match PeekBits 1 b with
    | Err e => Err e
    | Fail b1 => Ok zero_bit_count b1
    | Ok peeked b1 =>
      if peeked =? 0 then
        match ConsumeBits 1 b1 with
        | Ok _ b2 => zero_loop f (zero_bit_count + 1) b2
        | Fail b2 => zero_loop f (zero_bit_count + 1) b2
        | Err e => Err e
        end
      else Ok zero_bit_count b1
    end
  end.

(** src/rtc_common.cc:239-266 ReadExponentialGolomb *)
Definition ReadExponentialGolomb : M Z := fun b0 =>
  let original_byte_offset := bb_byte b0 in
  let original_bit_offset := bb_bit b0 in
  match zero_loop (S (Z.to_nat (remaining b0))) 0 b0 with
  | Err e => Err e
  | Fail b1 => Fail b1
  | Ok zero_bit_count b1 =>
    (* RTC_DCHECK(!PeekBits(1, peeked_bit) || peeked_bit == 1) *)
    if match PeekBits 1 b1 with
       | Fail _ => false
       | Ok p _ => negb (p =? 1)
       | Err _ => true
       end
    then Err AssertFail else
    let value_bit_count := zero_bit_count + 1 in
    let restore b :=
      (* RTC_CHECK(Seek(original_byte_offset, original_bit_offset)); return false *)
      match Seek original_byte_offset original_bit_offset b with
      | Ok _ b2 => Fail b2
      | Fail _ => Err AssertFail
      | Err e => Err e
      end in
    if 32 <? value_bit_count then restore b1 else
    match ReadBits value_bit_count b1 with
    | Ok val b2 => Ok (u32 (val - 1)) b2
    | Fail b2 => restore b2
    | Err e => Err e
    end
  end.

(** src/rtc_common.cc:268-279 ReadSignedExponentialGolomb.
    Even: [-static_cast<int32_t>(unsigned_val / 2)] never overflows (unsigned_val/2 < 2^31).
    Odd: [(static_cast<int32_t>(unsigned_val) + 1) / 2], C++ division truncates. *)
Definition ReadSignedExponentialGolomb : M Z :=
  unsigned_val <- ReadExponentialGolomb ;;
  if Z.land unsigned_val 1 =? 0 then
    ret (- to_i32 (unsigned_val / 2))
  else
    s <- chk_i32 (to_i32 unsigned_val + 1) ;;
    ret (Z.quot s 2).

(** * BitBufferWriter.  The writable bytes are the bytes of the buffer. *)

(** [*p = x] *)
Definition set_byte (l : list Z) (i x : Z) : option (list Z) :=
  if (i <? 0) || (Z.of_nat (length l) <=? i) then None
  else Some (firstn (Z.to_nat i) l ++ x :: skipn (S (Z.to_nat i)) l).

(** src/rtc_common.cc:345-349: [while (bit_count >= 8) { *bytes++ = HighestByte(val); ...}] *)
Fixpoint write_loop (fuel : nat) (bytes : list Z) (p val n : Z) : option (list Z * Z * Z * Z) :=
  match fuel with
  | O => Some (bytes, p, val, n)
  | S f =>
    if 8 <=? n then
      match set_byte bytes p (HighestByte val) with
      | None => None
      | Some bytes' => write_loop f bytes' (p + 1) (u64 (Z.shiftl val 8)) (n - 8)
      end
    else Some (bytes, p, val, n)
  end.

Definition with_bytes (b : bb) (l : list Z) : bb := mkBB l (bb_count b) (bb_byte b) (bb_bit b).

(** src/rtc_common.cc:314-357 WriteBits(uint64_t val, size_t bit_count).
    [val <<= 64 - bit_count] is undefined when bit_count is 0 or above 64. *)
Definition WriteBits (val bit_count : Z) : M unit := fun b =>
  if remaining b <? bit_count then Fail b else
  if (bit_count <=? 0) || (64 <? bit_count) then Err BadShift else
  let total_bits := bit_count in
  let val := u64 (Z.shiftl val (64 - bit_count)) in
  let p := bb_byte b in
  let remaining_bits_in_current_byte := 8 - bb_bit b in
  let bits_in_first_byte := Z.min bit_count remaining_bits_in_current_byte in
  match byte_at (bb_bytes b) p with
  | None => Err OutOfBounds
  | Some x0 =>
    if (8 <=? bb_bit b) || (9 <=? bits_in_first_byte) || (8 - bb_bit b <? bits_in_first_byte)
    then Err AssertFail (* RTC_DCHECKs of WritePartialByte *) else
    match set_byte (bb_bytes b) p
            (WritePartialByte (HighestByte val) bits_in_first_byte x0 (bb_bit b)) with
    | None => Err OutOfBounds
    | Some bytes1 =>
      if bit_count <=? remaining_bits_in_current_byte then
        ConsumeBits total_bits (with_bytes b bytes1)
      else
        let val := u64 (Z.shiftl val bits_in_first_byte) in
        match write_loop 8 bytes1 (p + 1) val (bit_count - bits_in_first_byte) with
        | None => Err OutOfBounds
        | Some (bytes2, p2, val2, n2) =>
          if 0 <? n2 then
            match byte_at bytes2 p2 with
            | None => Err OutOfBounds
            | Some x =>
              if 9 <=? n2 then Err AssertFail (* RTC_DCHECKs of WritePartialByte *) else
              match set_byte bytes2 p2 (WritePartialByte (HighestByte val2) n2 x 0) with
              | None => Err OutOfBounds
              | Some bytes3 => ConsumeBits total_bits (with_bytes b bytes3)
              end
            end
          else ConsumeBits total_bits (with_bytes b bytes2)
        end
    end
  end.

(** src/rtc_common.cc:302-312 WriteUInt8/16/32 *)
Definition WriteUInt8 (v : Z) : M unit := WriteBits v 8.
Definition WriteUInt16 (v : Z) : M unit := WriteBits v 16.
Definition WriteUInt32 (v : Z) : M unit := WriteBits v 32.

(** src/rtc_common.cc:359-368 WriteNonSymmetric *)
Definition WriteNonSymmetric (val num_values : Z) : M unit :=
  if negb (val <? num_values) || (2 ^ 31 <? num_values) then throw AssertFail else
  let count_bits := CountBits num_values in
  if 32 <=? count_bits then throw BadShift else
  let num_min_bits_values := u32 (2 ^ count_bits - num_values) in
  if val <? num_min_bits_values then WriteBits val (count_bits - 1)
  else WriteBits (u32 (val + num_min_bits_values)) count_bits.

(** src/rtc_common.cc:370-378 SizeNonSymmetricBits *)
Definition SizeNonSymmetricBits (val num_values : Z) : Z :=
  let count_bits := CountBits num_values in
  let num_min_bits_values := u32 (2 ^ count_bits - num_values) in
  if val <? num_min_bits_values then count_bits - 1 else count_bits.

(** src/rtc_common.cc:380-392 WriteExponentialGolomb *)
Definition WriteExponentialGolomb (val : Z) : M unit :=
  if val =? u32_max then fail else
  let val_to_encode := val + 1 in
  WriteBits val_to_encode (CountBits val_to_encode * 2 - 1).

(** src/rtc_common.cc:394-406 WriteSignedExponentialGolomb *)
Definition WriteSignedExponentialGolomb (val : Z) : M unit :=
  if val =? 0 then WriteExponentialGolomb 0
  else if 0 <? val then WriteExponentialGolomb (u32 (val * 2 - 1))
  else if val =? - 2 ^ 31 then fail
  else WriteExponentialGolomb (u32 (- val * 2)).
