(** Model of src/h265_common.cc: RBSP helpers, NAL unit type predicates, checksum. *)
From Coq Require Import ZArith List Bool.
From Verif Require Import MBase MBitBuffer.
Import ListNotations.
Open Scope Z_scope.
Local Open Scope monad_scope.

(** Result of a function that does not use a BitBuffer. *)
Inductive outcome (A : Type) : Type := Done (a : A) | Bad (e : err).
Arguments Done {A} a.
Arguments Bad {A} e.

(** include/h265_common.h:18-86 enum NalUnitType *)
Definition TRAIL_N := 0. Definition TRAIL_R := 1. Definition TSA_N := 2. Definition TSA_R := 3.
Definition STSA_N := 4. Definition STSA_R := 5. Definition RADL_N := 6. Definition RADL_R := 7.
Definition RASL_N := 8. Definition RASL_R := 9.
Definition RSV_VCL_N10 := 10. Definition RSV_VCL_R11 := 11. Definition RSV_VCL_N12 := 12.
Definition RSV_VCL_R13 := 13. Definition RSV_VCL_N14 := 14. Definition RSV_VCL_R15 := 15.
Definition BLA_W_LP := 16. Definition BLA_W_RADL := 17. Definition BLA_N_LP := 18.
Definition IDR_W_RADL := 19. Definition IDR_N_LP := 20. Definition CRA_NUT := 21.
Definition RSV_IRAP_VCL22 := 22. Definition RSV_IRAP_VCL23 := 23.
Definition RSV_VCL24 := 24. Definition RSV_VCL25 := 25. Definition RSV_VCL26 := 26.
Definition RSV_VCL27 := 27. Definition RSV_VCL28 := 28. Definition RSV_VCL29 := 29.
Definition RSV_VCL30 := 30. Definition RSV_VCL31 := 31.
Definition VPS_NUT := 32. Definition SPS_NUT := 33. Definition PPS_NUT := 34.
Definition AUD_NUT := 35. Definition EOS_NUT := 36. Definition EOB_NUT := 37. Definition FD_NUT := 38.
Definition PREFIX_SEI_NUT := 39. Definition SUFFIX_SEI_NUT := 40.
Definition RSV_NVCL41 := 41. Definition RSV_NVCL42 := 42. Definition RSV_NVCL43 := 43.
Definition RSV_NVCL44 := 44. Definition RSV_NVCL45 := 45. Definition RSV_NVCL46 := 46.
Definition RSV_NVCL47 := 47. Definition AP := 48. Definition FU := 49.
(** UNSPEC50 = 50 ... UNSPEC63 = 63 *)
Definition UNSPEC50_63 : list Z := [50; 51; 52; 53; 54; 55; 56; 57; 58; 59; 60; 61; 62; 63].

(** A switch whose cases [l] return true. *)
Definition case_of (l : list Z) (x : Z) : bool := existsb (Z.eqb x) l.

(** src/h265_common.cc:155-180 IsSliceSegment *)
Definition IsSliceSegment : Z -> bool := case_of
  [TRAIL_N; TRAIL_R; TSA_N; TSA_R; STSA_N; STSA_R; RADL_N; RADL_R; RASL_N; RASL_R;
   BLA_W_LP; BLA_W_RADL; BLA_N_LP; IDR_W_RADL; IDR_N_LP; CRA_NUT].

(** src/h265_common.cc:182-222 IsNalUnitTypeVcl *)
Definition IsNalUnitTypeVcl : Z -> bool := case_of
  [TRAIL_N; TRAIL_R; TSA_N; TSA_R; STSA_N; STSA_R; RADL_N; RADL_R; RASL_N; RASL_R;
   RSV_VCL_N10; RSV_VCL_R11; RSV_VCL_N12; RSV_VCL_R13; RSV_VCL_N14; RSV_VCL_R15;
   BLA_W_LP; BLA_W_RADL; BLA_N_LP; IDR_W_RADL; IDR_N_LP; CRA_NUT; RSV_IRAP_VCL22; RSV_IRAP_VCL23;
   RSV_VCL24; RSV_VCL25; RSV_VCL26; RSV_VCL27; RSV_VCL28; RSV_VCL29; RSV_VCL30; RSV_VCL31].

(** src/h265_common.cc:224-264 IsNalUnitTypeNonVcl *)
Definition IsNalUnitTypeNonVcl : Z -> bool := case_of
  ([VPS_NUT; SPS_NUT; PPS_NUT; AUD_NUT; EOS_NUT; EOB_NUT; FD_NUT; PREFIX_SEI_NUT; SUFFIX_SEI_NUT;
    RSV_NVCL41; RSV_NVCL42; RSV_NVCL43; RSV_NVCL44; RSV_NVCL45; RSV_NVCL46; RSV_NVCL47; AP; FU]
   ++ UNSPEC50_63).

(** src/h265_common.cc:266-292 IsNalUnitTypeUnspecified *)
Definition IsNalUnitTypeUnspecified : Z -> bool := case_of ([AP; FU] ++ UNSPEC50_63).

(** src/h265_common.cc:528-550 UnescapeRbsp(data, length).  [i] is the loop variable, [out] the
    vector built so far (in reverse).  Every data[...] access is checked. *)
Fixpoint unescape_loop (fuel : nat) (data : list Z) (i : Z) (out : list Z) : outcome (list Z) :=
  let length := Z.of_nat (length data) in
  if negb (i <? length) then Done (rev out) else
  match fuel with
  | O => Bad OutOfFuel
  | S f =>
    let push1 :=
      match byte_at data i with
      | None => Bad OutOfBounds
      | Some x => unescape_loop f data (i + 1) (x :: out)
      end in
    if 3 <=? length - i then
      match byte_at data i, byte_at data (i + 1), byte_at data (i + 2) with
      | Some x0, Some x1, Some x2 =>
        if (x0 =? 0) && (x1 =? 0) && (x2 =? 3)
        then unescape_loop f data (i + 3) (x1 :: x0 :: out)
        else push1
      | _, _, _ => Bad OutOfBounds
      end
    else push1
  end.
Definition UnescapeRbsp (data : list Z) : outcome (list Z) :=
  unescape_loop (length data) data 0 [].

(** src/h265_common.cc:553-562 byte_aligned *)
Definition byte_aligned (b : bb) : bool := bb_bit b =? 0.

(** src/h265_common.cc:564-569 get_current_offset *)
Definition get_current_offset (b : bb) : Z := bb_byte b + (if bb_bit b =? 0 then 0 else 1).

(** src/h265_common.cc:571-623 more_rbsp_data.  [1 << (remaining_bitcount - 1)] with
    remaining_bitcount in 1..8.  Always returns, so the boolean is the value. *)
Definition more_rbsp_data : M bool := fun b =>
  let remaining_bitcount := remaining b in
  if remaining_bitcount =? 0 then Ok false b else
  if 8 <? remaining_bitcount then Ok true b else
  match PeekBits remaining_bitcount b with
  | Fail b' => Ok false b'
  | Ok remaining_bits b' => Ok (negb (remaining_bits =? Z.shiftl 1 (remaining_bitcount - 1))) b'
  | Err e => Err e
  end.

(** src/h265_common.cc:636-645: the while loop of rbsp_trailing_bits. *)
Fixpoint trailing_loop (fuel : nat) : M unit := fun b =>
  if byte_aligned b then Ok tt b else
  match fuel with
  | O => Err OutOfFuel
  | S f => (bits_tmp <- ReadBits 1 ;;
            if negb (bits_tmp =? 0) then fail else trailing_loop f) b
  end.
(** src/h265_common.cc:625-647 rbsp_trailing_bits *)
Definition rbsp_trailing_bits : M unit :=
  bits_tmp <- ReadBits 1 ;;
  if negb (bits_tmp =? 1) then fail else trailing_loop 8.

(** * NaluChecksum *)

(** src/h265_common.cc:686-689 [while (ReadUInt32(val)) sum += val;] *)
Fixpoint sum32_loop (fuel : nat) (sum : Z) : M Z := fun b =>
  match fuel with
  | O => Err OutOfFuel
  | S f => match ReadUInt32 b with
           | Ok val b' => sum32_loop f (u64 (sum + val)) b'
           | Fail b' => Ok sum b'
           | Err e => Err e
           end
  end.

(** src/h265_common.cc:692-699: the byte loop; a failing ReadUInt8 is ignored and leaves val8.
    [val8 << (8 * (3 - i))] is undefined once i > 3. *)
Fixpoint tail_loop (fuel : nat) (i val8 val : Z) : M (Z * Z) := fun b =>
  if negb (0 <? remaining b) then Ok (i, val) b else
  match fuel with
  | O => Err OutOfFuel
  | S f =>
    let go val8' b' :=
      if 3 <? i then Err BadShift
      else tail_loop f (i + 1) val8' (Z.lor val (u32 (Z.shiftl val8' (8 * (3 - i))))) b' in
    match ReadUInt8 b with
    | Ok v b' => go v b'
    | Fail b' => go val8 b'
    | Err e => Err e
    end
  end.

(** src/h265_common.cc:668-719 NaluChecksum::GetNaluChecksum; the result is [answer], stored in
    network order in the first 4 of the checksum bytes, with length 4 ([checksum_bytes]). *)
Definition GetNaluChecksum : M Z := fun b0 =>
  let byte_offset := bb_byte b0 in
  let bit_offset := bb_bit b0 in
  match sum32_loop (S (Z.to_nat (remaining b0))) 0 b0 with
  | Err e => Err e
  | Fail b1 => Fail b1
  | Ok sum b1 =>
    match tail_loop 6 0 0 0 b1 with
    | Err e => Err e
    | Fail b2 => Fail b2
    | Ok (i, val) b2 =>
      let sum := if 0 <? i then u64 (sum + val) else sum in
      let sum := u64 (Z.shiftr sum 32 + Z.land sum 0xffffffff) in
      let sum := u64 (sum + Z.shiftr sum 32) in
      let answer := u32 (Z.lnot sum) in
      (* the result of Seek is ignored *)
      match Seek byte_offset bit_offset b2 with
      | Ok _ b3 => Ok answer b3
      | Fail b3 => Ok answer b3
      | Err e => Err e
      end
    end
  end.

(** The bytes of the checksum field (htonl, then stored). *)
Definition checksum_bytes (answer : Z) : list Z :=
  [u8 (Z.shiftr answer 24); u8 (Z.shiftr answer 16); u8 (Z.shiftr answer 8); u8 answer].

(** "%02x" of an unsigned char: ASCII codes. *)
Definition hex_char (d : Z) : Z := if d <? 10 then 48 + d else 87 + d.
Definition hex2 (x : Z) : list Z := [hex_char (Z.shiftr x 4); hex_char (Z.land x 15)].

(** A char buffer: writes outside [0, length) are errors. *)
Definition store (buf : list Z) (i x : Z) : outcome (list Z) :=
  match set_byte buf i x with Some l => Done l | None => Bad OutOfBounds end.
(** snprintf(buf + oi, size, "%02x", x): writes at most [size] chars including the final NUL. *)
Definition snprintf02x (buf : list Z) (oi size x : Z) : outcome (list Z) :=
  let put buf k c := match buf with
    | Bad e => Bad e
    | Done l => if k <? size - 1 then store l (oi + k) c
                else if k =? size - 1 then store l (oi + k) 0 else Done l
    end in
  match hex2 x with
  | [h; l] => put (put (put (Done buf) 0 h) 1 l) 2 0
  | _ => Bad OutOfFuel
  end.

(** src/h265_common.cc:721-733 NaluChecksum::fdump(output, output_len); [cs] are the first
    [length] checksum bytes. *)
Fixpoint checksum_fdump_loop (cs : list Z) (oi : Z) (output : list Z) (output_len : Z) : outcome (list Z) :=
  match cs with
  | [] => Done output
  | x :: r =>
    if output_len <=? oi + 2 then store output (output_len - 1) 0
    else match snprintf02x output oi (output_len - oi) x with
         | Bad e => Bad e
         | Done output' => checksum_fdump_loop r (oi + 2) output' output_len
         end
  end.
Definition checksum_fdump (cs output : list Z) (output_len : Z) : outcome (list Z) :=
  checksum_fdump_loop cs 0 output output_len.

(** src/h265_common.cc:735-746 NaluChecksum::GetPrintableChecksum: a 65-char buffer with
    indeterminate contents [junk]; the result is the C string in it. *)
Definition kMaxLength := 32.
Definition BUFFER_LEN := kMaxLength * 2 + 1.
Fixpoint printable_loop (cs : list Z) (oi : Z) (buf : list Z) : outcome (list Z * Z) :=
  match cs with
  | [] => Done (buf, oi)
  | x :: r => match snprintf02x buf oi (BUFFER_LEN - oi) x with
              | Bad e => Bad e
              | Done buf' => printable_loop r (oi + 2) buf'
              end
  end.
Fixpoint c_string (buf : list Z) : list Z :=
  match buf with [] => [] | x :: r => if x =? 0 then [] else x :: c_string r end.
Definition GetPrintableChecksum (junk cs : list Z) : outcome (list Z) :=
  match printable_loop cs 0 junk with
  | Bad e => Bad e
  | Done (buf, oi) => match store buf oi 0 with Bad e => Bad e | Done buf' => Done (c_string buf') end
  end.
