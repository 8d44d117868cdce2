(** The work done by a run of the model, for C91.  [takes m b k]: running [m] on the buffer [b] takes [k] steps.  Counted are the operations on the
    buffer (a peek, a consume, a seek, a query of the position: 1 each), the sequencing of two calls (1), the rounds of every loop (at least 1 each) and
    the copies of bytes (1 per byte); not counted is the straight-line arithmetic between them.  The relation follows the text of the model: one rule for each way
    of composing calls, one for each operation, and one for each loop that the model writes as a recursion of its own. *)
From Coq Require Import ZArith List Bool.
From Verif Require Import MBase MBitBuffer Spec Rules MCommon MFraming MSyntaxA MSyntaxB MSlice MSei MNal MRtp.
Import ListNotations.
Open Scope Z_scope.
Local Open Scope smonad_scope.

Inductive takes : forall A : Type, M A -> bb -> Z -> Prop :=
(** Composition *)
| T_ret A (a : A) b : takes A (ret a) b 0
| T_fail A b : takes A fail b 0
| T_throw A e b : takes A (throw e) b 0
| T_bind A B (m : M A) (f : A -> M B) b a b1 k k1 :
    m b = Ok a b1 -> takes A m b k -> takes B (f a) b1 k1 -> takes B (bind m f) b (k + k1 + 1)
| T_bind_fail A B (m : M A) (f : A -> M B) b b1 k : m b = Fail b1 -> takes A m b k -> takes B (bind m f) b (k + 1)
| T_bind_err A B (m : M A) (f : A -> M B) b e k : m b = Err e -> takes A m b k -> takes B (bind m f) b (k + 1)
| T_attempt A (m : M A) b k : takes A m b k -> takes (option A) (attempt m) b (k + 1)
(** A for loop of [n] rounds is its rounds one after the other. *)
| T_collect A n (body : Z -> M A) b k : takes (list A) (collect_nat (Z.to_nat n) 0 body) b k -> takes (list A) (collect n body) b k
| T_for A n (body : Z -> A -> M A) a b k : takes A (for_nat (Z.to_nat n) 0 body a) b k -> takes A (for_loop n body a) b k
(** Operations on the buffer *)
| T_peek n b : takes Z (PeekBits n) b 1
| T_peek64 n b : takes Z (PeekBits64 n) b 1
| T_consume n b : takes unit (ConsumeBits n) b 1
| T_seek x y b : takes unit (Seek x y) b 1
| T_remaining b : takes Z (fun b => Ok (remaining b) b) b 1
| T_offset b : takes Z (fun b => Ok (get_current_offset b) b) b 1
(** ReadExponentialGolomb: the loop over the zero bits (one peek, and one consume for a zero bit), then a peek (the assertion), a read (a peek and a
    consume) and a seek *)
| T_zero_stop f z b b1 x : PeekBits 1 b = Ok x b1 -> (x =? 0) = false -> takes Z (zero_loop (S f) z) b 1
| T_zero_end f z b b1 : PeekBits 1 b = Fail b1 -> takes Z (zero_loop (S f) z) b 1
| T_zero_go f z b b1 b2 k : PeekBits 1 b = Ok 0 b1 -> ConsumeBits 1 b1 = Ok tt b2 -> takes Z (zero_loop f (z + 1)) b2 k ->
    takes Z (zero_loop (S f) z) b (k + 2)
| T_ue b k : takes Z (zero_loop (S (Z.to_nat (remaining b))) 0) b k -> takes Z ReadExponentialGolomb b (k + 4)
(** more_rbsp_data, the extension data loop and the trailing bits loop *)
| T_more b : takes bool more_rbsp_data b 1
| T_ext_stop f x b b1 : more_rbsp_data b = Ok false b1 -> takes Z (ext_loop f x) b 1
| T_ext_go f x b b1 k : more_rbsp_data b = Ok true b1 -> takes Z (bind (ReadBits 1) (fun y => ext_loop f y)) b1 k -> takes Z (ext_loop (S f) x) b (k + 1)
| T_ext b k : takes Z (ext_loop (Z.to_nat (remaining b)) 0) b k -> takes Z ext_data b (k + 1)
| T_trailing_stop f b : byte_aligned b = true -> takes unit (trailing_loop f) b 1
| T_trailing_fuel b : takes unit (trailing_loop 0) b 1
| T_trailing_go f b k : byte_aligned b = false -> takes unit (bind (ReadBits 1) (fun x => if negb (x =? 0) then fail else trailing_loop f)) b k ->
    takes unit (trailing_loop (S f)) b (k + 1)
(** The checksum: two loops and a seek *)
| T_sum_stop f s b b1 k : ReadUInt32 b = Fail b1 -> takes Z ReadUInt32 b k -> takes Z (sum32_loop (S f) s) b (k + 1)
| T_sum_go f s b v b1 k k1 : ReadUInt32 b = Ok v b1 -> takes Z ReadUInt32 b k -> takes Z (sum32_loop f (u64 (s + v))) b1 k1 ->
    takes Z (sum32_loop (S f) s) b (k + k1 + 1)
| T_tail_stop f i v8 v b : (0 <? remaining b) = false -> takes (Z * Z) (tail_loop f i v8 v) b 1
| T_tail_fuel i v8 v b : takes (Z * Z) (tail_loop 0 i v8 v) b 1
| T_tail_over f i v8 v b k : (3 <? i) = true -> takes Z ReadUInt8 b k -> takes (Z * Z) (tail_loop (S f) i v8 v) b (k + 1)
| T_tail_go f i v8 v b x b1 k k1 : (0 <? remaining b) = true -> (3 <? i) = false -> ReadUInt8 b = Ok x b1 -> takes Z ReadUInt8 b k ->
    takes (Z * Z) (tail_loop f (i + 1) x (Z.lor v (u32 (Z.shiftl x (8 * (3 - i)))))) b1 k1 -> takes (Z * Z) (tail_loop (S f) i v8 v) b (k + k1 + 1)
| T_tail_keep f i v8 v b b1 k k1 : (0 <? remaining b) = true -> (3 <? i) = false -> ReadUInt8 b = Fail b1 -> takes Z ReadUInt8 b k ->
    takes (Z * Z) (tail_loop f (i + 1) v8 (Z.lor v (u32 (Z.shiftl v8 (8 * (3 - i)))))) b1 k1 -> takes (Z * Z) (tail_loop (S f) i v8 v) b (k + k1 + 1)
| T_checksum b s b1 k k1 : sum32_loop (S (Z.to_nat (remaining b))) 0 b = Ok s b1 -> takes Z (sum32_loop (S (Z.to_nat (remaining b))) 0) b k ->
    takes (Z * Z) (tail_loop 6 0 0 0) b1 k1 -> takes Z GetNaluChecksum b (k + k1 + 2)
(** The loops over the 0xff bytes of an SEI header and over the units of an aggregation packet *)
| T_ff b k : takes Z (ff_loop (S (length (bb_bytes b))) 0) b k -> takes Z read_ff b (k + 1)
| T_ap_stop f st b : (0 <? remaining b) = false -> takes (option (list ap_unit) * state) (ap_loop f st) b 1
| T_ap_go f st b k : (0 <? remaining b) = true ->
    takes (option (list ap_unit) * state)
      ((size <~ lift (ReadBits 16) ;;
        rem <~ lift (fun b => Ok (remaining b) b) ;;
        (if rem <? u32 (size * 8) then sfail else
         h <~ lift ParseNalUnitHeader ;;
         p <~ ParseNalUnitPayload (nal_unit_type h) ;;
         us <~ ap_loop f ;;
         sret (mkAU size h p :: us)))%smonad st) b k ->
    takes (option (list ap_unit) * state) (ap_loop (S f) st) b (k + 1)
| T_ap st b k : takes (option (list ap_unit) * state) (ap_loop (S (Z.to_nat (remaining b))) st) b k ->
    takes (option (list ap_unit) * state) (fun b => ap_loop (S (Z.to_nat (remaining b))) st b) b (k + 1)
(** A NAL unit of a configuration box: its bytes are copied without the emulation prevention bytes into a buffer of their own, which is parsed. *)
| T_unit opts bytes rbsp st b k : UnescapeRbsp bytes = Done rbsp -> takes (option nal_unit * state) (ParseNalUnitBuffer opts st) (mk_bb rbsp) k ->
    takes (option (option nal_unit) * state) (scall (ParseNalUnit opts bytes) st) b (Z.of_nat (length bytes) + k + 1).
Arguments takes {A} m b k.

(** [m] parses [n] bytes in at most [a * 8 * n + c] steps, whatever they are. *)
Definition runs_in (a c : Z) {A} (m : M A) : Prop := forall bytes, Forall is_byte bytes -> Z.of_nat (length bytes) < 2 ^ 32 ->
  exists k, takes m (mk_bb bytes) k /\ 0 <= k <= a * (8 * Z.of_nat (length bytes)) + c.

(** * Streams: the units are parsed one after the other, each from a copy of its bytes; the search for them reads every byte at most once. *)
Inductive units_take (opts : options) (data : list Z) : list (Z * Z) -> state -> Z -> Prop :=
| T_no_unit st : units_take opts data [] st 0
| T_next_unit off len r st bytes rbsp o st' k k' : sub data off len = Done bytes -> UnescapeRbsp bytes = Done rbsp ->
    takes (ParseNalUnitBuffer opts st) (mk_bb rbsp) k -> ParseNalUnit opts bytes st = Done (o, st') -> units_take opts data r st' k' ->
    units_take opts data ((off, len) :: r) st (Z.of_nat (length bytes) + k + 1 + k')
| T_bad_unit off len r st bytes rbsp e k : sub data off len = Done bytes -> UnescapeRbsp bytes = Done rbsp ->
    takes (ParseNalUnitBuffer opts st) (mk_bb rbsp) k -> ParseNalUnit opts bytes st = Bad e ->
    units_take opts data ((off, len) :: r) st (Z.of_nat (length bytes) + k + 1).
(** ParseBitstream and ParseBitstreamNALULength *)
Definition stream_takes (opts : options) (data : list Z) (st : state) (k : Z) : Prop := exists ixs k',
  FindNaluIndices data = Done ixs /\ units_take opts data (map (fun ix => (payload_start_offset ix, MFraming.payload_size ix)) ixs) st k' /\ k = Z.of_nat (length data) + k'.
Definition length_stream_takes (opts : options) (data : list Z) (n : Z) (st : state) (k : Z) : Prop := exists l k',
  nalulength_ranges data n = Done l /\ units_take opts data l st k' /\ k = Z.of_nat (length data) + k'.
