(** Specification vocabulary, independent of the model: bits, codewords, framing.
    Written from the H.265 text (clauses 7.2, 7.4.2, 9.2, Annex B), not from the code. *)
From Coq Require Import ZArith List Bool.
Import ListNotations.
Open Scope Z_scope.

Definition is_byte (x : Z) : Prop := 0 <= x < 256.

(** Bits of a byte, most significant first, and of a byte string. *)
Definition byte_bits (x : Z) : list bool :=
  [Z.testbit x 7; Z.testbit x 6; Z.testbit x 5; Z.testbit x 4;
   Z.testbit x 3; Z.testbit x 2; Z.testbit x 1; Z.testbit x 0].
Definition bits_of (l : list Z) : list bool := flat_map byte_bits l.

(** The number spelled by a list of bits, most significant first. *)
Fixpoint bval (l : list bool) : Z :=
  match l with
  | [] => 0
  | x :: r => Z.b2z x * 2 ^ Z.of_nat (length r) + bval r
  end.

(** u(n): the [n]-bit big-endian representation of [v]. *)
Fixpoint enc_u (n : nat) (v : Z) : list bool :=
  match n with
  | O => []
  | S m => Z.testbit v (Z.of_nat m) :: enc_u m v
  end.

(** ue(v), clause 9.2: the codeword of code number [k] is as many zeros as [k+1] has bits after
    its leading one, followed by the binary representation of [k+1]. *)
Definition ue_zeros (k : Z) : nat := Z.to_nat (Z.log2 (k + 1)).
Definition enc_ue (k : Z) : list bool :=
  repeat false (ue_zeros k) ++ enc_u (S (ue_zeros k)) (k + 1).

(** se(v), clause 9.2.2: code number [k] stands for (-1)^(k+1) Ceil(k/2), i.e.
    0, 1, -1, 2, -2, ... *)
Definition se_of_ue (k : Z) : Z :=
  if Z.even k then - (k / 2) else (k + 1) / 2.
Definition ue_of_se (v : Z) : Z :=
  if 0 <? v then 2 * v - 1 else - 2 * v.
Definition enc_se (v : Z) : list bool := enc_ue (ue_of_se v).

(** A flag: u(1). *)
Definition enc_flag (v : Z) : list bool := enc_u 1 v.

(** The non-symmetric unsigned code of AV1 (ns(n), the code the rtc_common comments cite):
    with [w] the number of bits of [n] and [m = 2^w - n], the first [m] values take [w-1] bits,
    the others [w] bits. *)
Definition ns_width (n : Z) : Z := Z.log2 n + 1.
Definition enc_ns (n v : Z) : list bool :=
  let w := ns_width n in
  let m := 2 ^ w - n in
  if v <? m then enc_u (Z.to_nat (w - 1)) v else enc_u (Z.to_nat w) (v + m).

(** Emulation prevention, clause 7.4.2: [z] is the number of consecutive 00 bytes just before
    (0, 1 or 2); a 03 is inserted before a byte <= 3 that follows two zeros.  [fin]: a final 03
    is appended when the RBSP ends in 00 00 (cabac_zero_words). *)
Fixpoint escape (fin : bool) (z : nat) (l : list Z) : list Z :=
  match l with
  | [] => if fin && Nat.eqb z 2 then [3] else []
  | x :: r =>
    if Nat.eqb z 2 then
      if x <=? 3 then 3 :: x :: escape fin (if x =? 0 then 1 else 0) r
      else x :: escape fin 0 r
    else x :: escape fin (if x =? 0 then S z else 0) r
  end.

(** Ones'-complement arithmetic on 32-bit words (RFC 1071 widened): addition with end-around
    carry; a string of bytes is cut in big-endian words, the last one zero-padded. *)
Definition oc_add (x y : Z) : Z := (x + y) mod 2 ^ 32 + (x + y) / 2 ^ 32.
Fixpoint words32 (l : list Z) : list Z :=
  match l with
  | a :: b :: c :: d :: r => (a * 2 ^ 24 + b * 2 ^ 16 + c * 2 ^ 8 + d) :: words32 r
  | [a; b; c] => [a * 2 ^ 24 + b * 2 ^ 16 + c * 2 ^ 8]
  | [a; b] => [a * 2 ^ 24 + b * 2 ^ 16]
  | [a] => [a * 2 ^ 24]
  | [] => []
  end.
Definition ones_complement_checksum (l : list Z) : Z :=
  2 ^ 32 - 1 - fold_left oc_add (words32 l) 0.
