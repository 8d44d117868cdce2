(** The floating point computations of the code, with the rounding of IEEE 754 (Flocq): binary32 for float, binary64 for double, round to nearest
    even.  The other models (MSps.v, MSlice.v, MText.v) use the exact values instead; PropsFloat.v proves that this is the same. *)
From Coq Require Import ZArith Reals String.
From Flocq Require Import Core BinarySingleNaN.
From Verif Require Import MSyntaxA MText.
Open Scope Z_scope.

(** (float) of a uint32_t *)
Definition binary32 := binary_float 24 128.
Definition float_of (n : Z) : binary32 := binary_normalize 24 128 eq_refl eq_refl mode_NE n 0 false.
(** src/h265_vui_parameters_parser.cc:405-410 getFramerate *)
Definition getFramerate (s : vui) : binary32 := @Bdiv 24 128 eq_refl eq_refl mode_NE (float_of (vui_time_scale s)) (float_of (vui_num_units_in_tick s)).

(** Rounding to float and double, for values that neither overflow nor are NaN. *)
Definition format32 : R -> Prop := generic_format radix2 (FLT_exp (-149) 24).
Definition round32 (x : R) : R := round radix2 (FLT_exp (-149) 24) ZnearestE x.
Definition round64 (x : R) : R := round radix2 (FLT_exp (-1074) 53) ZnearestE x.

(** std::ceil(1.0 * a / b), src/h265_sps_parser.cc:896-897, 907-908 (std::ceil is exact) *)
Definition float_ceil_div (a b : Z) : Z := Zceil (round64 (round64 (1 * round64 (IZR a)) / round64 (IZR b))).
(** std::ceil(std::log2(static_cast<float>(n))), src/h265_slice_parser.cc:163, 261, 300; std::log2 on float is [log2f] of the C library. *)
Definition float_ceil_log2 (log2f : R -> R) (n : Z) : Z := Zceil (log2f (round32 (IZR n))).
(** "%.df" of a double: the nearest decimal with d digits (round to nearest even of the exact value, as glibc does). *)
Definition printf_f (d : nat) (x : R) : string :=
  let N := ZnearestE (x * IZR (10 ^ Z.of_nat d)) in (dec (N / 10 ^ Z.of_nat d) ++ "." ++ dec_digits d (N mod 10 ^ Z.of_nat d))%string.
(** src/h265_sei_parser.cc:917-940: the argument is a uint32_t times a decimal constant c *)
Definition float_pr_f (d : nat) (c : R) (x : Z) : string := printf_f d (round64 (round64 (IZR x) * round64 c)).
