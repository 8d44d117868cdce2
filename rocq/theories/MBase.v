(** Base of the model: outcomes, the parser monad and loops.
    Nothing here models a particular C++ function; it fixes how C++ control flow is
    represented (see DESIGN.md section 1). *)
From Coq Require Import ZArith List Bool.
Import ListNotations.
Open Scope Z_scope.

(** Things a C++ execution must never do. [BadConversion]: a floating point number out of the range of the integer type it is
    converted to. [OutOfFuel] is the model's own
    "the loop did not finish within its fuel"; the safety theorems exclude it. *)
Inductive err : Type :=
| AssertFail | OutOfBounds | BadShift | BadConversion | SignedOverflow | NullDeref | OutOfFuel.

(** include/rtc_common.h:18-108 (class BitBuffer): [bytes_], [byte_count_],
    [byte_offset_], [bit_offset_].  [bytes_] is a pointer in C++; here it is the list of the
    bytes that may be accessed through it. *)
Record bb : Type := mkBB {
  bb_bytes : list Z;
  bb_count : Z;
  bb_byte  : Z;
  bb_bit   : Z }.

(** [Ok a b]: returned a value (true / non-null), buffer left as [b].
    [Fail b]: returned false / nullptr, buffer left as [b].
    [Err e]: undefined behaviour or abort. *)
Inductive res (A : Type) : Type :=
| Ok (a : A) (b : bb)
| Fail (b : bb)
| Err (e : err).
Arguments Ok {A} a b.
Arguments Fail {A} b.
Arguments Err {A} e.

Definition M (A : Type) : Type := bb -> res A.

Definition ret {A} (a : A) : M A := fun b => Ok a b.
Definition fail {A} : M A := fun b => Fail b.
Definition throw {A} (e : err) : M A := fun _ => Err e.
Definition bind {A B} (m : M A) (f : A -> M B) : M B :=
  fun b => match m b with
           | Ok a b' => f a b'
           | Fail b' => Fail b'
           | Err e => Err e
           end.

Declare Scope monad_scope.
Delimit Scope monad_scope with monad.
Notation "x <- m ;; f" := (bind m (fun x => f))
  (at level 61, m at next level, right associativity) : monad_scope.
Notation "m1 ;;; m2" := (bind m1 (fun _ => m2))
  (at level 61, right associativity) : monad_scope.

(** [if (c) { x = read } ] with C++ initial value [d]. *)
Definition when {A} (c : bool) (m : M A) (d : A) : M A := if c then m else ret d.

(** [if (!c) return nullptr;] *)
Definition guard (c : bool) : M unit := if c then ret tt else fail.

(** A call whose nullptr result is stored rather than propagated. *)
Definition attempt {A} (m : M A) : M (option A) :=
  fun b => match m b with
           | Ok a b' => Ok (Some a) b'
           | Fail b' => Ok None b'
           | Err e => Err e
           end.

(** [for (i = 0; i < n; i++) v.push_back(body(i))]: the list of the values of the
    iterations; the first failing iteration ends the loop.  The recursion is on the binary
    representation of the count, so a hostile count of 2^32-1 costs nothing to evaluate
    before the first failure. *)
Fixpoint collect_pos {A} (p : positive) (i : Z) (body : Z -> M A) : M (list A) :=
  match p with
  | xH => bind (body i) (fun x => ret [x])
  | xO q => bind (collect_pos q i body) (fun l1 =>
            bind (collect_pos q (i + Zpos q) body) (fun l2 => ret (l1 ++ l2)))
  | xI q => bind (body i) (fun x =>
            bind (collect_pos q (i + 1) body) (fun l1 =>
            bind (collect_pos q (i + 1 + Zpos q) body) (fun l2 => ret (x :: l1 ++ l2))))
  end.
Definition collect {A} (n : Z) (body : Z -> M A) : M (list A) :=
  match n with
  | Zpos p => collect_pos p 0 body
  | _ => ret []
  end.

(** The same loop with a state carried from one iteration to the next. *)
Fixpoint for_pos {A} (p : positive) (i : Z) (body : Z -> A -> M A) (a : A) : M A :=
  match p with
  | xH => body i a
  | xO q => bind (for_pos q i body a) (fun a1 => for_pos q (i + Zpos q) body a1)
  | xI q => bind (body i a) (fun a0 =>
            bind (for_pos q (i + 1) body a0) (fun a1 =>
            for_pos q (i + 1 + Zpos q) body a1))
  end.
Definition for_loop {A} (n : Z) (body : Z -> A -> M A) (a : A) : M A :=
  match n with
  | Zpos p => for_pos p 0 body a
  | _ => ret a
  end.

(** Unsigned machine arithmetic. *)
Definition u8  (x : Z) : Z := x mod 2 ^ 8.
Definition u16 (x : Z) : Z := x mod 2 ^ 16.
Definition u32 (x : Z) : Z := x mod 2 ^ 32.
Definition u64 (x : Z) : Z := x mod 2 ^ 64.

(** Conversion of a uint32_t to int32_t (two's complement). *)
Definition to_i32 (x : Z) : Z := let y := u32 x in if y <? 2 ^ 31 then y else y - 2 ^ 32.

(** int32_t arithmetic: the mathematical result, or signed overflow. *)
Definition in_i32 (x : Z) : bool := (- 2 ^ 31 <=? x) && (x <? 2 ^ 31).
Definition chk_i32 (x : Z) : M Z := if in_i32 x then ret x else throw SignedOverflow.

Definition u32_max : Z := 2 ^ 32 - 1.
