(** Abstract view of the reader state: the position in bits and the bits that remain.
    These definitions are used to state properties of the reader. *)
From Coq Require Import ZArith List Bool.
From Verif Require Import MBase Spec.
Import ListNotations.
Open Scope Z_scope.

Definition pos (b : bb) : Z := 8 * bb_byte b + bb_bit b.

(** Bits from the current position to the end of the buffer. *)
Definition rem (b : bb) : list bool := skipn (Z.to_nat (pos b)) (bits_of (bb_bytes b)).

(** A buffer in a state reachable through the API: declared size = actual size < 4 GiB
    (asserted by the constructor), bytes are bytes, position within the buffer. *)
Definition wf (b : bb) : Prop :=
  Forall is_byte (bb_bytes b) /\
  bb_count b = Z.of_nat (length (bb_bytes b)) /\
  bb_count b < 2 ^ 32 /\
  0 <= bb_byte b /\ 0 <= bb_bit b < 8 /\
  pos b <= 8 * bb_count b.

(** The same buffer, [k] bits further. *)
Definition adv (b : bb) (k : nat) : bb :=
  mkBB (bb_bytes b) (bb_count b)
       ((pos b + Z.of_nat k) / 8) ((pos b + Z.of_nat k) mod 8).

(** [b'] is [b] after consuming exactly the bits [bs]. *)
Definition steps (b b' : bb) (bs : list bool) : Prop :=
  rem b = bs ++ rem b' /\ b' = adv b (length bs).

(** From any buffer whose remaining bits start with [bs], [m] returns [v] and has consumed
    exactly [bs]. *)
Definition parses {A} (m : M A) (bs : list bool) (v : A) : Prop :=
  forall b rest, wf b -> rem b = bs ++ rest -> m b = Ok v (adv b (length bs)).

(** [n] consecutive zero bits somewhere in [bs]. *)
Definition zrun (n : nat) (bs : list bool) : Prop := exists pre post, bs = pre ++ repeat false n ++ post.

(** The undefined behaviour tolerated, as a function of the bits that remain when the call starts; an error after more bits
    have been read is an error of the whole. *)
Record errs : Type := mkErrs {
  err_in :> err -> list bool -> Prop;
  err_app : forall e l1 l2, err_in e l2 -> err_in e (l1 ++ l2) }.

(** On any well-formed buffer [m] fails or returns some [a] after consuming [bs] with
    [Q a bs]; in both cases it has only moved forward inside the buffer and left the bytes
    alone; undefined behaviour is limited to [E]. *)
Definition wp (E : errs) {A} (m : M A) (Q : A -> list bool -> Prop) : Prop :=
  forall b, wf b ->
    match m b with
    | Ok a b' => exists bs, steps b b' bs /\ Q a bs
    | Fail b' => exists bs, steps b b' bs
    | Err e => E e (rem b)
    end.

Definition no_err : errs := mkErrs (fun _ _ => False) (fun _ _ _ H => H).
(** Only signed overflow. *)
Definition ovf_any : errs := mkErrs (fun e _ => e = SignedOverflow) (fun _ _ _ H => H).
(** Only signed overflow, and only if 24 consecutive zero bits are ahead: the flaw of ReadSignedExponentialGolomb (C03) and of
    sums of huge Exp-Golomb values. *)
Definition ovf_only : errs.
Proof.
  refine (mkErrs (fun e l => e = SignedOverflow /\ zrun 24 l) _).
  intros e l1 l2 [He (pre & post & E)]. split; [exact He|]. exists (l1 ++ pre), post. rewrite E. apply app_assoc.
Defined.
