(** What a reader of the dumped text sees: its words, its lines and their indentation. *)
From Coq Require Import List Bool String Ascii Arith.
Import ListNotations.
Open Scope string_scope.

Definition newline_char : ascii := ascii_of_nat 10.
Definition is_newline (c : ascii) : bool := Ascii.eqb c newline_char.
Definition is_space (c : ascii) : bool := Ascii.eqb c " " || is_newline c.

(** The words of a text: its maximal runs of characters other than blanks and newlines *)
Fixpoint words (s : string) : list string :=
  match s with
  | EmptyString => []
  | String c r =>
    if is_space c then words r
    else match r with
         | EmptyString => [String c ""]
         | String c' _ => if is_space c' then String c "" :: words r
                          else match words r with w :: ws => String c w :: ws | [] => [] end
         end
  end.

(** The lines of a text *)
Fixpoint lines (s : string) : list string :=
  match s with
  | EmptyString => [""]
  | String c r => if is_newline c then "" :: lines r else match lines r with l :: ls => String c l :: ls | [] => [] end
  end.

Definition one_line (s : string) : Prop := lines s = [s].

(** A line as its number of leading blanks and the rest *)
Fixpoint margin (s : string) : nat * string :=
  match s with String c r => if Ascii.eqb c " " then let (n, t) := margin r in (S n, t) else (O, s) | EmptyString => (O, "") end.
Fixpoint last_char (s : string) : option ascii :=
  match s with EmptyString => None | String c EmptyString => Some c | String _ r => last_char r end.

(** Indentation: every line is indented by two blanks per open brace; a line that ends with an open brace opens a block, a line that is a
    single closing brace closes the innermost one, and is indented like the line that opened it.  [layout d ls] is the depth after the lines
    [ls] when it is [d] before them. *)
Fixpoint layout (d : nat) (ls : list string) : option nat :=
  match ls with
  | [] => Some d
  | l :: r =>
    let (n, t) := margin l in
    if String.eqb t "}" then match d with O => None | S k => if Nat.eqb n (2 * k) then layout k r else None end
    else if Nat.eqb n (2 * d) then
      match last_char t with Some c => if Ascii.eqb c "{" then layout (S d) r else layout d r | None => layout d r end
    else None
  end.

Fixpoint blanks (n : nat) : string := match n with O => "" | S k => String " " (blanks k) end.
(** The text [t], printed where the cursor is at the indentation of depth [d], is properly indented and closes all the blocks it opens. *)
Definition well_indented (d : nat) (t : string) : Prop := layout d (lines (blanks (2 * d) ++ t)) = Some d.
