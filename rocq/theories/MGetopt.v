(** Model of the option table of tools/h265nal.cc and of the C library's getopt_long as the GNU manual describes it (operands may stand between
    options, POSIXLY_CORRECT not set), so that the model of the tool starts from the words of the command line.  The library function itself is
    not part of the repository. *)
From Coq Require Import ZArith List Bool String Ascii.
From Verif Require Import MTool MNal MSps MPps MCommon.
Import ListNotations.
Open Scope string_scope.
Open Scope Z_scope.

(** [no_argument] with the option it stands for, or [required_argument] *)
Inductive kind : Type := Flag (a : arg) | Takes (f : string -> arg).

(** tools/h265nal.cc:168-200 longopts.  The [val] of each entry (tools/h265nal.cc:132-155) is replaced by the case of the switch of
    tools/h265nal.cc:204-333 that has it as label; all [val]s are different. *)
Definition longopts : list (string * kind) :=
  [("debug", Flag O_debug); ("infile", Takes O_infile); ("outfile", Takes O_outfile);
   ("quiet", Flag O_quiet); ("dump-all", Flag O_dump_all); ("dump-length", Flag O_dump_length);
   ("as-one-line", Flag (O_as_one_line true)); ("no-as-one-line", Flag (O_as_one_line false));
   ("add-offset", Flag (O_add_offset true)); ("no-add-offset", Flag (O_add_offset false));
   ("add-length", Flag (O_add_length true)); ("no-add-length", Flag (O_add_length false));
   ("add-parsed-length", Flag (O_add_parsed_length true)); ("no-add-parsed-length", Flag (O_add_parsed_length false));
   ("add-checksum", Flag (O_add_checksum true)); ("no-add-checksum", Flag (O_add_checksum false));
   ("add-resolution", Flag (O_add_resolution true)); ("no-add-resolution", Flag (O_add_resolution false));
   ("add-contents", Flag (O_add_contents true)); ("no-add-contents", Flag (O_add_contents false));
   ("hvcc-file", Takes O_hvcc_file); ("nalu-length-bytes", Takes O_nalu_length_bytes);
   ("frames-per-second", Takes O_frames_per_second); ("version", Flag O_version); ("help", Flag O_help)].

(** tools/h265nal.cc:203 the short options "di:o:h" *)
Definition shortopts (c : ascii) : option kind :=
  if Ascii.eqb c "d" then Some (Flag O_debug) else if Ascii.eqb c "i" then Some (Takes O_infile)
  else if Ascii.eqb c "o" then Some (Takes O_outfile) else if Ascii.eqb c "h" then Some (Flag O_help) else None.

(** getopt_long: an exact name, or else the only name that begins with the word.  (GNU also accepts several names if they have the same
    [val], which does not happen here.) *)
Definition resolve (name : string) : option kind :=
  match find (fun e => String.eqb name (fst e)) longopts with
  | Some e => Some (snd e)
  | None => match filter (fun e => String.prefix name (fst e)) longopts with [e] => Some (snd e) | _ => None end
  end.
(** The word behind "--": up to the first "=", and what follows it *)
Fixpoint split_eq (w : string) : string * option string :=
  match w with
  | "" => ("", None)
  | String c r => if Ascii.eqb c "=" then ("", Some r) else let (n, v) := split_eq r in (String c n, v)
  end.
(** A word of short options: the options recognised, and the one that wants the next word *)
Fixpoint cluster (w : string) : list arg * option (string -> arg) :=
  match w with
  | "" => ([], None)
  | String c r =>
    match shortopts c with
    | None => ([O_other], None)
    | Some (Flag a) => let (l, k) := cluster r in (a :: l, k)
    | Some (Takes f) => if String.eqb r "" then ([], Some f) else ([f r], None)
    end
  end.
Definition long_word (w : string) : list arg * option (string -> arg) :=
  let (name, value) := split_eq w in
  match resolve name, value with
  | None, _ => ([O_other], None)
  | Some (Flag a), None => ([a], None)
  | Some (Flag _), Some _ => ([O_other], None)
  | Some (Takes f), Some v => ([f v], None)
  | Some (Takes f), None => ([], Some f)
  end.
(** What a word is: an operand, the end of the options, or options *)
Inductive word : Type := Operand | End | Options (l : list arg) (wants : option (string -> arg)).
Definition word_of (w : string) : word :=
  match w with
  | String "-" "" => Operand
  | String "-" (String "-" "") => End
  | String "-" (String "-" r) => let (l, k) := long_word r in Options l k
  | String "-" r => let (l, k) := cluster r in Options l k
  | _ => Operand
  end.
(** The values of all the calls of getopt_long in the loop of tools/h265nal.cc:203 for the words behind the program's name *)
Fixpoint getopt_long (words : list string) : list arg :=
  match words with
  | [] => []
  | w :: r =>
    match word_of w with
    | Operand => getopt_long r
    | End => []
    | Options l None => (l ++ getopt_long r)%list
    | Options l (Some f) => (l ++ match r with [] => [O_other] | v :: r' => f v :: getopt_long r' end)%list
    end
  end.

(** tools/h265nal.cc:349-562 main with its arguments as words *)
Definition main_words (fs : string -> option file) (can_write : bool) (stdin : list Z) (spb : nat -> nat -> sps * pps) (sp : nat -> sps * pps)
    (words : list string) : outcome (Z * string) := main fs can_write stdin spb sp (getopt_long words).
