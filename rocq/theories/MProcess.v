(** Model of tools/h265nal.cc as a process: which files it reads and writes, in which order, and what goes to standard output.
    Not modelled: the messages that the libraries write to standard error; two names of the same file (links) are two files; write errors of a file that could be opened. *)
From Coq Require Import ZArith List Bool String Ascii.
From Verif Require Import MBase Spec MCommon MSyntaxA MSps MPps MSlice MNal MRtp MText MTool.
Import ListNotations.
Open Scope string_scope.
Open Scope Z_scope.

(** What the program asks the system to do.  [Writes n t] and [Prints t] stand for all the fprintf calls of one stage, in order. *)
Inductive action : Type :=
| ReadsFile (name : string)             (* src/h265_utils.cc:145-172 *)
| ReadsStdin                            (* src/h265_utils.cc:139-142 *)
| Prints (t : string)                   (* fprintf to stdout *)
| Complains (t : string)                (* fprintf to stderr *)
| Opens (name : string)                 (* tools/h265nal.cc:454 fopen(outfile, "wb"): the file is created, or emptied *)
| Writes (name : string) (t : string)   (* fprintf to that file *)
| Closes (name : string).               (* tools/h265nal.cc:557-559 *)
(** src/h265_utils.cc:136-147 *)
Definition read_action (name : string) : action := if String.eqb name "-" then ReadsStdin else ReadsFile name.

(** src/h265_utils.cc:148, 154 and 166-169: the messages of ReadFile when it fails *)
Definition quote : string := String (ascii_of_nat 34) "".
Definition read_error (fs : string -> option file) (name : string) : string :=
  match fs name with
  | None => "Could not open input file: " ++ quote ++ name ++ quote ++ newline_str
  | Some f =>
    if file_size f <=? 0 then "Could not determine file size: " ++ quote ++ name ++ quote ++ newline_str
    else "Could not read entire file: " ++ quote ++ name ++ quote ++ " (read " ++ pr_u (Z.of_nat (List.length (firstn (Z.to_nat (file_size f)) (file_bytes f)))) ++
         " of " ++ pr_u (file_size f) ++ " bytes)" ++ newline_str
  end.
(** tools/h265nal.cc:303, 314, 331 and 338: the messages of parse_args before the usage text.  Whatever getopt_long does not know it returns as '?'. *)
Definition arg_error (a : arg) : string :=
  match a with
  | O_nalu_length_bytes s => "error: invalid nalu_length_bytes: " ++ s ++ newline_str
  | O_frames_per_second s => "error: invalid frames_per_second: " ++ s ++ newline_str
  | O_other => "Unsupported option: ?" ++ newline_str
  | _ => ""
  end.
Fixpoint args_error (o : arg_options) (l : list arg) : string :=
  match l with
  | [] => "error: need at least one input file to parse" ++ newline_str
  | a :: r => match parse_arg o a with Exit _ => arg_error a | Ready o' => args_error o' r end
  end.

(** tools/h265nal.cc:358-373: with -d -d or more.  [small]: the build with SMALL_FOOTPRINT *)
Definition or_null (f : option string) : string := match f with Some n => n | None => "null" end.
Definition debug_text (small : bool) (o : arg_options) : string :=
  (if small then "h265nal: small footprint version" else "h265nal: original version") ++ newline_str ++
  "options.debug = " ++ dec (a_debug o) ++ newline_str ++
  "options.infile = " ++ or_null (a_infile o) ++ newline_str ++
  "options.outfile = " ++ or_null (a_outfile o) ++ newline_str.
(** tools/h265nal.cc:448-451 *)
Definition to_stdout (o : arg_options) : bool := match a_outfile o with None => true | Some n => String.eqb n "-" end.
(** tools/h265nal.cc:462-553: the text of the dump *)
Definition dump_text (o : arg_options) (spb : nat -> nat -> sps * pps) (sp : nat -> sps * pps) (box : option hvcc) (units : option (list Z * list nal_unit)) : outcome string :=
  match match box with
        | None => Done ""
        | Some b => match fdumped (text_box spb (parsing_options o) b) (if a_as_one_line o then -1 else 0) with Bad e => Bad e | Done t => Done (t ++ newline_str) end
        end with
  | Bad e => Bad e
  | Done t1 =>
    match match units with
          | None => Done ""
          | Some (buffer, l) => match a_dumpmode o with dump_length => csv_dump (a_frames_per_second o) l | dump_all => dump_units o buffer sp 0 l end
          end with
    | Bad e => Bad e
    | Done t2 => Done (t1 ++ t2)
    end
  end.
(** tools/h265nal.cc:442-562: the output stage.  If the dump is undefined behaviour (see C71 for when it is not), the model stops after opening the file. *)
Definition output (can_write : string -> bool) (o : arg_options) (text : outcome string) : list action * outcome Z :=
  if to_stdout o then
    match text with Bad e => ([], Bad e) | Done t => ([Prints t], Done 0) end
  else
    let name := or_null (a_outfile o) in
    if negb (can_write name) then ([Complains ("Could not open output file: " ++ quote ++ name ++ quote ++ newline_str)], Done (-1)) else
    match text with Bad e => ([Opens name], Bad e) | Done t => ([Opens name; Writes name t; Closes name], Done 0) end.
(** tools/h265nal.cc:349-562.  The build: [version] is PROJECT_VERSION, [usage] the text of tools/h265nal.cc:77-130, [small] is SMALL_FOOTPRINT, [verbose] is
    FPRINT_ERRORS. *)
Record build : Type := mkBuild { version : string; usage : string; small : bool; verbose : bool }.
Definition process (bld : build) (can_write : string -> bool) (fs : string -> option file) (stdin : list Z)
  (spb : nat -> nat -> sps * pps) (sp : nat -> sps * pps) (args : list arg) : list action * outcome Z :=
  match parse_args args with
  | Exit c => (* 0 is --version (tools/h265nal.cc:320-323), -1 is usage *)
    ([if c =? 0 then Prints ("version: " ++ version bld ++ newline_str) else Complains (args_error DEFAULT_OPTIONS args ++ usage bld)], Done c)
  | Ready o0 =>
    let debug := if 1 <? a_debug o0 then [Prints (debug_text (small bld) o0)] else [] in
    let o := imply o0 in
    let read_box := match a_hvcc_file o with None => [] | Some n => [read_action n] end in
    match load_box fs stdin o with
    | Bad e => ((debug ++ read_box)%list, Bad e)
    | Done None =>
      let name := or_null (a_hvcc_file o) in
      ((debug ++ read_box ++ match fst (ReadFile fs stdin (Some name) []) with
                             | None => [Complains (read_error fs name)]
                             | Some _ => if verbose bld then [Complains ("error: cannot parse buffer into H265ConfigurationBox" ++ newline_str)] else []
                             end)%list, Done (-1))
    | Done (Some (box, st, stdin')) =>
      let read_units := match a_infile o with None => [] | Some n => [read_action n] end in
      match load_units fs stdin' o st with
      | Bad e => ((debug ++ read_box ++ read_units)%list, Bad e)
      | Done None => ((debug ++ read_box ++ read_units ++ [Complains (read_error fs (or_null (a_infile o)))])%list, Done (-1))
      | Done (Some units) => let (l, r) := output can_write o (dump_text o spb sp box units) in ((debug ++ read_box ++ read_units ++ l)%list, r)
      end
    end
  end.
