(** Vocabulary for the properties of the command line tool: reading a CSV text, the pictures of a stream, decimal and hexadecimal numbers. *)
From Coq Require Import ZArith List Bool String Ascii.
From Verif Require Import MBase MSyntaxA MSlice MNal MText MTool SpecText.
Import ListNotations.
Open Scope string_scope.
Open Scope Z_scope.

(** * CSV *)
(** The fields of a line: cut at the commas *)
Fixpoint fields (s : string) : list string :=
  match s with
  | EmptyString => [""]
  | String c r => if Ascii.eqb c "," then "" :: fields r else match fields r with f :: fs => String c f :: fs | [] => [] end
  end.
(** The rows of a text every line of which ends with a newline *)
Definition csv_rows (t : string) : list (list string) := map fields (removelast (lines t)).
Definition complete (t : string) : Prop := last (lines t) "?" = "".

(** * Pictures *)
(** The slice segment types of Table 7-1: 0..9 and 16..21 *)
Definition unit_type (u : nal_unit) : Z := nal_unit_type (nu_header u).
Definition slice (u : nal_unit) : bool := ((0 <=? unit_type u) && (unit_type u <=? 9)) || ((16 <=? unit_type u) && (unit_type u <=? 21)).
Definition starts_picture (u : nal_unit) : bool :=
  slice u && match np_slice (nu_payload u) with Some h => first_slice_segment_in_pic_flag h =? 1 | None => false end.
Fixpoint has_slice (g : list nal_unit) : bool := match g with [] => false | u :: r => slice u || has_slice r end.
(** [gs] cuts the units of a stream before each slice that starts a new picture: the first one of the stream does not. *)
Definition pictures (gs : list (list nal_unit)) : Prop :=
  (forall g a u b, In g gs -> g = (a ++ u :: b)%list -> starts_picture u = true -> has_slice a = false) /\
  (forall g gs', gs = g :: gs' -> gs' <> [] -> has_slice g = true) /\
  (forall g, In g (tl gs) -> match g with u :: _ => starts_picture u = true | [] => False end).
(** The bytes of the slices of a picture, and the type of the last one *)
Fixpoint slice_bytes (g : list nal_unit) : Z := match g with [] => 0 | u :: r => (if slice u then nu_length u else 0) + slice_bytes r end.
Definition last_slice_type (g : list nal_unit) : Z := fold_left (fun t u => if slice u then unit_type u else t) g 0.

(** * The rows of the table: [dec] writes an integer in decimal; [k], [i] number the pictures and the units *)
(** What the row of a unit says of its slice header *)
Definition slice_cell (f : slice_header -> Z) (u : nal_unit) : string :=
  if slice u then match np_slice (nu_payload u) with Some h => dec (to_i32 (f h)) | None => "" end else "".
Definition unit_row (k i : Z) (u : nal_unit) : list string :=
  [dec i; dec k; dec (unit_type u); NalUnitTypeToString (unit_type u); dec (nu_length u); "";
   slice_cell first_slice_segment_in_pic_flag u; slice_cell slice_segment_address u; slice_cell slice_pic_order_cnt_lsb u].
Fixpoint unit_rows (k i : Z) (g : list nal_unit) : list (list string) := match g with [] => [] | u :: r => unit_row k i u :: unit_rows k (i + 1) r end.
Definition picture_row (fps k : Z) (g : list nal_unit) : list string :=
  [""; dec k; dec (last_slice_type g); "frame"; ""; dec ((8 * fps * slice_bytes g) mod 2 ^ 64); ""; ""; ""].
Fixpoint picture_rows (fps k i : Z) (gs : list (list nal_unit)) : list (list string) :=
  match gs with
  | [] => []
  | g :: r => (unit_rows k i g ++ (if has_slice g then [picture_row fps k g] else []) ++ picture_rows fps (k + 1) (i + Z.of_nat (List.length g)) r)%list
  end.


Definition header_row : list string :=
  ["nal_num"; "frame_num"; "nal_unit_type"; "nal_unit_type_str"; "nal_length_bytes"; "bitrate_bps"; "first_slice_segment_in_pic_flag"; "slice_segment_address";
   "slice_pic_order_cnt_lsb"].

(** * Numbers *)
Definition is_digit_char (c : ascii) : Prop := (48 <= nat_of_ascii c <= 57)%nat.
(** The blanks of isspace(): space, \t, \n, \v, \f, \r *)
Definition is_blank_char (c : ascii) : Prop := nat_of_ascii c = 32%nat \/ (9 <= nat_of_ascii c <= 13)%nat.
Fixpoint every (P : ascii -> Prop) (s : string) : Prop := match s with "" => True | String c r => P c /\ every P r end.
(** The number that the digits [s] write after [acc] *)
Fixpoint value (acc : Z) (s : string) : Z := match s with "" => acc | String c r => value (10 * acc + (Z.of_nat (nat_of_ascii c) - 48)) r end.
(** [s] writes [n]: blanks, an optional sign, digits *)
Definition writes_number (s : string) (n : Z) : Prop :=
  exists blanks sign ds, s = blanks ++ sign ++ ds /\ every is_blank_char blanks /\ every is_digit_char ds /\ ds <> "" /\
    ((sign = "-" /\ n = - value 0 ds) \/ ((sign = "" \/ sign = "+") /\ n = value 0 ds)).
(** Two hexadecimal digits *)
Definition hex_digit (d : Z) : ascii := ascii_of_nat (Z.to_nat (if d <? 10 then 48 + d else 87 + d)).
Definition two_hex (x : Z) : string := String (hex_digit (x / 16)) (String (hex_digit (x mod 16)) "").

(** * Command line options *)
(** What the last of the options of one kind asks for: [f] is the value an option gives, [d] the default *)
Fixpoint last_of {A} (f : arg -> option A) (d : A) (l : list arg) : A :=
  match l with [] => d | a :: r => last_of f (match f a with Some x => x | None => d end) r end.
(** A number that the tool takes (C73): the empty string counts as 0 *)
Definition takes (s : string) (n : Z) : Prop := (s = "" /\ n = 0) \/ (writes_number s n /\ 0 <= n <= 2 ^ 31 - 1).
Definition acceptable (a : arg) : Prop :=
  match a with O_version | O_help | O_other => False | O_nalu_length_bytes s | O_frames_per_second s => exists n, takes s n | _ => True end.
(** [n] is the number that the last option of a kind gives, or [d] if there is none *)
Definition takes_last (f : arg -> option string) (d n : Z) (l : list arg) : Prop :=
  match last_of (fun a => option_map Some (f a)) None l with None => n = d | Some s => takes s n end.
(** The options [o] are those that the last option of each kind asks for, and [d] where there is none. *)
Definition chosen (d o : arg_options) (l : list arg) : Prop :=
  a_dumpmode o = last_of (fun a => match a with O_dump_all => Some dump_all | O_dump_length => Some dump_length | _ => None end) (a_dumpmode d) l /\
  a_as_one_line o = last_of (fun a => match a with O_as_one_line b => Some b | _ => None end) (a_as_one_line d) l /\
  a_add_offset o = last_of (fun a => match a with O_add_offset b => Some b | _ => None end) (a_add_offset d) l /\
  a_add_length o = last_of (fun a => match a with O_add_length b => Some b | _ => None end) (a_add_length d) l /\
  a_add_parsed_length o = last_of (fun a => match a with O_add_parsed_length b => Some b | _ => None end) (a_add_parsed_length d) l /\
  a_add_checksum o = last_of (fun a => match a with O_add_checksum b => Some b | _ => None end) (a_add_checksum d) l /\
  a_add_resolution o = last_of (fun a => match a with O_add_resolution b => Some b | _ => None end) (a_add_resolution d) l /\
  a_add_contents o = last_of (fun a => match a with O_add_contents b => Some b | _ => None end) (a_add_contents d) l /\
  a_infile o = last_of (fun a => match a with O_infile f => Some (Some f) | _ => None end) (a_infile d) l /\
  a_outfile o = last_of (fun a => match a with O_outfile f => Some (Some f) | _ => None end) (a_outfile d) l /\
  a_hvcc_file o = last_of (fun a => match a with O_hvcc_file f => Some (Some f) | _ => None end) (a_hvcc_file d) l /\
  takes_last (fun a => match a with O_nalu_length_bytes s => Some s | _ => None end) (a_nalu_length_bytes d) (a_nalu_length_bytes o) l /\
  takes_last (fun a => match a with O_frames_per_second s => Some s | _ => None end) (a_frames_per_second d) (a_frames_per_second o) l.
