(** Model of tools/h265nal.cc and of H265Utils::ReadFile (src/h265_utils.cc).  Not modelled here: getopt_long (the model starts from the options it
    has recognised; see MGetopt.v), the debug messages and the messages to stderr (see MProcess.v), and the build without FDUMP_DEFINE. *)
From Coq Require Import ZArith List Bool String Ascii.
From Verif Require Import MBase MBitBuffer Spec Syntax MCommon MFraming MSyntaxA MSps MPps MSlice MNal MRtp MText.
Import ListNotations.
Open Scope string_scope.
Open Scope Z_scope.

(** * src/h265_utils.cc *)
(** A file as fopen, fseek/ftell and fread see it: the reported size, and the bytes that can be read. *)
Record file : Type := mkFile { file_size : Z; file_bytes : list Z }.
(** src/h265_utils.cc:23-33: std::cin.read blocks until it has the whole chunk or the end of the input. *)
Definition chunk_size : nat := 4096.
Fixpoint ReadStdinToBuffer (fuel : nat) (stdin buffer : list Z) : list Z * list Z :=
  match fuel with
  | O => (buffer, stdin)
  | S f => match firstn chunk_size stdin with
           | [] => (buffer, stdin)
           | temp => ReadStdinToBuffer f (skipn chunk_size stdin) (buffer ++ temp)%list
           end
  end.
(** src/h265_utils.cc:136-173.  Result: the new buffer or None for -1, and what is left of stdin.  A name is None for nullptr. *)
Definition ReadFile (fs : string -> option file) (stdin : list Z) (filename : option string) (buffer : list Z) : option (list Z) * list Z :=
  let std := let (b, rest) := ReadStdinToBuffer (S (List.length stdin)) stdin buffer in (Some b, rest) in
  match filename with
  | None => std
  | Some name =>
    if String.eqb name "-" then std else
    match fs name with
    | None => (None, stdin)
    | Some f =>
      if file_size f <=? 0 then (None, stdin) else
      let read := firstn (Z.to_nat (file_size f)) (file_bytes f) in
      if negb (Z.of_nat (List.length read) =? file_size f) then (None, stdin) else (Some read, stdin)
    end
  end.

(** * src/h265_common.cc *)
(** src/h265_common.cc:20-153 *)
Definition type_names : list (Z * string) :=
  [(TRAIL_N, "trail_n"); (TRAIL_R, "trail_r"); (TSA_N, "tsa_n"); (TSA_R, "tsa_r"); (STSA_N, "stsa_n");
   (STSA_R, "stsa_r"); (RADL_N, "radl_n"); (RADL_R, "radl_r"); (RASL_N, "rasl_n"); (RASL_R, "rasl_r");
   (RSV_VCL_N10, "rsv_vcl_n10"); (RSV_VCL_R11, "rsv_vcl_r11"); (RSV_VCL_N12, "rsv_vcl_n12"); (RSV_VCL_R13, "rsv_vcl_r13"); (RSV_VCL_N14, "rsv_vcl_n14");
   (RSV_VCL_R15, "rsv_vcl_r15"); (BLA_W_LP, "bla_w_lp"); (BLA_W_RADL, "bla_w_radl"); (BLA_N_LP, "bla_n_lp"); (IDR_W_RADL, "idr_w_radl");
   (IDR_N_LP, "idr_n_lp"); (CRA_NUT, "cra"); (RSV_IRAP_VCL22, "rsv_irap_vcl22"); (RSV_IRAP_VCL23, "rsv_irap_vcl23"); (RSV_VCL24, "rsv_vcl24");
   (RSV_VCL25, "rsv_vcl25"); (RSV_VCL26, "rsv_vcl26"); (RSV_VCL27, "rsv_vcl27"); (RSV_VCL28, "rsv_vcl28"); (RSV_VCL29, "rsv_vcl29");
   (RSV_VCL30, "rsv_vcl30"); (RSV_VCL31, "rsv_vcl31"); (VPS_NUT, "vps"); (SPS_NUT, "sps"); (PPS_NUT, "pps");
   (AUD_NUT, "aud"); (EOS_NUT, "eos"); (EOB_NUT, "eob"); (FD_NUT, "fd"); (PREFIX_SEI_NUT, "prefix_sei");
   (SUFFIX_SEI_NUT, "suffix_sei"); (RSV_NVCL41, "rsv_nvcl41"); (RSV_NVCL42, "rsv_nvcl42"); (RSV_NVCL43, "rsv_nvcl43"); (RSV_NVCL44, "rsv_nvcl44");
   (RSV_NVCL45, "rsv_nvcl45"); (RSV_NVCL46, "rsv_nvcl46"); (RSV_NVCL47, "rsv_nvcl47"); (AP, "ap"); (FU, "fu");
   (50, "unspec50"); (51, "unspec51"); (52, "unspec52"); (53, "unspec53"); (54, "unspec54");
   (55, "unspec55"); (56, "unspec56"); (57, "unspec57"); (58, "unspec58"); (59, "unspec59");
   (60, "unspec60"); (61, "unspec61"); (62, "unspec62"); (63, "unspec63")].
Fixpoint lookup (l : list (Z * string)) (x : Z) : string :=
  match l with [] => "unknown" | (k, n) :: r => if x =? k then n else lookup r x end.
Definition NalUnitTypeToString (nal_unit_type : Z) : string := lookup type_names nal_unit_type.

(** * tools/h265nal.cc *)
(** tools/h265nal.cc:40 *)
Inductive dump_mode : Type := dump_all | dump_length.
(** tools/h265nal.cc:42-57 *)
Record arg_options : Type := mkArgs {
  a_debug : Z; a_dumpmode : dump_mode; a_as_one_line : bool; a_add_offset : bool; a_add_length : bool; a_add_parsed_length : bool;
  a_add_checksum : bool; a_add_resolution : bool; a_add_contents : bool; a_nalu_length_bytes : Z; a_frames_per_second : Z;
  a_hvcc_file : option string; a_infile : option string; a_outfile : option string }.
(** tools/h265nal.cc:60-75 *)
Definition DEFAULT_OPTIONS : arg_options := mkArgs 0 dump_all true false false false false false false (-1) 30 None None None.

(** The options that getopt_long recognises (tools/h265nal.cc:168-200); [O_other] is any other return value. *)
Inductive arg : Type :=
| O_debug | O_quiet | O_infile (f : string) | O_outfile (f : string) | O_dump_all | O_dump_length | O_as_one_line (b : bool) | O_add_offset (b : bool)
| O_add_length (b : bool) | O_add_parsed_length (b : bool) | O_add_checksum (b : bool) | O_add_resolution (b : bool) | O_add_contents (b : bool)
| O_hvcc_file (f : string) | O_nalu_length_bytes (n : string) | O_frames_per_second (n : string) | O_version | O_help | O_other.

(** strtol(s, &end, 10) of the C library on a 64-bit system: the value, the string at [end], and whether errno is set.  Without digits
    end = s, the value is 0 and errno is left alone. *)
Definition is_white (c : ascii) : bool := let n := nat_of_ascii c in Nat.eqb n 32 || (Nat.leb 9 n && Nat.leb n 13).
Fixpoint skip_white (s : string) : string := match s with String c r => if is_white c then skip_white r else s | "" => "" end.
Definition is_digit (c : ascii) : bool := let n := nat_of_ascii c in Nat.leb 48 n && Nat.leb n 57.
Fixpoint scan_digits (acc : Z) (s : string) : Z * string :=
  match s with
  | String c r => if is_digit c then scan_digits (10 * acc + (Z.of_nat (nat_of_ascii c) - 48)) r else (acc, s)
  | "" => (acc, "")
  end.
Definition strtol (s : string) : Z * string * bool :=
  let (neg, t) := match skip_white s with
    | String c r => if Ascii.eqb c "-" then (true, r) else if Ascii.eqb c "+" then (false, r) else (false, String c r)
    | "" => (false, "") end in
  match t with
  | String c _ =>
    if is_digit c then
      let (n, rest) := scan_digits 0 t in
      let v := if neg : bool then - n else n in
      if v <? - 2 ^ 63 then (- 2 ^ 63, rest, true) else if 2 ^ 63 - 1 <? v then (2 ^ 63 - 1, rest, true) else (v, rest, false)
    else (0, s, false)
  | "" => (0, s, false)
  end.
(** tools/h265nal.cc:298-307 and 309-318 *)
Definition number (optarg : string) : option Z :=
  match strtol optarg with
  | (val, rest, errno) => if errno || negb (String.eqb rest "") || (val <? 0) || (2 ^ 31 - 1 <? val) then None else Some val
  end.

(** Ends of the program before main has parsed anything: exit codes *)
Inductive parsed_args : Type := Ready (o : arg_options) | Exit (code : Z).
(** tools/h265nal.cc:201-333 the switch: one option.  debug is an int that is assumed not to overflow. *)
Definition parse_arg (o : arg_options) (a : arg) : parsed_args :=
  let (debug, dumpmode, one_line, off, len, plen, csum, res, cont, lb, fps, hvcc, inf, outf) := o in
  match a with
  | O_debug => Ready (mkArgs (debug + 1) dumpmode one_line off len plen csum res cont lb fps hvcc inf outf)
  | O_quiet => Ready (mkArgs 0 dumpmode one_line off len plen csum res cont lb fps hvcc inf outf)
  | O_infile f => Ready (mkArgs debug dumpmode one_line off len plen csum res cont lb fps hvcc (Some f) outf)
  | O_outfile f => Ready (mkArgs debug dumpmode one_line off len plen csum res cont lb fps hvcc inf (Some f))
  | O_dump_all => Ready (mkArgs debug dump_all one_line off len plen csum res cont lb fps hvcc inf outf)
  | O_dump_length => Ready (mkArgs debug dump_length one_line off len plen csum res cont lb fps hvcc inf outf)
  | O_as_one_line b => Ready (mkArgs debug dumpmode b off len plen csum res cont lb fps hvcc inf outf)
  | O_add_offset b => Ready (mkArgs debug dumpmode one_line b len plen csum res cont lb fps hvcc inf outf)
  | O_add_length b => Ready (mkArgs debug dumpmode one_line off b plen csum res cont lb fps hvcc inf outf)
  | O_add_parsed_length b => Ready (mkArgs debug dumpmode one_line off len b csum res cont lb fps hvcc inf outf)
  | O_add_checksum b => Ready (mkArgs debug dumpmode one_line off len plen b res cont lb fps hvcc inf outf)
  | O_add_resolution b => Ready (mkArgs debug dumpmode one_line off len plen csum b cont lb fps hvcc inf outf)
  | O_add_contents b => Ready (mkArgs debug dumpmode one_line off len plen csum res b lb fps hvcc inf outf)
  | O_hvcc_file f => Ready (mkArgs debug dumpmode one_line off len plen csum res cont lb fps (Some f) inf outf)
  | O_nalu_length_bytes s =>
    match number s with None => Exit (-1) | Some n => Ready (mkArgs debug dumpmode one_line off len plen csum res cont n fps hvcc inf outf) end
  | O_frames_per_second s =>
    match number s with None => Exit (-1) | Some n => Ready (mkArgs debug dumpmode one_line off len plen csum res cont lb n hvcc inf outf) end
  | O_version => Exit 0
  | O_help | O_other => Exit (-1)
  end.
Fixpoint parse_loop (o : arg_options) (l : list arg) : parsed_args :=
  match l with [] => Ready o | a :: r => match parse_arg o a with Exit c => Exit c | Ready o' => parse_loop o' r end end.
(** tools/h265nal.cc:158-343: with the checks after the loop *)
Definition parse_args (l : list arg) : parsed_args :=
  match parse_loop DEFAULT_OPTIONS l with
  | Exit c => Exit c
  | Ready o => match a_infile o, a_hvcc_file o with None, None => Exit (-1) | _, _ => Ready o end
  end.

(** tools/h265nal.cc:375-392: the implied options, and the options of the parsers *)
Definition imply (o : arg_options) : arg_options :=
  let (debug, dumpmode, one_line, off, len, plen, csum, res, cont, lb, fps, hvcc, inf, outf) := o in
  mkArgs debug dumpmode one_line (cont || off) (cont || match dumpmode with dump_length => true | dump_all => false end || len) plen csum res cont lb fps hvcc inf outf.
Definition parsing_options (o : arg_options) : options :=
  mkOpts (a_add_offset o) (a_add_length o) (a_add_parsed_length o) (a_add_checksum o) (a_add_resolution o).

(** tools/h265nal.cc:485-496: the bytes of a unit; [bytes]: buffer[offset + i], for the [i] that are inside the buffer *)
Definition newline_str : string := String newline "".
Fixpoint hex_bytes (i : Z) (bytes : list Z) : string :=
  match bytes with [] => "" | x :: r => " " ++ pr_x 2 x ++ (if (i + 1) mod 16 =? 0 then " " else "") ++ hex_bytes (i + 1) r end.
Definition contents (buffer : list Z) (u : nal_unit) : string :=
  " contents {" ++ hex_bytes 0 (firstn (Z.to_nat (nu_length u)) (skipn (Z.to_nat (nu_offset u)) buffer)) ++ " }".
(** The text of a call of fdump, or undefined behaviour *)
Definition fdumped (d : txt) (level : Z) : outcome string := match d with Done c => Done (run level [] c) | Bad e => Bad e end.
(** tools/h265nal.cc:483-497: one unit in the mode dump_all *)
Definition dump_unit (o : arg_options) (buffer : list Z) (sp : sps * pps) (u : nal_unit) : outcome string :=
  match fdumped (text_nal sp (parsing_options o) u) (if a_as_one_line o then -1 else 0) with
  | Bad e => Bad e
  | Done t => Done (t ++ (if a_add_contents o then contents buffer u else "") ++ newline_str)
  end.
Fixpoint dump_units (o : arg_options) (buffer : list Z) (sp : nat -> sps * pps) (i : nat) (l : list nal_unit) : outcome string :=
  match l with
  | [] => Done ""
  | u :: r => match dump_unit o buffer (sp i) u with
              | Bad e => Bad e
              | Done t => match dump_units o buffer sp (S i) r with Bad e => Bad e | Done t' => Done (t ++ t') end
              end
  end.

(** tools/h265nal.cc:470-476 *)
Definition csv_header : string :=
  "nal_num,frame_num,nal_unit_type,nal_unit_type_str,nal_length_bytes,bitrate_bps,first_slice_segment_in_pic_flag,slice_segment_address,slice_pic_order_cnt_lsb" ++ newline_str.
(** tools/h265nal.cc:478-481; the counters of units and frames stay far below 2^64 *)
Record counters : Type := mkCount { total_bytes : Z; nal_num : Z; frame_num : Z; last_slice_nal_unit_type : Z }.
(** tools/h265nal.cc:519-523 and 546-550 *)
Definition frame_row (fps : Z) (s : counters) : string :=
  "," ++ pr_u (frame_num s) ++ "," ++ pr_u (last_slice_nal_unit_type s) ++ ",frame,," ++ pr_u (u64 (u64 (total_bytes s * 8) * fps)) ++ ",,," ++ newline_str.
(** tools/h265nal.cc:345-347 and 530-540 *)
Definition opt_value (value : Z) (has_value : bool) : string := if has_value then dec (to_i32 value) else "".
Definition nal_row (s : counters) (u : nal_unit) (is_slice_segment : bool) (first address poc : Z) : string :=
  pr_u (nal_num s) ++ "," ++ pr_u (frame_num s) ++ "," ++ pr_u (nal_unit_type (nu_header u)) ++ "," ++ NalUnitTypeToString (nal_unit_type (nu_header u)) ++ "," ++
  pr_u (nu_length u) ++ ",," ++ opt_value first is_slice_segment ++ "," ++ opt_value address is_slice_segment ++ "," ++ opt_value poc is_slice_segment ++ newline_str.
(** tools/h265nal.cc:498-542: one unit in the mode dump_length *)
Definition csv_unit (fps : Z) (s : counters) (u : nal_unit) : outcome (string * counters) :=
  let ty := nal_unit_type (nu_header u) in
  if IsSliceSegment ty then
    match np_slice (nu_payload u) with
    | None => Bad NullDeref
    | Some h =>
      let first := first_slice_segment_in_pic_flag h in
      let (row, s1) :=
        if (first =? 1) && (0 <? total_bytes s)
        then (frame_row fps s, mkCount 0 (nal_num s) (frame_num s + 1) (last_slice_nal_unit_type s))
        else ("", s) in
      let s2 := mkCount (u64 (total_bytes s1 + nu_length u)) (nal_num s1) (frame_num s1) ty in
      Done (row ++ nal_row s2 u true first (slice_segment_address h) (slice_pic_order_cnt_lsb h),
            mkCount (total_bytes s2) (nal_num s2 + 1) (frame_num s2) (last_slice_nal_unit_type s2))
    end
  else Done (nal_row s u false 0 0 0, mkCount (total_bytes s) (nal_num s + 1) (frame_num s) (last_slice_nal_unit_type s)).
Fixpoint csv_units (fps : Z) (s : counters) (l : list nal_unit) : outcome (string * counters) :=
  match l with
  | [] => Done ("", s)
  | u :: r => match csv_unit fps s u with
              | Bad e => Bad e
              | Done (t, s1) => match csv_units fps s1 r with Bad e => Bad e | Done (t', s2) => Done (t ++ t', s2) end
              end
  end.
(** tools/h265nal.cc:469-553 in the mode dump_length *)
Definition csv_dump (fps : Z) (l : list nal_unit) : outcome string :=
  match csv_units fps (mkCount 0 0 0 0) l with
  | Bad e => Bad e
  | Done (t, s) => Done (csv_header ++ t ++ (if 0 <? total_bytes s then frame_row fps s else ""))
  end.

(** tools/h265nal.cc:394-419: parse the hvcC file.  Result: None when main returns -1, else the box and the parser state *)
Definition load_box (fs : string -> option file) (stdin : list Z) (o : arg_options) : outcome (option (option hvcc * state * list Z)) :=
  match a_hvcc_file o with
  | None => Done (Some (None, empty_state, stdin))
  | Some name =>
    match ReadFile fs stdin (Some name) [] with
    | (None, _) => Done None
    | (Some bytes, stdin') =>
      match ParseConfigurationBox (parsing_options o) bytes empty_state with
      | Bad e => Bad e
      | Done (None, _) => Done None
      | Done (Some box, st) => Done (Some (Some box, st, stdin'))
      end
    end
  end.
(** tools/h265nal.cc:421-440: parse the bitstream *)
Definition load_units (fs : string -> option file) (stdin : list Z) (o : arg_options) (st : state) : outcome (option (option (list Z * list nal_unit))) :=
  match a_infile o with
  | None => Done (Some None)
  | Some name =>
    match ReadFile fs stdin (Some name) [] with
    | (None, _) => Done None
    | (Some bytes, _) =>
      match (if a_nalu_length_bytes o <? 0 then ParseBitstream (parsing_options o) bytes st
             else ParseBitstreamNALULength (parsing_options o) bytes (a_nalu_length_bytes o) st) with
      | Bad e => Bad e
      | Done (bs, _) => Done (Some (Some (bytes, bs_units bs)))
      end
    end
  end.
(** tools/h265nal.cc:349-562 main, after the arguments: the exit code and the text written to the output file.  [can_write]: fopen of the
    output file works.  [spb], [sp]: the SPS and PPS that the slices of the box and of the bitstream were parsed with. *)
Definition main (fs : string -> option file) (can_write : bool) (stdin : list Z) (spb : nat -> nat -> sps * pps) (sp : nat -> sps * pps) (args : list arg)
  : outcome (Z * string) :=
  match parse_args args with
  | Exit c => Done (c, "")
  | Ready o0 =>
    let o := imply o0 in
    match load_box fs stdin o with
    | Bad e => Bad e
    | Done None => Done (-1, "")
    | Done (Some (box, st, stdin')) =>
      match load_units fs stdin' o st with
      | Bad e => Bad e
      | Done None => Done (-1, "")
      | Done (Some units) =>
        if negb can_write then Done (-1, "") else
        match match box with
              | None => Done ""
              | Some b => match fdumped (text_box spb (parsing_options o) b) (if a_as_one_line o then -1 else 0) with
                          | Bad e => Bad e | Done t => Done (t ++ newline_str) end
              end with
        | Bad e => Bad e
        | Done t1 =>
          match match units with
                | None => Done ""
                | Some (buffer, l) => match a_dumpmode o with dump_length => csv_dump (a_frames_per_second o) l | dump_all => dump_units o buffer sp 0 l end
                end with
          | Bad e => Bad e
          | Done t2 => Done (0, t1 ++ t2)
          end
        end
      end
    end
  end.
