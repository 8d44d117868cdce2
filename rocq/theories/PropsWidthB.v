(** C92: the output of the tool is bounded by the size of its inputs. *)
From Coq Require Import ZArith List Bool Lia ZifyBool ZifyNat String Ascii.
From Verif Require PropsSps PropsStream PropsSlice PropsRel.
From Verif Require Import MBase MBitBuffer Spec BitsFacts Reader Rules ReaderFacts PropsBits Syntax SyntaxSe MCommon PropsCommon MFraming FramingFacts PropsFraming MSyntaxA SpecA Api MProfile MSyntaxB SpecB MSps SpecSps FactsSps MPps SpecPps FactsPps
  MSlice SpecSlice FactsSlice MSei SpecSei MNal FactsNal PropsNal PropsSlice MRtp FactsRtp PropsRtp MText SpecSize SpecTool FactsText PropsText PropsQp FactsTame PropsSafe FactsLocal FactsGrow PropsGrow MTool PropsTool PropsWide PropsToolB PropsToolC PropsToolE FactsWidth FactsWidthB FactsWidthC FactsWidthD FactsWidthE FactsWidthF FactsWidthG PropsWidth.
Import ListNotations.
Open Scope string_scope.
Open Scope Z_scope.

(** The size of an input that the tool is told to read *)
Definition input_size (fs : string -> option file) (stdin : list Z) (name : option string) : Z :=
  match name with
  | None => 0
  | Some n => if String.eqb n "-" then Z.of_nat (List.length stdin) else match fs n with Some f => Z.of_nat (List.length (file_bytes f)) | None => 0 end
  end.
(** The payloads of what the tool has read (C71) *)
Definition read_payloads (box : option hvcc) (units : option (list Z * list nal_unit)) : list nal_payload :=
  (match box with Some v => box_payloads v | None => [] end ++ match units with Some (_, us) => payloads us | None => [] end)%list.

Lemma read_size fs stdin name bytes rest : ReadFile fs stdin (Some name) [] = (Some bytes, rest) -> len bytes <= input_size fs stdin (Some name) /\ len rest <= len stdin.
Proof.
  intros E. unfold input_size. destruct (String.eqb_spec name "-") as [->|N].
  - rewrite (proj1 (C74_stdin fs stdin [])) in E. cbn [app] in E. assert (bytes = stdin /\ rest = []) as [-> ->] by (split; congruence). unfold len. cbn [List.length]. lia.
  - destruct (C74_file fs stdin name [] N) as (A & B & _). rewrite E in A, B. cbn [fst snd] in A, B. subst rest. destruct (B bytes eq_refl) as (f & r & Ef & Eb & _). rewrite Ef, Eb, app_length. unfold len. lia.
Qed.
Lemma size_mono fs stdin stdin' name : len stdin' <= len stdin -> input_size fs stdin' name <= input_size fs stdin name.
Proof. intros H. unfold input_size, len in *. destruct name as [n|]; [|lia]. destruct (String.eqb n "-"); [exact H | lia]. Qed.
Lemma size_nn fs stdin name : 0 <= input_size fs stdin name.
Proof. unfold input_size. destruct name as [n|]; [|lia]. destruct (String.eqb n "-"); [lia|]. destruct (fs n); lia. Qed.
Definition size_box (k : Z) (box : option hvcc) (t : string) : Prop :=
  slen t <= 1 + 2 * (41600 * k + 60 * squares (match box with Some v => box_payloads v | None => [] end)) /\ total long_term (match box with Some v => box_payloads v | None => [] end) <= 16 * k.
Definition size_units (k : Z) (units : option (list Z * list nal_unit)) (t : string) : Prop :=
  slen t <= 290 + 2 * (41602 * k + 60 * squares (match units with Some (_, us) => payloads us | None => [] end)) /\ total long_term (match units with Some (_, us) => payloads us | None => [] end) <= 16 * k.
Lemma squares_of_nn ps : 0 <= squares ps.
Proof. unfold squares. induction ps as [|p ps IH]; cbn [fold_right]; [lia|]. nia. Qed.
Lemma count_units us n : total (fun u => 32 + unit_elements u) us <= 16 * n -> 2 * len us <= n.
Proof.
  intros H. assert (32 * len us <= total (fun u => 32 + unit_elements u) us); [|lia]. clear H. unfold len, total. induction us as [|u us IH]; cbn [fold_right List.length]; [lia|]. pose proof (unit_elements_nn u). lia.
Qed.
Lemma units_sized o sp bytes us t : byte_string bytes -> stream_good (len bytes) us ->
  match a_dumpmode o with dump_length => csv_dump (a_frames_per_second o) us | dump_all => dump_units o bytes sp 0 us end = Done t -> size_units (len bytes) (Some (bytes, us)) t.
Proof.
  intros [F L] ((G1 & G2) & G3 & G4) E. pose proof (squares_of_nn (payloads us)) as Q. pose proof (len_nn bytes) as N. split.
  - destruct (a_dumpmode o).
    + pose proof (w_dump_units o bytes sp us F G1 _ _ E) as H. rewrite squares_payloads in *. lia.
    + pose proof (count_units _ _ G2). assert (slen t <= 290 + 230 * len us); [|lia]. eapply w_csv_dump; [unfold len in *; lia | exact G4 | | exact E].
      eapply Forall_impl; [|exact G1]. intros u Hu. apply Hu.
  - unfold payloads. rewrite total_map. pose proof (long_term_total us). lia.
Qed.
Lemma box_sized opts spb o data v st' level t : byte_string data -> -1 <= level <= 0 -> ParseConfigurationBox opts data empty_state = Done (Some v, st') -> fdumped (text_box spb o v) level = Done t ->
  size_box (len data) (Some v) (t ++ newline_str).
Proof.
  intros D L E F. destruct (C92_box _ _ _ _ _ (reached_new _) D E spb o level t ltac:(lia) F) as (H & _ & _). pose proof (pictures_box v). pose proof (C50_box _ _ _ _ _ (reached_new _) D E).
  pose proof (squares_of_nn (box_payloads v)). pose proof (len_nn data). split; [|unfold len; lia]. rewrite slen_app. change (slen newline_str) with 1. unfold slen. fold (len data) in *. nia.
Qed.
Lemma run_sized fs w stdin spb sp args o c t : inputs_ok fs stdin -> parse_args args = Ready o -> main fs w stdin spb sp args = Done (c, t) ->
  t = "" \/ exists box units t1 t2 k1 k2, reads fs stdin o = Has box units /\ t = t1 ++ t2 /\ size_box k1 box t1 /\ size_units k2 units t2 /\
    0 <= k1 <= input_size fs stdin (a_hvcc_file o) /\ 0 <= k2 <= input_size fs stdin (a_infile o).
Proof.
  intros I Ea E. unfold main in E. rewrite Ea in E. cbv zeta in E. pose proof (parse_args_range _ _ Ea) as Rn.
  assert (Eh : a_hvcc_file (imply o) = a_hvcc_file o) by (destruct o; reflexivity). assert (Ei : a_infile (imply o) = a_infile o) by (destruct o; reflexivity).
  assert (En : a_nalu_length_bytes (imply o) = a_nalu_length_bytes o) by (destruct o; reflexivity).
  assert (After : forall box st stdin' k1 t1', store_ok st -> inputs_ok fs stdin' -> len stdin' <= len stdin -> (forall t1, t1' = Done t1 -> size_box k1 box t1) -> 0 <= k1 <= input_size fs stdin (a_hvcc_file o) ->
     match load_units fs stdin' (imply o) st with Bad e => Bad e | Done None => Done (-1, "") | Done (Some units) =>
        if negb w then Done (-1, "") else match t1' with Bad e => Bad e | Done t1 =>
          match match units with None => Done "" | Some (buffer, l) => match a_dumpmode (imply o) with dump_length => csv_dump (a_frames_per_second (imply o)) l | dump_all => dump_units (imply o) buffer sp 0 l end end with
          | Bad e => Bad e | Done t2 => Done (0, t1 ++ t2) end end end = Done (c, t) ->
     t = "" \/ exists units t1 t2 k2, match a_infile o with None => Has box None | Some name => match ReadFile fs stdin' (Some name) [] with (None, _) => Gives_up | (Some bytes, _) =>
        match stream (parsing_options (imply o)) bytes (a_nalu_length_bytes o) st with Bad e => Faults e | Done (bs, _) => Has box (Some (bytes, bs_units bs)) end end end = Has box units /\
        t = t1 ++ t2 /\ size_box k1 box t1 /\ size_units k2 units t2 /\ 0 <= k2 <= input_size fs stdin (a_infile o)).
  { intros box st stdin' k1 t1' S I' Ls Hb K R. unfold load_units in R. rewrite Ei, En in R. destruct (a_infile o) as [name|].
    - destruct (ReadFile fs stdin' (Some name) []) as [[bytes|] rest] eqn:Er; [|left; congruence]. destruct (read_ok _ _ _ _ _ I' Er) as [D _]. destruct (read_size _ _ _ _ _ Er) as [Sz _].
      fold (stream (parsing_options (imply o)) bytes (a_nalu_length_bytes o) st) in R. destruct (stream (parsing_options (imply o)) bytes (a_nalu_length_bytes o) st) as [[bs st']|e] eqn:Es; [|discriminate R].
      destruct w; cbn [negb] in R; [|left; congruence]. destruct t1' as [t1|e]; [|discriminate R].
      match type of R with match ?x with _ => _ end = _ => destruct x as [t2|e] eqn:E2; [|discriminate R] end. right. exists (Some (bytes, bs_units bs)), t1, t2, (len bytes).
      split; [reflexivity|]. split; [congruence|]. split; [apply Hb; reflexivity|]. split; [eapply units_sized; [exact D | eapply stream_is_good; [exact D | exact Rn | exact S | exact Es] | exact E2]|].
      pose proof (size_mono fs stdin stdin' (Some name) Ls). pose proof (len_nn bytes). lia.
    - destruct w; cbn [negb] in R; [|left; congruence]. destruct t1' as [t1|e]; [|discriminate R]. right. exists None, t1, "", 0. split; [reflexivity|]. split; [congruence|]. split; [apply Hb; reflexivity|].
      split; [split; vm_compute; discriminate | cbn [input_size]; lia]. }
  unfold load_box in E. rewrite Eh in E. unfold reads. cbv zeta. destruct (a_hvcc_file o) as [name|].
  - destruct (ReadFile fs stdin (Some name) []) as [[bytes|] rest] eqn:R; [|left; congruence]. destruct (read_ok _ _ _ _ _ I R) as [D I']. destruct (read_size _ _ _ _ _ R) as [Sz Sr].
    pose proof (C42_safe (parsing_options (imply o)) bytes empty_state D (proj1 empty_store_ok)) as G.
    destruct (ParseConfigurationBox (parsing_options (imply o)) bytes empty_state) as [[[b|] st]|e] eqn:Eb; [| left; congruence | discriminate E].
    edestruct (After (Some b) st rest (len bytes)) as [H|(units & t1 & t2 & k2 & H1 & H2 & H3 & H4 & H5)]; [apply G | exact I' | exact Sr | | | exact E | left; exact H |].
    + intros t1 T1. destruct (fdumped _ _) as [t0|e] eqn:E0; [|discriminate T1]. apply done_inj1 in T1. subst t1. eapply box_sized; [exact D | | exact Eb | exact E0]. destruct (a_as_one_line (imply o)); lia.
    + pose proof (len_nn bytes). lia.
    + right. exists (Some b), units, t1, t2, (len bytes), k2. pose proof (len_nn bytes). repeat (split; [assumption|]). split; [lia | exact H5].
  - edestruct (After None empty_state stdin 0 (Done "")) as [H|(units & t1 & t2 & k2 & H1 & H2 & H3 & H4 & H5)]; [apply (proj1 empty_store_ok) | exact I | lia | | | exact E | left; exact H |].
    + intros t1 T1. apply done_inj1 in T1. subst t1. split; vm_compute; discriminate.
    + cbn [input_size]. lia.
    + right. exists None, units, t1, t2, 0, k2. repeat (split; [assumption|]). split; [cbn [input_size]; lia | exact H5].
Qed.

(** Whatever the arguments and the files are, the output is at most quadratic in the size of the input; it is linear if no slice header lists more long-term
    pictures than the standard allows. *)
Theorem C92_tool : forall fs w stdin spb sp args o c t, inputs_ok fs stdin -> parse_args args = Ready o -> main fs w stdin spb sp args = Done (c, t) ->
  let n := input_size fs stdin (a_hvcc_file o) + input_size fs stdin (a_infile o) in
  let size := Z.of_nat (String.length t) in
  size <= 300 + 83204 * n + 30720 * (n * n) /\
  (forall box units, reads fs stdin o = Has box units -> Forall (fun p => long_term_pics p <= 16) (read_payloads box units) -> size <= 300 + 113924 * n).
Proof.
  intros fs w stdin spb sp args o c t I Ea E n size. pose proof (size_nn fs stdin (a_hvcc_file o)) as N1. pose proof (size_nn fs stdin (a_infile o)) as N2.
  destruct (run_sized _ _ _ _ _ _ _ _ _ I Ea E) as [->|(box & units & t1 & t2 & k1 & k2 & Hr & -> & [B1 B2] & [U1 U2] & K1 & K2)].
  - unfold size. change (Z.of_nat (String.length "")) with 0. split; [nia|]. intros. lia.
  - unfold size. fold (slen (t1 ++ t2)). rewrite slen_app. set (p1 := match box with Some v => box_payloads v | None => [] end) in *.
    set (p2 := match units with Some (_, us) => payloads us | None => [] end) in *. pose proof (total_nonneg long_term p1 long_term_nn). pose proof (total_nonneg long_term p2 long_term_nn).
    split.
    + pose proof (squares_any p1). pose proof (squares_any p2). assert (squares p1 <= 256 * (k1 * k1)) by nia. assert (squares p2 <= 256 * (k2 * k2)) by nia.
      assert (k1 * k1 + k2 * k2 <= n * n) by nia. lia.
    + intros box' units' Hr'. rewrite Hr in Hr'. assert (box' = box /\ units' = units) as [-> ->] by (split; congruence). unfold read_payloads. fold p1 p2. intros F. apply Forall_app in F. destruct F as [F1 F2].
      pose proof (squares_small p1 F1). pose proof (squares_small p2 F2). lia.
Qed.

(** * The hypotheses are met: a stream with two long-term pictures in a slice header, the packet and the box of the same units, and the tool *)
Definition text_size (d : txt) (level : Z) : Z := match fdump d level with Done t => Z.of_nat (String.length t) | Bad _ => -1 end.
Definition C92_sets : sps * pps := (PropsSps.C31_sps, PropsSlice.C37_pps).
Definition C92_stream : list Z := PropsStream.sent_annexb true PropsStream.C80_units.
Example C92_case : byte_string C92_stream /\
  match ParseBitstream default_options C92_stream empty_state with
  | Done (bs, _) =>
    let l := map (fun u => (C92_sets, u)) (bs_units bs) in
    squares (payloads (bs_units bs)) = 4 /\ 8000 < text_size (text_bitstream default_options l) (-1) < text_size (text_bitstream default_options l) 3
  | Bad _ => False
  end.
Proof. split; [split; [apply PropsRel.bytes_check|]; vm_compute; reflexivity|]. vm_compute. split; [reflexivity|]. split; reflexivity. Qed.
(** The units of the box are its parameter sets; an aggregation packet (type 48) of two access unit delimiters *)
Example C92_other_cases :
  match ParseConfigurationBox default_options (pack (enc_box PropsRel.C62_header PropsStream.C80_arrays)) empty_state with
  | Done (Some v, _) => (List.length (box_payloads v) = 2)%nat /\ 5000 < text_size (text_box (fun _ _ => C92_sets) default_options v) (-1)
  | _ => False
  end /\
  match ParseRtp [96; 1; 0; 3; 70; 1; 80; 0; 3; 70; 1; 80] empty_state with
  | Done (Some r, _) => (List.length (packet_payloads r) = 2)%nat /\ 300 < text_size (text_rtp (fun _ => C92_sets) default_options r) (-1)
  | _ => False
  end.
Proof. split; vm_compute; (split; [reflexivity|reflexivity]). Qed.
Example C92_tool_case : inputs_ok C71_files [] /\ exists o, parse_args [O_hvcc_file "good.hvcC"; O_infile "aud.h265"] = Ready o /\
  (forall spb sp, exists t, main C71_files true [] spb sp [O_hvcc_file "good.hvcC"; O_infile "aud.h265"] = Done (0, t) /\ t <> "") /\
  input_size C71_files [] (a_hvcc_file o) = 31 /\ input_size C71_files [] (a_infile o) = 6.
Proof.
  split; [exact C71_inputs|]. eexists. split; [vm_compute; reflexivity|]. split; [intros spb sp; apply C71_box_case|]. split; vm_compute; reflexivity.
Qed.
