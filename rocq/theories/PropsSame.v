(** C88: what the tool prints depends on the NAL units only, not on how they are stored. *)
From Coq Require Import ZArith List Bool Lia String Ascii.
From Verif Require Import MBase MBitBuffer Spec BitsFacts Reader ReaderFacts Syntax MCommon CommonFacts MFraming FramingFacts PropsFraming MSyntaxA SpecA FactsA Api MSps MPps MSlice MNal FactsNal PropsNal PropsLocal
  MRtp FactsRtp PropsRtp PropsQp MText SpecText FactsText PropsText MTool SpecTool FactsTool PropsSafe MDump PropsDump FactsTextDump PropsTool PropsToolB PropsToolC PropsToolE.
From Verif Require PropsRel.
Import ListNotations.
Open Scope string_scope.
Open Scope Z_scope.

(** * Specification *)
(** How NAL units are stored in a file: after start codes of four bytes ([true]) or three, or after their lengths in [n] bytes. *)
Inductive container : Type := Start_codes (long : list bool) | Lengths (n : nat).
Definition packed (c : container) (nals : list (list Z)) : list Z :=
  match c with Start_codes long => annexb_stream (combine long nals) | Lengths n => framed n nals end.
(** The value of --nalu-length-bytes for it (-1: not given) *)
Definition length_option (c : container) : Z := match c with Start_codes _ => -1 | Lengths n => Z.of_nat n end.
(** The units can be stored in it. *)
Definition fits (c : container) (nals : list (list Z)) : Prop :=
  match c with
  | Start_codes long => List.length long = List.length nals /\ Forall nal_ok nals /\ Z.of_nat (List.length (packed c nals)) < 2 ^ 64
  | Lengths n => (0 < n)%nat /\ Forall (fun x => x <> [] /\ Z.of_nat (List.length x) < 256 ^ Z.of_nat n) nals /\ Z.of_nat n < 2 ^ 63 /\ Z.of_nat (List.length (packed c nals)) < 2 ^ 63
  end.
(** The files hold the bytes [box] of the hvcC file, if there is one, and [bytes]. *)
Definition given (fs : string -> option file) (stdin : list Z) (o : arg_options) (box : option (list Z)) (bytes : list Z) : Prop :=
  exists rest rest' name, a_infile o = Some name /\ ReadFile fs rest (Some name) [] = (Some bytes, rest') /\
    match a_hvcc_file o with None => box = None /\ rest = stdin | Some b => exists x, box = Some x /\ ReadFile fs stdin (Some b) [] = (Some x, rest) end.
(** The same options but for the names of the files, the size of the length field and the debug level. *)
Definition same_printing (o o' : arg_options) : Prop :=
  a_dumpmode o = a_dumpmode o' /\ a_as_one_line o = a_as_one_line o' /\ a_add_offset o = a_add_offset o' /\ a_add_length o = a_add_length o' /\
  a_add_parsed_length o = a_add_parsed_length o' /\ a_add_checksum o = a_add_checksum o' /\ a_add_resolution o = a_add_resolution o' /\
  a_add_contents o = a_add_contents o' /\ a_frames_per_second o = a_frames_per_second o'.
(** The same bytes once emulation prevention is undone *)
Definition same_rbsp (x y : list Z) : Prop := UnescapeRbsp x = UnescapeRbsp y.

(** * Parsing *)
Lemma combine_snd {A B} (l : list A) : forall (k : list B), List.length l = List.length k -> map snd (combine l k) = k.
Proof. induction l as [|a l IH]; intros [|b k] H; try discriminate H; [reflexivity|]. cbn [combine map snd]. f_equal. apply IH. cbn in H. lia. Qed.
Lemma parse_all_rbsp opts nals nals' : Forall2 same_rbsp nals nals' -> forall st, parse_all opts nals st = parse_all opts nals' st.
Proof.
  induction 1 as [|x y l l' E F IH]; intros st; [reflexivity|]. cbn [parse_all].
  assert (P : ParseNalUnit opts x st = ParseNalUnit opts y st) by (unfold ParseNalUnit, on_data_st; rewrite E; reflexivity). rewrite P.
  destruct (ParseNalUnit opts y st) as [[u st1]|e]; [|reflexivity]. rewrite IH. reflexivity.
Qed.
Lemma packed_fold c nals opts st : fits c nals -> PropsRel.as_fold (stream opts (packed c nals) (length_option c) st) (parse_all opts nals st).
Proof.
  intros F. unfold stream. destruct c as [long|n]; cbn [packed length_option fits] in *.
  - destruct F as (El & F & L). change (-1 <? 0) with true. cbv iota. rewrite <- (combine_snd long nals El) at 2. apply PropsRel.annexb_fold; [exact L|].
    apply Forall_map with (f := snd) (P := nal_ok). rewrite combine_snd by exact El. exact F.
  - destruct F as (Hn & F & Ln & L). destruct (Z.ltb_spec (Z.of_nat n) 0); [lia|]. apply PropsRel.framed_fold; try assumption.
    eapply Forall_impl; [|exact F]. cbn. intros x [A B]. split; [exact B | right; exact A].
Qed.
(** Which units are found does not depend on the container. *)
Lemma packed_same c c' nals nals' opts st : fits c nals -> fits c' nals' -> Forall2 same_rbsp nals nals' ->
  PropsRel.same_stream (stream opts (packed c nals) (length_option c) st) (stream opts (packed c' nals') (length_option c') st).
Proof. intros F F' R. eapply PropsRel.as_fold_same; [apply packed_fold, F|]. rewrite (parse_all_rbsp opts nals nals' R). apply packed_fold, F'. Qed.

(** * Printing *)
Lemma text_nal_contents sp o u v : add_offset o = false -> (add_length o = true -> nu_length u = nu_length v) -> PropsRel.contents u = PropsRel.contents v -> text_nal sp o u = text_nal sp o v.
Proof.
  intros O L E. unfold PropsRel.contents in E. destruct u as [a1 b1 c1 d1 e1 f1], v as [a2 b2 c2 d2 e2 f2]. cbn [nu_header nu_payload nu_parsed_length nu_checksum nu_length] in *.
  assert (c1 = c2 /\ d1 = d2 /\ e1 = e2 /\ f1 = f2) as (<- & <- & <- & <-) by (repeat split; congruence).
  unfold text_nal. cbn [nu_offset nu_header nu_payload nu_parsed_length nu_checksum nu_length]. rewrite O. destruct (add_length o); [rewrite L by reflexivity; reflexivity | reflexivity].
Qed.
Lemma dump_units_same o o' buf buf' sp sp' us : forall us' i i', parsing_options o = parsing_options o' -> a_as_one_line o = a_as_one_line o' -> a_add_contents o = false -> a_add_contents o' = false ->
  a_add_offset o = false -> (a_add_length o = true -> map nu_length us = map nu_length us') -> map PropsRel.contents us = map PropsRel.contents us' ->
  (forall k, (k < List.length us)%nat -> sp (i + k)%nat = sp' (i' + k)%nat) -> dump_units o buf sp i us = dump_units o' buf' sp' i' us'.
Proof.
  induction us as [|u us IH]; intros [|u' us'] i i' P O C C' F L E S; try discriminate E; [reflexivity|]. cbn [dump_units].
  assert (E1 : PropsRel.contents u = PropsRel.contents u') by (cbn [map] in E; congruence). assert (E2 : map PropsRel.contents us = map PropsRel.contents us') by (cbn [map] in E; congruence).
  assert (D : dump_unit o buf (sp i) u = dump_unit o' buf' (sp' i') u').
  { unfold dump_unit. pose proof (S 0%nat ltac:(cbn [List.length]; lia)) as S0. rewrite !Nat.add_0_r in S0. rewrite <- S0, <- P, <- O, C, C'. 
    rewrite (text_nal_contents (sp i) (parsing_options o) u u'); [reflexivity | exact F | | exact E1]. intros A. specialize (L A). cbn [map] in L. congruence. }
  rewrite D. destruct (dump_unit o' buf' (sp' i') u'); [|reflexivity].
  rewrite (IH us' (Datatypes.S i) (Datatypes.S i') P O C C' F); [reflexivity | | exact E2 | ].
  - intros A. specialize (L A). cbn [map] in L. congruence.
  - intros k Hk. specialize (S (Datatypes.S k) ltac:(cbn [List.length]; lia)). rewrite !Nat.add_succ_r in S. exact S.
Qed.

Lemma csv_units_same fps us : forall us' s, map PropsRel.contents us = map PropsRel.contents us' -> map nu_length us = map nu_length us' -> csv_units fps s us = csv_units fps s us'.
Proof.
  induction us as [|u us IH]; intros [|u' us'] s E L; try discriminate E; [reflexivity|]. cbn [csv_units].
  assert (E1 : PropsRel.contents u = PropsRel.contents u') by (cbn [map] in E; congruence). assert (E2 : map PropsRel.contents us = map PropsRel.contents us') by (cbn [map] in E; congruence).
  assert (L1 : nu_length u = nu_length u') by (cbn [map] in L; congruence). assert (L2 : map nu_length us = map nu_length us') by (cbn [map] in L; congruence).
  assert (H : nu_header u = nu_header u' /\ nu_payload u = nu_payload u') by (unfold PropsRel.contents in E1; split; congruence). destruct H as [H1 H2].
  assert (D : csv_unit fps s u = csv_unit fps s u').
  { unfold csv_unit, nal_row. rewrite H1, H2, L1. reflexivity. }
  rewrite D. destruct (csv_unit fps s u') as [[t s1]|e]; [|reflexivity]. rewrite (IH us' s1 E2 L2). reflexivity.
Qed.

(** * The lengths reported for units behind start codes are their own *)
Fixpoint sizes (nals : list (list Z)) (us : list (option nal_unit)) : list Z :=
  match nals, us with
  | x :: nals', o :: us' => ((match o with Some _ => [Z.of_nat (List.length x)] | None => [] end) ++ sizes nals' us')%list
  | _, _ => []
  end.
Lemma placed_sizes data ixs : Forall (in_bounds data) ixs -> forall us, map nu_length (placed ixs us) = sizes (map (payload data) ixs) us.
Proof.
  induction 1 as [|ix ixs (B1 & B2 & B3) F IH]; intros [|o us]; try reflexivity. cbn [placed map sizes]. rewrite map_app. f_equal; [|apply IH].
  destruct o; [|reflexivity]. cbn [place map]. f_equal. unfold set_range. cbn [nu_length]. unfold payload. rewrite firstn_length, skipn_length. lia.
Qed.
Lemma start_codes_sizes long nals opts st bs st' us : fits (Start_codes long) nals -> stream opts (packed (Start_codes long) nals) (-1) st = Done (bs, st') -> parse_all opts nals st = Done (us, st') ->
  map nu_length (bs_units bs) = sizes nals us.
Proof.
  intros (El & F & L) P A. unfold stream in P. change (-1 <? 0) with true in P. cbv iota in P. rewrite ParseBitstream_spec in P by exact L.
  cbn [packed] in P, L. assert (Fs : Forall (fun u => nal_ok (snd u)) (combine long nals)) by (apply Forall_map with (f := snd) (P := nal_ok); rewrite combine_snd by exact El; exact F).
  destruct (C16_round_trip (combine long nals) L Fs) as (l & E1 & E2). rewrite (C15_exact _ L) in E1. apply done_inj1 in E1. subst l. rewrite combine_snd in E2 by exact El.
  rewrite E2, A in P. assert (Eb : bs = mkBS default_options (placed (annexb_units (annexb_stream (combine long nals))) us)) by congruence. subst bs. cbn [bs_units].
  rewrite (placed_sizes (annexb_stream (combine long nals))) by (apply annexb_in_bounds; exact L). rewrite E2. reflexivity.
Qed.

(** * The tool as a function of what its files hold *)
Definition box_of (opts : options) (box : option (list Z)) : outcome (option (option hvcc * state)) :=
  match box with
  | None => Done (Some (None, empty_state))
  | Some x => match ParseConfigurationBox opts x empty_state with Bad e => Bad e | Done (None, _) => Done None | Done (Some b, st) => Done (Some (Some b, st)) end
  end.
Definition box_text (o : arg_options) (spb : nat -> nat -> sps * pps) (b : option hvcc) : outcome string :=
  match b with
  | None => Done ""
  | Some b => match fdumped (text_box spb (parsing_options o) b) (if a_as_one_line o then -1 else 0) with Bad e => Bad e | Done t => Done (t ++ newline_str) end
  end.
Definition units_text (o : arg_options) (bytes : list Z) (sp : nat -> sps * pps) (us : list nal_unit) : outcome string :=
  match a_dumpmode o with dump_length => csv_dump (a_frames_per_second o) us | dump_all => dump_units o bytes sp 0 us end.
Lemma main_given args o fs w stdin spb sp box bytes : parse_args args = Ready o -> given fs stdin o box bytes -> main fs w stdin spb sp args =
  match box_of (parsing_options (imply o)) box with
  | Bad e => Bad e
  | Done None => Done (-1, "")
  | Done (Some (b, st)) =>
    match stream (parsing_options (imply o)) bytes (a_nalu_length_bytes o) st with
    | Bad e => Bad e
    | Done (bs, _) =>
      if negb w then Done (-1, "") else
      match box_text (imply o) spb b with
      | Bad e => Bad e
      | Done t1 => match units_text (imply o) bytes sp (bs_units bs) with Bad e => Bad e | Done t2 => Done (0, t1 ++ t2) end
      end
    end
  end.
Proof.
  intros A (rest & rest' & name & I & R & B). unfold main. rewrite A. cbv zeta. set (oi := imply o).
  assert (Fi : a_hvcc_file oi = a_hvcc_file o /\ a_infile oi = a_infile o /\ a_nalu_length_bytes oi = a_nalu_length_bytes o) by (unfold oi; destruct o; repeat split; reflexivity).
  destruct Fi as (F1 & F2 & F3). unfold load_box, load_units. rewrite F1, F2, F3, I. unfold stream, box_of, box_text, units_text.
  destruct (a_hvcc_file o) as [b|].
  - destruct B as (x & -> & Rb). rewrite Rb. destruct (ParseConfigurationBox (parsing_options oi) x empty_state) as [[[v|] st]|e]; [|reflexivity|reflexivity].
    rewrite R. destruct (if a_nalu_length_bytes o <? 0 then _ else _) as [[bs st2]|e]; reflexivity.
  - destruct B as [-> ->]. rewrite R. destruct (if a_nalu_length_bytes o <? 0 then _ else _) as [[bs st2]|e]; reflexivity.
Qed.

Lemma same_imply o o' : same_printing o o' -> parsing_options (imply o) = parsing_options (imply o') /\ a_as_one_line (imply o) = a_as_one_line (imply o') /\ a_dumpmode (imply o) = a_dumpmode (imply o') /\
  a_frames_per_second (imply o) = a_frames_per_second (imply o') /\ a_add_contents (imply o) = a_add_contents o /\ a_add_contents (imply o') = a_add_contents o' /\ a_dumpmode (imply o) = a_dumpmode o /\
  a_add_offset (imply o) = a_add_contents o || a_add_offset o /\ a_add_length (imply o) = a_add_contents o || match a_dumpmode o with dump_length => true | dump_all => false end || a_add_length o.
Proof.
  intros (H1 & H2 & H3 & H4 & H5 & H6 & H7 & H8 & H9). destruct o, o'. cbn in *. subst. repeat split; reflexivity.
Qed.
Lemma box_text_same o o' spb b : parsing_options o = parsing_options o' -> a_as_one_line o = a_as_one_line o' -> box_text o spb b = box_text o' spb b.
Proof. intros E1 E2. unfold box_text. rewrite E1, E2. reflexivity. Qed.

(** * C88 *)
(** The same units, up to the way emulation prevention is done, in whatever containers: the tool prints the same text, as long as it is not asked for places and lengths. *)
Theorem C88_containers : forall args args' o o' c c' nals nals' fs fs' w stdin stdin' spb sp box, parse_args args = Ready o -> parse_args args' = Ready o' -> same_printing o o' ->
  a_dumpmode o = dump_all -> a_add_offset o = false -> a_add_length o = false -> a_add_contents o = false ->
  a_nalu_length_bytes o = length_option c -> a_nalu_length_bytes o' = length_option c' -> fits c nals -> fits c' nals' -> Forall2 same_rbsp nals nals' ->
  given fs stdin o box (packed c nals) -> given fs' stdin' o' box (packed c' nals') ->
  main fs w stdin spb sp args = main fs' w stdin' spb sp args'.
Proof.
  intros args args' o o' c c' nals nals' fs fs' w stdin stdin' spb sp box A A' S D Of Ln Co N N' F F' R G G'.
  rewrite (main_given args o fs w stdin spb sp box _ A G), (main_given args' o' fs' w stdin' spb sp box _ A' G'), N, N'.
  destruct (same_imply o o' S) as (P & O1 & M & Fp & C1 & C2 & D1 & O2 & L2). rewrite Co, Of in O2. rewrite Co, D, Ln in L2. cbn [orb] in O2, L2.
  assert (Co' : a_add_contents o' = false) by (destruct S as (_ & _ & _ & _ & _ & _ & _ & S8 & _); congruence).
  rewrite <- P. destruct (box_of (parsing_options (imply o)) box) as [[[b st]|]|e]; [|reflexivity|reflexivity].
  pose proof (packed_same c c' nals nals' (parsing_options (imply o)) st F F' R) as Q. unfold PropsRel.same_stream in Q.
  destruct (stream _ (packed c nals) _ st) as [[bs s1]|e], (stream _ (packed c' nals') _ st) as [[bs' s1']|e']; try contradiction Q; [|congruence]. destruct Q as [Q _].
  rewrite (box_text_same (imply o) (imply o') spb b P O1). unfold units_text. rewrite <- M, D1, D.
  rewrite (dump_units_same (imply o) (imply o') (packed c nals) (packed c' nals') sp sp (bs_units bs) (bs_units bs') 0 0 P O1); [reflexivity | congruence | congruence | exact O2 | congruence | exact Q | reflexivity].
Qed.
(** The same units behind start codes of other lengths: only the offsets change.  With --dump-length the table is the same. *)
Theorem C88_start_codes : forall args args' o o' long long' nals fs fs' w stdin stdin' spb sp box, parse_args args = Ready o -> parse_args args' = Ready o' -> same_printing o o' ->
  a_add_offset o = false -> a_add_contents o = false -> a_nalu_length_bytes o = -1 -> a_nalu_length_bytes o' = -1 -> fits (Start_codes long) nals -> fits (Start_codes long') nals ->
  given fs stdin o box (packed (Start_codes long) nals) -> given fs' stdin' o' box (packed (Start_codes long') nals) ->
  main fs w stdin spb sp args = main fs' w stdin' spb sp args'.
Proof.
  intros args args' o o' long long' nals fs fs' w stdin stdin' spb sp box A A' S Of Co N N' F F' G G'.
  rewrite (main_given args o fs w stdin spb sp box _ A G), (main_given args' o' fs' w stdin' spb sp box _ A' G'), N, N'.
  destruct (same_imply o o' S) as (P & O1 & M & Fp & C1 & C2 & D1 & O2 & L2). rewrite Co, Of in O2. cbn [orb] in O2.
  assert (Co' : a_add_contents o' = false) by (destruct S as (_ & _ & _ & _ & _ & _ & _ & S8 & _); congruence).
  rewrite <- P. destruct (box_of (parsing_options (imply o)) box) as [[[b st]|]|e]; [|reflexivity|reflexivity].
  pose proof (packed_fold (Start_codes long) nals (parsing_options (imply o)) st F) as Q. pose proof (packed_fold (Start_codes long') nals (parsing_options (imply o)) st F') as Q'. cbn [length_option] in Q, Q'.
  unfold PropsRel.as_fold in Q, Q'.
  destruct (stream _ (packed (Start_codes long) nals) _ st) as [[bs s1]|e] eqn:E, (stream _ (packed (Start_codes long') nals) _ st) as [[bs' s1']|e'] eqn:E',
    (parse_all (parsing_options (imply o)) nals st) as [[us s2]|e2] eqn:E2; try contradiction Q; try contradiction Q'; [|congruence].
  destruct Q as [Q ->], Q' as [Q' ->]. assert (Qc : map PropsRel.contents (bs_units bs) = map PropsRel.contents (bs_units bs')) by congruence.
  assert (Ql : map nu_length (bs_units bs) = map nu_length (bs_units bs')) by (rewrite (start_codes_sizes _ _ _ _ _ _ _ F E E2), (start_codes_sizes _ _ _ _ _ _ _ F' E' E2); reflexivity).
  rewrite (box_text_same (imply o) (imply o') spb b P O1). unfold units_text. rewrite <- M, D1, <- Fp. destruct (a_dumpmode o).
  - rewrite (dump_units_same (imply o) (imply o') (packed (Start_codes long) nals) (packed (Start_codes long') nals) sp sp (bs_units bs) (bs_units bs') 0 0 P O1);
      [reflexivity | congruence | congruence | exact O2 | intros _; exact Ql | exact Qc | reflexivity].
  - unfold csv_dump. rewrite (csv_units_same (a_frames_per_second (imply o)) (bs_units bs) (bs_units bs') _ Qc Ql). reflexivity.
Qed.

(** * Parameter sets in a box or in the stream *)
Lemma lines_some s : exists l ls, lines s = (l :: ls)%list.
Proof. induction s as [|c r (l & ls & E)]; cbn [lines]; [eauto|]. destruct (is_newline c); [eauto|]. rewrite E. eauto. Qed.
Lemma lines_after a : forall ts b, lines a = (ts ++ [""])%list -> lines (a ++ b) = (ts ++ lines b)%list.
Proof.
  induction a as [|c r IH]; intros ts b E; cbn [lines String.append] in *.
  - destruct ts as [|x ts]; [reflexivity|]. destruct ts; discriminate E.
  - destruct (lines_some r) as (l & ls & Er). rewrite Er in E. destruct (is_newline c).
    + destruct ts as [|x ts]; [discriminate E|]. cbn [List.app] in *. assert (x = "") by congruence. assert (Q : lines r = (ts ++ [""])%list) by congruence. subst x. rewrite (IH ts b Q). reflexivity.
    + destruct ts as [|x ts]; [discriminate E|]. cbn [List.app] in *. assert (x = String c l) by congruence. assert (Q : ls = (ts ++ [""])%list) by congruence. subst x ls.
      rewrite (IH (l :: ts)%list b Er). reflexivity.
Qed.
Lemma dump_units_app o buf sp a : forall b i t, dump_units o buf sp i (a ++ b)%list = Done t -> exists ta tb, dump_units o buf sp i a = Done ta /\ dump_units o buf sp (i + List.length a) b = Done tb /\ t = ta ++ tb.
Proof.
  induction a as [|u a IH]; intros b i t E; cbn [List.app dump_units List.length] in *.
  - exists "", t. rewrite Nat.add_0_r. auto.
  - destruct (dump_unit o buf (sp i) u) as [t1|e]; [|discriminate E]. destruct (dump_units o buf sp (S i) (a ++ b)%list) as [t2|e] eqn:E2; [|discriminate E]. apply done_inj1 in E.
    destruct (IH b (S i) t2 E2) as (ta & tb & Ha & Hb & ->). rewrite Ha. exists (t1 ++ ta), tb. split; [reflexivity|]. split; [rewrite <- Hb; f_equal; lia|]. subst t. symmetry. apply sapp_assoc.
Qed.
(** The parameter sets (or any other units) at the front of the stream, or in the hvcC file: after the lines of these units, or the line of the box, the output is the same.
    [sp] and [sp'] are the parameter sets that the slices were parsed with; they are those of the box and the stream in either case. *)
Theorem C88_box : forall args args' o o' h arrs data rest us more fs fs' stdin stdin' w w' spb spb' sp sp' bs0 st0 t t',
  parse_args args = Ready o -> parse_args args' = Ready o' -> same_printing o o' -> a_dumpmode o = dump_all -> a_as_one_line o = true ->
  a_add_offset o = false -> a_add_length o = false -> a_add_contents o = false -> a_nalu_length_bytes o = -1 -> a_nalu_length_bytes o' = -1 ->
  byte_string data -> box_ok h arrs -> bits_of data = (enc_box h arrs ++ rest)%list -> map snd us = flat_map ba_nals arrs ->
  Forall (fun u => nal_ok (snd u)) (us ++ more)%list -> Z.of_nat (List.length (annexb_stream (us ++ more)%list)) < 2 ^ 64 ->
  given fs stdin o None (annexb_stream (us ++ more)%list) -> given fs' stdin' o' (Some data) (annexb_stream more) ->
  ParseBitstream (parsing_options o) (annexb_stream us) empty_state = Done (bs0, st0) -> (forall k, sp (List.length (bs_units bs0) + k)%nat = sp' k) ->
  main fs w stdin spb sp args = Done (0, t) -> main fs' w' stdin' spb' sp' args' = Done (0, t') ->
  skipn (List.length (bs_units bs0)) (lines t) = skipn 1 (lines t').
Proof.
  intros args args' o o' h arrs data rest us more fs fs' stdin stdin' w w' spb spb' sp sp' bs0 st0 t t' A A' S D One Of Ln Co N N' Bd Bo Eb En Fn L G G' P0 Sp M M'.
  rewrite (main_given args o fs w stdin spb sp None _ A G) in M. rewrite (main_given args' o' fs' w' stdin' spb' sp' (Some data) _ A' G') in M'. rewrite N in M. rewrite N' in M'.
  destruct (same_imply o o' S) as (P & O1 & Md & Fp & C1 & C2 & D1 & O2 & L2). rewrite Co, Of in O2. rewrite Co, D, Ln in L2. cbn [orb] in O2, L2. rewrite <- P in M'.
  assert (Co' : a_add_contents o' = false) by (destruct S as (_ & _ & _ & _ & _ & _ & _ & S8 & _); congruence).
  assert (Po : parsing_options (imply o) = parsing_options o) by (clear - Co D; destruct o; cbn in *; subst; reflexivity).
  cbn [box_of] in M, M'. unfold stream in M, M'. change (-1 <? 0) with true in M, M'. cbv iota in M, M'.
  assert (F0 : Forall (fun u => nal_ok (snd u)) us) by (apply Forall_app in Fn; apply Fn).
  assert (L0 : Z.of_nat (List.length (annexb_stream us)) < 2 ^ 64) by (rewrite PropsRel.annexb_stream_app, app_length in L; lia).
  pose proof (PropsRel.C62_in_band (parsing_options (imply o)) data empty_state h arrs rest us Bd Bo Eb En F0 L0) as Q1. rewrite Po, P0 in Q1. rewrite Po in M, M'.
  destruct (ParseConfigurationBox (parsing_options o) data empty_state) as [[[box|] s1]|e] eqn:Ebox; try contradiction Q1. destruct Q1 as [Q1 _].
  pose proof (PropsRel.C62_then_stream (parsing_options o) data empty_state h arrs rest us more box s1 Bd Bo Eb En Fn L Ebox) as Q2.
  destruct (ParseBitstream (parsing_options o) (annexb_stream more) s1) as [[b1 t1]|e]; [|discriminate M'].
  destruct (ParseBitstream (parsing_options o) (annexb_stream (us ++ more)%list) empty_state) as [[b2 t2]|e]; [|contradiction Q2]. destruct Q2 as [Q2 _]. rewrite Q1 in Q2.
  destruct w, w'; cbn [negb] in M, M'; try discriminate M; try discriminate M'.
  cbn [box_text] in M. unfold units_text in M, M'. rewrite <- Md in M'. rewrite D1, D in M, M'.
  set (n := List.length (bs_units bs0)) in *.
  assert (Sl : bs_units b2 = (firstn n (bs_units b2) ++ skipn n (bs_units b2))%list) by (symmetry; apply firstn_skipn).
  assert (L1 : List.length (firstn n (bs_units b2)) = n).
  { rewrite firstn_length. pose proof (f_equal (@List.length _) Q2) as X. rewrite app_length, !map_length in X. fold n in X. lia. }
  assert (Ct : map PropsRel.contents (skipn n (bs_units b2)) = map PropsRel.contents (bs_units b1)).
  { apply (f_equal (skipn n)) in Q2. rewrite skipn_map, skipn_app, map_length in Q2. fold n in Q2. rewrite Nat.sub_diag in Q2. cbn [skipn] in Q2.
    rewrite (skipn_all2 (map PropsRel.contents (bs_units bs0))) in Q2 by (rewrite map_length; unfold n; lia). exact Q2. }
  rewrite Sl in M. destruct (dump_units (imply o) _ sp 0 _) as [tx|e] eqn:Du; [|discriminate M]. apply dump_units_app in Du. destruct Du as (ta & tb & Ha & Hb & ->).
  assert (T : t = ta ++ tb) by (change ("" ++ ?z) with z in M; congruence).
  rewrite L1 in Hb. cbn [Nat.add] in Hb. destruct (dump_units_lines (imply o) _ sp _ ltac:(clear - One; destruct o; exact One) 0 ta Ha) as (ts & Lts & Ea & _). rewrite L1 in Lts.
  subst t. rewrite (lines_after ta ts tb Ea). replace n with (List.length ts) at 1. rewrite skipn_app, skipn_all, Nat.sub_diag. cbn [List.app skipn].
  unfold box_text in M'.
  destruct (fdumped (text_box spb' (parsing_options (imply o')) box) _) as [tbox|e] eqn:Fb; [|discriminate M'].
  destruct (dump_units (imply o') _ sp' 0 (bs_units b1)) as [ty|e] eqn:Dy; [|discriminate M']. assert (T' : t' = (tbox ++ newline_str) ++ ty) by congruence. subst t'.
  rewrite (dump_units_same (imply o) (imply o') (annexb_stream (us ++ more)%list) (annexb_stream more) sp sp' (skipn n (bs_units b2)) (bs_units b1) n 0 P O1) in Hb;
    [ | congruence | congruence | exact O2 | congruence | exact Ct | intros k _; apply Sp].
  assert (ty = tb) by congruence. subst ty.
  assert (Pl : plain tbox = true).
  { rewrite <- O1 in Fb. replace (a_as_one_line (imply o)) with true in Fb by (clear - One; destruct o; symmetry; exact One). unfold fdumped in Fb.
    destruct (text_box spb' (parsing_options (imply o')) box) as [cb|e] eqn:Tb; [|discriminate Fb]. apply done_inj1 in Fb. subst tbox.
    assert (F : fdump (text_box spb' (parsing_options (imply o')) box) (-1) = Done (run (-1) [] cb)) by (unfold fdump; rewrite Tb; reflexivity).
    destruct (C68_layout (T_box spb' (parsing_options (imply o')) box) (-1) _ _ ltac:(lia) F F) as (X & _). apply one_line_plain, X. }
  rewrite sapp_assoc. unfold newline_str. cbn [String.append]. rewrite (lines_cut tbox tb Pl). reflexivity.
Qed.

(** * Examples *)
(** A stream with parameter sets and slices, and a unit that is stored with and without a byte against emulation of start codes. *)
Definition C88_nals (spare : bool) : list (list Z) := (map snd C24_nals ++ [if spare then [0x52; 1; 0; 0; 3; 4] else [0x52; 1; 0; 0; 4]])%list.
Definition C88_codes : container := Start_codes [false; true; false; true; false; true; true].
Definition C88_words (r : outcome (Z * string)) : option (list string) := match r return option (list string) with Done (c, t) => if c =? 0 then Some (words t) else None | Bad _ => None end.
Lemma codes_fit spare : fits C88_codes (C88_nals spare).
Proof.
  split; [reflexivity|]. split; [|destruct spare; vm_compute; reflexivity]. apply Forall_app. split.
  - apply Forall_map. eapply Forall_impl; [|exact PropsRel.C24_nals_ok]. cbn. tauto.
  - constructor; [|constructor]. destruct spare; (split; [discriminate|]; split; [cbn; lia | intros pre post E; repeat (destruct pre as [|? pre]; cbn in E; [discriminate|injection E as _ E]); destruct pre; discriminate]).
Qed.
Lemma lengths_fit spare : fits (Lengths 2) (C88_nals spare).
Proof.
  split; [lia|]. split; [|split; [reflexivity | destruct spare; vm_compute; reflexivity]]. change (256 ^ Z.of_nat 2) with 65536.
  assert (B : forallb (fun x => negb (Nat.eqb (List.length x) 0) && (Z.of_nat (List.length x) <? 65536)) (C88_nals spare) = true) by (destruct spare; vm_compute; reflexivity).
  rewrite forallb_forall in B. apply Forall_forall. intros x I. specialize (B x I). apply andb_prop in B. destruct B as [B1 B2]. split; [intros ->; discriminate B1 | apply Z.ltb_lt, B2].
Qed.
Definition C88_args : list arg := [O_infile "in"; O_add_checksum true; O_add_parsed_length true].
Definition C88_args2 : list arg := [O_infile "in"; O_nalu_length_bytes "2"; O_add_checksum true; O_add_parsed_length true].
Lemma given_in data o : a_hvcc_file o = None -> a_infile o = Some "in" -> (0 <? Z.of_nat (List.length data)) = true -> given (tool_fs data) [] o None data.
Proof.
  intros H I L. exists [], [], "in". split; [exact I|]. split; [|rewrite H; split; reflexivity]. unfold ReadFile, tool_fs. cbn [String.eqb Ascii.eqb Bool.eqb file_size file_bytes].
  destruct (Z.leb_spec (Z.of_nat (List.length data)) 0); [apply Z.ltb_lt in L; lia|]. rewrite Nat2Z.id, firstn_all, Z.eqb_refl. reflexivity.
Qed.
(** Start codes and no spare byte, or lengths of two bytes and the spare byte: the hypotheses are met, the text is the same and not empty. *)
Example C88_case : exists o o', parse_args C88_args = Ready o /\ parse_args C88_args2 = Ready o' /\ same_printing o o' /\ a_dumpmode o = dump_all /\ a_add_offset o = false /\ a_add_length o = false /\
  a_add_contents o = false /\ a_nalu_length_bytes o = length_option C88_codes /\ a_nalu_length_bytes o' = length_option (Lengths 2) /\ fits C88_codes (C88_nals false) /\ fits (Lengths 2) (C88_nals true) /\
  Forall2 same_rbsp (C88_nals false) (C88_nals true) /\ C88_nals false <> C88_nals true /\
  given (tool_fs (packed C88_codes (C88_nals false))) [] o None (packed C88_codes (C88_nals false)) /\ given (tool_fs (packed (Lengths 2) (C88_nals true))) [] o' None (packed (Lengths 2) (C88_nals true)) /\
  match C88_words (run_on (packed C88_codes (C88_nals false)) C88_args) with Some ws => Nat.ltb 500 (List.length ws) | None => false end = true.
Proof.
  eexists; eexists. split; [reflexivity|]. split; [reflexivity|]. split; [repeat split; reflexivity|]. do 6 (split; [reflexivity|]).
  split; [apply codes_fit|]. split; [apply lengths_fit|]. split.
  { unfold C88_nals. apply Forall2_app; [|constructor; [reflexivity | constructor]]. induction (map snd C24_nals); constructor; [reflexivity | assumption]. }
  split; [intros E; apply (f_equal (fun l => List.length (last l []))) in E; vm_compute in E; discriminate E|].
  split; [apply given_in; [reflexivity | reflexivity | vm_compute; reflexivity]|]. split; [apply given_in; [reflexivity | reflexivity | vm_compute; reflexivity]|]. vm_compute. reflexivity.
Qed.
(** With --add-length the container shows: behind lengths of two bytes every unit is said to have length 2 (C19). *)
Theorem C88_lengths_refuted : exists t t', run_on (packed C88_codes (C88_nals false)) (O_add_length true :: C88_args) = Done (0, t) /\
  run_on (packed (Lengths 2) (C88_nals false)) (O_add_length true :: C88_args2) = Done (0, t') /\ t <> t'.
Proof.
  destruct (run_on (packed C88_codes (C88_nals false)) (O_add_length true :: C88_args)) as [[c t]|e] eqn:E.
  2: exfalso; assert (X : match run_on (packed C88_codes (C88_nals false)) (O_add_length true :: C88_args) with Bad _ => false | Done _ => true end = true) by (vm_compute; reflexivity); rewrite E in X; discriminate X.
  destruct (run_on (packed (Lengths 2) (C88_nals false)) (O_add_length true :: C88_args2)) as [[c' t']|e] eqn:E'.
  2: exfalso; assert (X : match run_on (packed (Lengths 2) (C88_nals false)) (O_add_length true :: C88_args2) with Bad _ => false | Done _ => true end = true) by (vm_compute; reflexivity); rewrite E' in X; discriminate X.
  exists t, t'.
  assert (X : match run_on (packed C88_codes (C88_nals false)) (O_add_length true :: C88_args), run_on (packed (Lengths 2) (C88_nals false)) (O_add_length true :: C88_args2) with
    | Done (c, t), Done (c', t') => (c =? 0) && (c' =? 0) && negb (String.eqb t t') | _, _ => false end = true) by (vm_compute; reflexivity).
  rewrite E, E' in X. apply andb_prop in X. destruct X as [X X3]. apply andb_prop in X. destruct X as [X1 X2]. apply Z.eqb_eq in X1, X2. subst c c'. split; [reflexivity|]. split; [reflexivity|].
  intros ->. rewrite String.eqb_refl in X3. discriminate X3.
Qed.
(** SPS and PPS in the hvcC file, or at the front of the stream *)
Definition C88_two (box bytes : list Z) (name : string) : option file :=
  if String.eqb name "box" then Some (mkFile (Z.of_nat (List.length box)) box) else tool_fs bytes name.
Definition C88_data : list Z := pack (enc_box PropsRel.C62_header PropsRel.C62_arrays).
Definition C88_sets : list (bool * list Z) := [(true, PropsRel.C59_sps); (false, PropsRel.C59_pps)].
Definition C88_more : list (bool * list Z) := [(true, PropsRel.C59_slice)].
Lemma given_both box data o : a_hvcc_file o = Some "box" -> a_infile o = Some "in" -> (0 <? Z.of_nat (List.length box)) = true -> (0 <? Z.of_nat (List.length data)) = true -> given (C88_two box data) [] o (Some box) data.
Proof.
  intros H I Lb L. exists [], [], "in". split; [exact I|]. split.
  - unfold ReadFile, C88_two, tool_fs. cbn [String.eqb Ascii.eqb Bool.eqb file_size file_bytes].
    destruct (Z.leb_spec (Z.of_nat (List.length data)) 0); [apply Z.ltb_lt in L; lia|]. rewrite Nat2Z.id, firstn_all, Z.eqb_refl. reflexivity.
  - rewrite H. exists box. split; [reflexivity|]. unfold ReadFile, C88_two. cbn [String.eqb Ascii.eqb Bool.eqb file_size file_bytes].
    destruct (Z.leb_spec (Z.of_nat (List.length box)) 0); [apply Z.ltb_lt in Lb; lia|]. rewrite Nat2Z.id, firstn_all, Z.eqb_refl. reflexivity.
Qed.
Definition C88_band : outcome (Z * string) := run_on (annexb_stream (C88_sets ++ C88_more)%list) [O_infile "in"].
Definition C88_boxed : outcome (Z * string) := main (C88_two C88_data (annexb_stream C88_more)) true [] (fun _ _ => no_sp) (fun _ => no_sp) [O_hvcc_file "box"; O_infile "in"].
Definition C88_lines (n : nat) (r : outcome (Z * string)) : list string := match r return list string with Done (c, t) => if c =? 0 then skipn n (lines t) else [] | Bad _ => [] end.
Example C88_box_case : exists o o', parse_args [O_infile "in"] = Ready o /\ parse_args [O_hvcc_file "box"; O_infile "in"] = Ready o' /\ same_printing o o' /\ a_dumpmode o = dump_all /\
  a_as_one_line o = true /\ a_add_offset o = false /\ a_add_length o = false /\ a_add_contents o = false /\ a_nalu_length_bytes o = -1 /\ a_nalu_length_bytes o' = -1 /\
  bits_of C88_data = (enc_box PropsRel.C62_header PropsRel.C62_arrays ++ [])%list /\ map snd C88_sets = flat_map ba_nals PropsRel.C62_arrays /\ Forall (fun u => nal_ok (snd u)) (C88_sets ++ C88_more)%list /\
  Z.of_nat (List.length (annexb_stream (C88_sets ++ C88_more)%list)) < 2 ^ 64 /\ given (tool_fs (annexb_stream (C88_sets ++ C88_more)%list)) [] o None (annexb_stream (C88_sets ++ C88_more)%list) /\
  given (C88_two C88_data (annexb_stream C88_more)) [] o' (Some C88_data) (annexb_stream C88_more) /\
  C88_lines 2 C88_band = C88_lines 1 C88_boxed /\ List.length (C88_lines 2 C88_band) = 2%nat.
Proof.
  eexists; eexists. split; [reflexivity|]. split; [reflexivity|]. split; [repeat split; reflexivity|]. do 7 (split; [reflexivity|]). split; [vm_compute; reflexivity|]. split; [reflexivity|]. split.
  { destruct PropsRel.C59_units_ok as (H1 & H2 & H3). unfold C88_sets, C88_more. cbn [List.app]. apply Forall_cons; [exact H1|]. apply Forall_cons; [exact H2|]. apply Forall_cons; [exact H3|]. apply Forall_nil. }
  split; [vm_compute; reflexivity|]. split; [apply given_in; [reflexivity | reflexivity | vm_compute; reflexivity]|].
  split; [apply given_both; [reflexivity | reflexivity | vm_compute; reflexivity | vm_compute; reflexivity]|]. split; vm_compute; reflexivity.
Qed.
