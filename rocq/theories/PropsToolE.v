(** C71, C51: the whole tool, and streams with any size of the length field. *)
From Coq Require Import ZArith List Bool Lia String Ascii.
From Verif Require PropsTextSafe.
From Verif Require Import MBase MBitBuffer Spec BitsFacts Reader ReaderFacts Syntax MCommon CommonFacts MFraming FramingFacts PropsFraming MSyntaxA SpecA FactsA Api MSps MPps MSlice MNal FactsNal PropsNal PropsLocal
  MRtp FactsRtp PropsRtp PropsQp MText SpecText FactsText PropsText MTool SpecTool FactsTool PropsSafe MDump PropsDump FactsTextDump PropsTool PropsToolB PropsToolC PropsWide.
Import ListNotations.
Open Scope string_scope.
Open Scope Z_scope.

Lemma pieces_bytes l tail : byte_string (pieces l ++ tail)%list -> Forall byte_string (map snd l).
Proof.
  induction l as [|[fd x] l IH]; intros [F L]; [constructor|]. rewrite pieces_cons in F, L. cbn [fst snd] in F, L. rewrite <- !app_assoc in F. rewrite !app_length in L.
  apply Forall_app in F. destruct F as [_ F]. apply Forall_app in F. destruct F as [Fx F]. cbn [map snd]. constructor; [split; [exact Fx|lia]|].
  apply IH. split; [exact F | rewrite app_length; lia].
Qed.
(** Where the length-prefixed parser reads outside the buffer (C79). *)
Definition length_past_2_64 (data : list Z) (n : Z) : Prop :=
  8 <= n /\ exists l tail, data = (pieces l ++ tail)%list /\ Forall (piece (Z.to_nat n)) l /\ wraps (Z.to_nat n) (Z.of_nat (List.length (pieces l))) tail.
(** The stream parsers as the tool calls them *)
Definition stream (opts : options) (data : list Z) (n : Z) (st : state) : outcome (bitstream * state) :=
  if n <? 0 then ParseBitstream opts data st else ParseBitstreamNALULength opts data n st.
Lemma stream_facts opts data n st : byte_string data -> n < 2 ^ 31 -> store_ok st ->
  match stream opts data n st with
  | Done (bs, st') => Forall (from_parser opts) (bs_units bs) /\ bs_options bs = default_options /\ store_ok st'
  | Bad e => e = SignedOverflow \/ (e = OutOfBounds /\ length_past_2_64 data n)
  end.
Proof.
  intros D Hn S. unfold stream. pose proof D as [F L]. destruct (Z.ltb_spec n 0) as [_|Nn].
  - rewrite ParseBitstream_spec by lia. pose proof (annexb_in_bounds data ltac:(lia)) as B.
    assert (Fb : Forall byte_string (map (payload data) (annexb_units data))) by (apply Forall_map; eapply Forall_impl; [|exact B]; intros ix; apply sub_bytes, D).
    pose proof (parse_all_safe opts _ st Fb S) as G.
    destruct (parse_all opts (map (payload data) (annexb_units data)) st) as [[us st1]|e] eqn:E1; [|left; apply G].
    cbn [bs_units]. split; [|split; [reflexivity|apply G]]. apply placed_dumps. exact (parse_all_dumps _ _ _ _ _ Fb S E1).
  - destruct (Z.eq_dec n 0) as [->|N0].
    + destruct data as [|x data']; [rewrite C79_empty; cbn [bs_units]; split; [constructor|split; [reflexivity | exact S]]|].
      rewrite C79_no_length by (cbn [List.length] in *; lia). pose proof (parse_all_safe opts [x :: data'] st (Forall_cons _ D (Forall_nil _)) S) as G. cbn [parse_all] in G.
      pose proof (fun us st' => parse_all_dumps opts [x :: data'] st us st' (Forall_cons _ D (Forall_nil _)) S) as K. cbn [parse_all] in K.
      destruct (ParseNalUnit opts (x :: data') st) as [[[u|] st']|e].
      * cbn [bs_units bs_options]. split; [|split; [reflexivity | apply G]]. constructor; [|constructor]. apply set_range_dumps. apply (K [Some u] st' eq_refl). left. reflexivity.
      * cbn [bs_units bs_options]. split; [constructor | split; [reflexivity | apply G]].
      * left. apply G.
    + destruct (C79_parse opts data (Z.to_nat n) st ltac:(lia) ltac:(lia) ltac:(lia)) as (l & tail & Ed & Fp & C). rewrite Z2Nat.id in C by lia.
      assert (Fb : Forall byte_string (map snd l)) by (apply (pieces_bytes l tail); rewrite <- Ed; exact D). pose proof (parse_all_safe opts _ st Fb S) as G.
      destruct C as [[St ->]|[Wr (e & -> & He)]].
      * destruct (parse_all opts (map snd l) st) as [[us st1]|e] eqn:E1; [|left; apply G]. cbn [bs_units bs_options]. split; [|split; [reflexivity | apply G]].
        apply placed_nl_dumps. exact (parse_all_dumps _ _ _ _ _ Fb S E1).
      * destruct He as [->|He]; [|rewrite He in G; left; apply G]. right. split; [reflexivity|]. split; [|exists l, tail; auto].
        destruct (Z_le_gt_dec 8 n) as [|Lt]; [assumption|]. exfalso. refine (narrow_no_wrap _ _ _ _ _ _ _ Wr); [lia | | lia | ].
        -- rewrite Ed in F. apply Forall_app in F. apply F.
        -- rewrite Ed in L. rewrite app_length in L. lia.
Qed.

(** * C51 for every size of the length field *)
Theorem C51_length_prefixed : forall opts data n st bs st', byte_string data -> 0 <= n < 2 ^ 31 -> reached call_ok st -> ParseBitstreamNALULength opts data n st = Done (bs, st') ->
  bs_options bs = default_options /\ dump_result (dump_bitstream bs) (all_printable opts (bs_options bs) (bs_units bs)).
Proof.
  intros opts data n st bs st' D Hn R E. pose proof (stream_facts opts data n st D ltac:(lia) (reached_store _ R)) as H. unfold stream in H. destruct (Z.ltb_spec n 0); [lia|].
  rewrite E in H. destruct H as (H1 & H2 & _). split; [exact H2|]. destruct bs as [bo us]. cbn [bs_units bs_options] in *. apply bitstream_result, H1.
Qed.

(** The variant without state prints with the options it was given. *)
Theorem C51_length_prefixed_no_state : forall opts data n bs, byte_string data -> 0 <= n < 2 ^ 31 -> ParseBitstreamNALULengthNoState opts data n = Done bs ->
  bs_options bs = opts /\ dump_result (dump_bitstream bs) (forall u, In u (bs_units bs) -> unprintable (nal_unit_type (nu_header u)) (nu_payload u) = false).
Proof.
  intros opts data n bs D Hn E. unfold ParseBitstreamNALULengthNoState in E. pose proof (stream_facts opts data n empty_state D ltac:(lia) (proj1 empty_store_ok)) as H.
  unfold stream in H. destruct (Z.ltb_spec n 0); [lia|]. destruct (ParseBitstreamNALULength opts data n empty_state) as [[bs0 st']|e]; [|discriminate E]. destruct H as (H1 & _ & _).
  apply done_inj1 in E. subst bs. cbn [bs_units bs_options]. split; [reflexivity|].
  destruct (bitstream_result opts opts _ H1) as [[G1 G2]|[G1 G2]]; [left; split; [exact G1 | apply G2] | right; split; [exact G1|]].
  intros A. apply G2. split; [|exact A]. destruct (add_checksum opts); auto.
Qed.
Theorem C51_text_length_prefixed : forall opts data n bs us, byte_string data -> 0 <= n < 2 ^ 31 -> ParseBitstreamNALULengthNoState opts data n = Done bs -> map snd us = bs_units bs ->
  PropsTextSafe.printed opts us (forall u, In u (bs_units bs) -> unprintable (nal_unit_type (nu_header u)) (nu_payload u) = false).
Proof.
  intros opts data n bs us D Hn E Hu. destruct (C51_length_prefixed_no_state opts data n bs D Hn E) as [O R]. eapply PropsTextSafe.printed_of; [|exact R].
  destruct bs as [o units]. cbn [bs_options bs_units] in *. subst o. apply PropsTextSafe.ag_units, Hu.
Qed.

(** * The tool *)
Lemma number_range s n : number s = Some n -> 0 <= n <= 2 ^ 31 - 1.
Proof. intros H. apply C73_accepted in H. destruct H as [[_ ->]|[_ H]]; lia. Qed.
Lemma parse_loop_range l : forall d o, a_nalu_length_bytes d < 2 ^ 31 -> parse_loop d l = Ready o -> a_nalu_length_bytes o < 2 ^ 31.
Proof.
  induction l as [|a l IH]; intros d o H E; cbn [parse_loop] in E; [assert (d = o) by congruence; subst o; exact H|].
  destruct d as [debug mode one off len plen csum res cont lb fps hvcc inf outf]. cbn [a_nalu_length_bytes] in H.
  destruct a; cbn [parse_arg] in E; try discriminate E; try (eapply IH; [|exact E]; cbn [a_nalu_length_bytes]; exact H).
  - destruct (number n) as [k|] eqn:N; [|discriminate E]. apply number_range in N. eapply IH; [|exact E]. cbn [a_nalu_length_bytes]. lia.
  - destruct (number n) as [k|] eqn:N; [|discriminate E]. eapply IH; [|exact E]. exact H.
Qed.
Lemma parse_args_range args o : parse_args args = Ready o -> a_nalu_length_bytes o < 2 ^ 31.
Proof.
  unfold parse_args. destruct (parse_loop DEFAULT_OPTIONS args) as [x|c] eqn:L; [|discriminate]. intros E. assert (x = o) by (destruct (a_infile x), (a_hvcc_file x); congruence). subst x.
  eapply parse_loop_range; [|exact L]. reflexivity.
Qed.
(** Every file and the standard input hold bytes, fewer than 2^32. *)
Definition inputs_ok (fs : string -> option file) (stdin : list Z) : Prop := (forall name f, fs name = Some f -> byte_string (file_bytes f)) /\ byte_string stdin.
Lemma read_ok fs stdin name bytes rest : inputs_ok fs stdin -> ReadFile fs stdin (Some name) [] = (Some bytes, rest) -> byte_string bytes /\ inputs_ok fs rest.
Proof.
  intros [Hf Hs] E. destruct (String.eqb_spec name "-") as [->|N].
  - rewrite (proj1 (C74_stdin fs stdin [])) in E. cbn [app] in E. assert (bytes = stdin /\ rest = []) as [-> ->] by (split; congruence). split; [exact Hs|]. split; [exact Hf | split; [constructor | reflexivity]].
  - destruct (C74_file fs stdin name [] N) as (A & B & _). rewrite E in A, B. cbn [fst snd] in A, B. subst rest. split; [|split; assumption].
    destruct (B bytes eq_refl) as (f & r & Ef & Eb & _). specialize (Hf _ _ Ef). rewrite Eb in Hf. destruct Hf as [F L]. apply Forall_app in F. rewrite app_length in L. split; [apply F | lia].
Qed.
(** The hvcC file [box] can be printed: every NAL unit was parsed and is printable (C51). *)
Definition box_printable (b : hvcc) : Prop := forall e, In e (box_units b) -> exists u, e = Some u /\ unprintable (nal_unit_type (nu_header u)) (nu_payload u) = false.
(** What the tool does with its inputs before printing: [reads fs stdin o r]. *)
Inductive reading : Type :=
| Gives_up                                                              (* an input that cannot be read, or a box that cannot be parsed *)
| Faults (e : err)                                                       (* undefined behaviour in a parser *)
| Has (box : option hvcc) (units : option (list Z * list nal_unit)).    (* the box, the bytes of the stream and its units *)
Definition reads (fs : string -> option file) (stdin : list Z) (o : arg_options) : reading :=
  let opts := parsing_options (imply o) in
  let infile box st stdin :=
    match a_infile o with
    | None => Has box None
    | Some name => match ReadFile fs stdin (Some name) [] with
                   | (None, _) => Gives_up
                   | (Some bytes, _) => match stream opts bytes (a_nalu_length_bytes o) st with Bad e => Faults e | Done (bs, _) => Has box (Some (bytes, bs_units bs)) end
                   end
    end in
  match a_hvcc_file o with
  | None => infile None empty_state stdin
  | Some name => match ReadFile fs stdin (Some name) [] with
                 | (None, _) => Gives_up
                 | (Some bytes, stdin') => match ParseConfigurationBox opts bytes empty_state with
                                           | Bad e => Faults e
                                           | Done (None, _) => Gives_up
                                           | Done (Some b, st) => infile (Some b) st stdin'
                                           end
                 end
  end.
(** The outcome of every run of the tool, for any arguments and any inputs below 4 GiB:
    - arguments that are refused, inputs that cannot be read: an exit code and no text;
    - undefined behaviour in a parser is only signed overflow (C47) or, with --nalu-length-bytes 8 or more, a length past 2^64 (C79);
    - otherwise null is dereferenced exactly if the hvcC file has an unprintable unit, or the stream is not fit for the mode. *)
Theorem C71_tool : forall fs w stdin spb sp args, inputs_ok fs stdin ->
  match parse_args args with
  | Exit c => main fs w stdin spb sp args = Done (c, "")
  | Ready o => match reads fs stdin o with
    | Gives_up => main fs w stdin spb sp args = Done (-1, "")
    | Faults e => main fs w stdin spb sp args = Bad e /\
        (e = SignedOverflow \/ (e = OutOfBounds /\ exists name stdin' bytes rest, a_infile o = Some name /\ ReadFile fs stdin' (Some name) [] = (Some bytes, rest) /\ length_past_2_64 bytes (a_nalu_length_bytes o)))
    | Has box units =>
        let printable := (forall b, box = Some b -> box_printable b) /\ (forall bytes us, units = Some (bytes, us) -> mode_ok o us) in
        if w then (printable /\ exists t, main fs w stdin spb sp args = Done (0, t)) \/ (~ printable /\ main fs w stdin spb sp args = Bad NullDeref)
        else main fs w stdin spb sp args = Done (-1, "")
    end
  end.
Proof.
  intros fs w stdin spb sp args I. destruct (parse_args args) as [o|c] eqn:E; [|unfold main; rewrite E; reflexivity].
  pose proof (parse_args_range _ _ E) as Rn.
  (* the part after the box *)
  assert (After : forall box st stdin' t1, store_ok st -> inputs_ok fs stdin' ->
     (t1 = Bad NullDeref /\ (exists b, box = Some b /\ ~ box_printable b) \/ (exists t, t1 = Done t) /\ (forall b, box = Some b -> box_printable b)) ->
     let r := match load_units fs stdin' (imply o) st with Bad e => Bad e | Done None => Done (-1, "") | Done (Some units) =>
        if negb w then Done (-1, "") else match t1 with Bad e => Bad e | Done t1 =>
          match match units with None => Done "" | Some (buffer, l) => match a_dumpmode (imply o) with dump_length => csv_dump (a_frames_per_second (imply o)) l | dump_all => dump_units (imply o) buffer sp 0 l end end with
          | Bad e => Bad e | Done t2 => Done (0, t1 ++ t2) end end end in
     match match a_infile o with None => Has box None | Some name => match ReadFile fs stdin' (Some name) [] with (None, _) => Gives_up | (Some bytes, _) =>
        match stream (parsing_options (imply o)) bytes (a_nalu_length_bytes o) st with Bad e => Faults e | Done (bs, _) => Has box (Some (bytes, bs_units bs)) end end end with
     | Gives_up => r = Done (-1, "")
     | Faults e => r = Bad e /\
        (e = SignedOverflow \/ (e = OutOfBounds /\ exists name stdin' bytes rest, a_infile o = Some name /\ ReadFile fs stdin' (Some name) [] = (Some bytes, rest) /\ length_past_2_64 bytes (a_nalu_length_bytes o)))
     | Has box units =>
        let printable := (forall b, box = Some b -> box_printable b) /\ (forall bytes us, units = Some (bytes, us) -> mode_ok o us) in
        if w then (printable /\ exists t, r = Done (0, t)) \/ (~ printable /\ r = Bad NullDeref) else r = Done (-1, "")
     end).
  { intros box st stdin' t1 S I' T. cbv zeta. assert (Ei : a_infile (imply o) = a_infile o) by (destruct o; reflexivity). assert (En : a_nalu_length_bytes (imply o) = a_nalu_length_bytes o) by (destruct o; reflexivity).
    assert (Em : a_dumpmode (imply o) = a_dumpmode o) by (destruct o; reflexivity). unfold load_units. rewrite Ei, En, Em. destruct (a_infile o) as [name|].
    - destruct (ReadFile fs stdin' (Some name) []) as [[bytes|] rest] eqn:R; [|reflexivity]. destruct (read_ok _ _ _ _ _ I' R) as [D _].
      pose proof (stream_facts (parsing_options (imply o)) bytes (a_nalu_length_bytes o) st D Rn S) as H. fold (stream (parsing_options (imply o)) bytes (a_nalu_length_bytes o) st).
      destruct (stream (parsing_options (imply o)) bytes (a_nalu_length_bytes o) st) as [[bs st']|e].
      + destruct H as (H1 & _ & _). cbv zeta. destruct w; cbn [negb]; [|reflexivity].
        destruct T as [[-> (b & Eb & Nb)]|[(t & ->) Pb]]; [right; split; [|reflexivity]; intros [P _]; exact (Nb (P b Eb))|].
        assert (Q : (mode_ok o (bs_units bs) /\ exists t2, match a_dumpmode o with dump_length => csv_dump (a_frames_per_second (imply o)) (bs_units bs) | dump_all => dump_units (imply o) bytes sp 0 (bs_units bs) end = Done t2) \/
                    (~ mode_ok o (bs_units bs) /\ match a_dumpmode o with dump_length => csv_dump (a_frames_per_second (imply o)) (bs_units bs) | dump_all => dump_units (imply o) bytes sp 0 (bs_units bs) end = Bad NullDeref)).
        { unfold mode_ok. destruct (a_dumpmode o).
          - pose proof (bitstream_result _ (parsing_options (imply o)) _ H1) as P. unfold dump_bitstream in P. cbn [bs_units bs_options] in P.
            pose proof (dump_units_safe (imply o) bytes (bs_units bs) sp 0) as G. destruct P as [[P1 P2]|[P1 P2]]; rewrite P1 in G.
            + left. split; [apply P2 | exact G].
            + right. split; [|exact G]. intros A. apply P2. split; [|exact A]. destruct (add_checksum (parsing_options (imply o))); auto.
          - unfold csv_dump. destruct (csv_units_safe (a_frames_per_second (imply o)) (bs_units bs) (mkCount 0 0 0 0)) as [([t2 s] & G1 & G2)|[G1 (u & Iu & Su & Nu)]]; rewrite G1.
            + left. split; [exact G2 | eauto].
            + right. split; [|reflexivity]. intros A. exact (A u Iu Su Nu). }
        destruct Q as [[Q (t2 & ->)]|[Q ->]].
        * left. split; [|eauto]. split; [exact Pb|]. intros bytes' us Eu. assert (us = bs_units bs) as -> by congruence. exact Q.
        * right. split; [|reflexivity]. intros [_ A]. exact (Q (A _ _ eq_refl)).
      + split; [reflexivity|]. destruct H as [->|[-> H]]; [left; reflexivity | right]. split; [reflexivity|]. exists name, stdin', bytes, rest. auto.
    - cbv zeta. destruct w; cbn [negb]; [|reflexivity]. destruct T as [[-> (b & Eb & Nb)]|[(t & ->) Pb]]; [right; split; [|reflexivity]; intros [P _]; exact (Nb (P b Eb))|].
      left. split; [|eauto]. split; [exact Pb|]. intros ? ? ?. discriminate. }
  assert (Eh : a_hvcc_file (imply o) = a_hvcc_file o) by (destruct o; reflexivity).
  unfold main. rewrite E. cbv zeta. unfold reads. cbv zeta. unfold load_box. rewrite Eh. destruct (a_hvcc_file o) as [name|].
  - destruct (ReadFile fs stdin (Some name) []) as [[bytes|] rest] eqn:R; [|reflexivity]. destruct (read_ok _ _ _ _ _ I R) as [D I'].
    pose proof (C42_safe (parsing_options (imply o)) bytes empty_state D (proj1 empty_store_ok)) as G.
    destruct (ParseConfigurationBox (parsing_options (imply o)) bytes empty_state) as [[[b|] st]|e] eqn:Eb; [| reflexivity | split; [reflexivity | left; apply G]].
    pose proof (C51_box_units _ _ _ _ _ (parsing_options (imply o)) D (reached_new _) Eb) as P. pose proof (ag_box spb (parsing_options (imply o)) b) as A. unfold ag, er in A.
    set (t1 := match fdumped (text_box spb (parsing_options (imply o)) b) (if a_as_one_line (imply o) then -1 else 0) with Bad e => Bad e | Done t => Done (t ++ newline_str) end).
    refine (After (Some b) st rest t1 (proj1 G) I' _). unfold t1, fdumped.
    assert (Pp : box_printable b <-> (forall e, In e (box_units b) -> exists u, e = Some u /\ (add_checksum (parsing_options (imply o)) = false \/ add_checksum (parsing_options (imply o)) = true) /\ unprintable (nal_unit_type (nu_header u)) (nu_payload u) = false)).
    { unfold box_printable. split; intros H e Ie; destruct (H e Ie) as (u & Eu & X); exists u; [split; [exact Eu | split; [destruct (add_checksum _); auto | exact X]] | split; [exact Eu | apply X]]. }
    destruct (text_box spb (parsing_options (imply o)) b) as [c|e]; rewrite <- A in P.
    + right. split; [eauto|]. intros b' Eb'. assert (b' = b) as -> by congruence. apply Pp. destruct P as [[_ P]|[P _]]; [exact P | discriminate P].
    + left. destruct P as [[P _]|[P1 P2]]; [discriminate P|]. assert (e = NullDeref) as -> by congruence. split; [reflexivity|]. exists b. split; [reflexivity|]. intros H. apply P2, Pp, H.
  - refine (After None empty_state stdin (Done "") (proj1 empty_store_ok) I _). right. split; [eauto|]. intros b Eb. discriminate.
Qed.
(** The files of the examples: an hvcC file with an AUD, one whose unit has a single byte, a stream with an AUD, and a stream with an 8-byte length past 2^64. *)
Definition C71_good_box : list Z :=
  [1; 1; 0x60; 0; 0; 0; 0xb0; 0; 0; 0; 0; 0; 0x5d; 0xf0; 0; 0xfc; 0xfd; 0xf8; 0xf8; 0; 0; 0x0f; 1; 0x23; 0; 1; 0; 3; 0x46; 1; 0x50].
Definition whole (l : list Z) : file := mkFile (Z.of_nat (List.length l)) l.
Definition C71_files (name : string) : option file :=
  if String.eqb name "good.hvcC" then Some (whole C71_good_box) else
  if String.eqb name "short.hvcC" then Some (whole C51_box) else
  if String.eqb name "aud.h265" then Some (whole [0; 0; 1; 0x46; 1; 0x50]) else
  if String.eqb name "wide.mp4" then Some (whole [0; 0; 0; 0; 0; 0; 0; 3; 0x46; 1; 0x50; 255; 255; 255; 255; 255; 255; 255; 248]) else None.
Example C71_inputs : inputs_ok C71_files [].
Proof.
  split; [|split; [constructor | reflexivity]]. intros name f E. unfold C71_files in E.
  repeat match type of E with (if ?c then _ else _) = _ => destruct c end; try discriminate E; injection E as <-; (split; [apply bytesb_ok; vm_compute; reflexivity | vm_compute; reflexivity]).
Qed.
Theorem C71_box_case : forall spb sp, exists t, main C71_files true [] spb sp [O_hvcc_file "good.hvcC"; O_infile "aud.h265"] = Done (0, t) /\ t <> "".
Proof. intros spb sp. eexists. split; [vm_compute; reflexivity | discriminate]. Qed.
(** A valid hvcC file with a unit of one byte is a null dereference; so is (out of bounds) a length past 2^64. *)
Theorem C71_box_refuted : forall spb sp, main C71_files true [] spb sp [O_hvcc_file "short.hvcC"; O_infile "aud.h265"] = Bad NullDeref.
Proof. intros spb sp. vm_compute. reflexivity. Qed.
Theorem C71_length_refuted : forall spb sp, main C71_files true [] spb sp [O_nalu_length_bytes "8"; O_infile "wide.mp4"] = Bad OutOfBounds.
Proof. intros spb sp. vm_compute. reflexivity. Qed.
