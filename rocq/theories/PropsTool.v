(** C70-C75: the command line tool. *)
From Coq Require Import ZArith List Bool Lia String Ascii.
From Verif Require Import MBase MBitBuffer Spec BitsFacts Reader ReaderFacts Syntax MCommon CommonFacts MFraming FramingFacts PropsFraming MSyntaxA SpecA FactsA Api MSps MPps MSlice MNal FactsNal PropsNal PropsLocal
  MRtp MText SpecText FactsText PropsText MTool SpecTool FactsTool PropsSafe MDump PropsDump FactsTextDump.
Import ListNotations.
Open Scope string_scope.
Open Scope Z_scope.

(** * C70: the table of --dump-length *)
Lemma done_inj1 {A} (a b : A) : Done a = Done b -> a = b.
Proof. intros H. injection H as ->. reflexivity. Qed.
Lemma csv_header_str : csv_header = table_str [header_row]. Proof. reflexivity. Qed.
Theorem C70_csv : forall fps us t, (forall u, In u us -> slice u = true -> 0 < nu_length u) -> slice_bytes us < 2 ^ 64 -> csv_dump fps us = Done t ->
  complete t /\ exists gs, List.concat gs = us /\ pictures gs /\ csv_rows t = header_row :: picture_rows fps 0 0 gs.
Proof.
  intros fps us t P L E. unfold csv_dump in E. destruct (csv_units fps (mkCount 0 0 0 0) us) as [[t1 s1]|e] eqn:E1; [|discriminate E].
  assert (Pu : positive us) by (apply Forall_forall; exact P).
  assert (K : counted (mkCount 0 0 0 0) [] 0 0) by (unfold counted; cbn; auto).
  assert (T : t = table_str (header_row :: picture_rows fps 0 0 (group [] us))).
  { pose proof (csv_loop fps us _ [] 0 0 t1 s1 (Forall_nil _) Pu ltac:(cbn [slice_bytes]; lia) K E1) as H. cbn [unit_rows table_str] in H.
    apply done_inj1 in E. change (csv_header ++ t1 ++ final fps s1 = t) in E. rewrite <- E, csv_header_str. change (t1 ++ final fps s1) with ("" ++ t1 ++ final fps s1). rewrite H. apply table_one. }
  assert (O : forallb row_ok (header_row :: picture_rows fps 0 0 (group [] us)) = true) by (cbn [forallb]; rewrite picture_rows_ok; reflexivity).
  destruct (csv_table _ O) as [R C]. rewrite T. split; [exact C|]. exists (group [] us). split; [apply group_concat|]. split; [apply group_pictures | exact R].
Qed.

(** The units that ParseBitstream finds in a buffer below 4 GiB meet these conditions. *)
Lemma start_codes_short data : (List.length (start_codes data) <= List.length data)%nat.
Proof.
  unfold start_codes. assert (H : forall (f : nat -> bool) l, (List.length (filter f l) <= List.length l)%nat).
  { intros f l. induction l as [|x l IH]; [apply le_n|]. cbn [filter List.length]. destruct (f x); cbn [List.length]; lia. }
  etransitivity; [apply H | rewrite seq_length; lia].
Qed.
Lemma units_at_len data ps : List.length (units_at data ps) = List.length ps.
Proof. induction ps as [|p ps IH]; [reflexivity|]. cbn [units_at List.length]. rewrite IH. reflexivity. Qed.
Lemma placed_len ixs : forall us, (List.length (placed ixs us) <= List.length ixs)%nat.
Proof. induction ixs as [|ix ixs IH]; intros [|u us]; cbn [placed List.length]; try lia. rewrite app_length. specialize (IH us). destruct u; cbn [place List.length]; lia. Qed.
Lemma parsed_nonempty opts st u st' : ParseNalUnit opts [] st <> Done (Some u, st').
Proof. destruct opts as [[] [] [] [] []]; vm_compute; discriminate. Qed.
Lemma bytes_bound M us : (forall u, In u us -> 0 <= nu_length u <= M) -> 0 <= slice_bytes us <= M * Z.of_nat (List.length us).
Proof.
  induction us as [|u us IH]; intros H; cbn [slice_bytes List.length]; [lia|]. specialize (IH (fun v I => H v (or_intror I))). specialize (H u (or_introl eq_refl)). destruct (slice u); lia.
Qed.
Lemma annexb_lengths opts data st bs st' : Z.of_nat (List.length data) < 2 ^ 32 -> ParseBitstream opts data st = Done (bs, st') ->
  (forall u, In u (bs_units bs) -> 0 < nu_length u <= Z.of_nat (List.length data)) /\ slice_bytes (bs_units bs) < 2 ^ 64.
Proof.
  intros L E. assert (H : forall u, In u (bs_units bs) -> 0 < nu_length u <= Z.of_nat (List.length data)).
  { intros u I. destruct (C19_ranges_annexb opts data st bs st' u ltac:(lia) E I) as (H1 & H2 & H3 & st0 & st1 & u0 & P & _).
    split; [|lia]. destruct (Z.eq_dec (nu_length u) 0) as [Z0|Z0]; [|lia]. rewrite Z0 in P. cbn [Z.to_nat firstn] in P. exfalso. exact (parsed_nonempty _ _ _ _ P). }
  split; [exact H|]. pose proof (bytes_bound (Z.of_nat (List.length data)) (bs_units bs) (fun u I => ltac:(specialize (H u I); lia))) as B.
  assert (N : (List.length (bs_units bs) <= List.length data)%nat).
  { rewrite ParseBitstream_spec in E by lia. destruct (parse_all _ _ _) as [[us st1]|e]; [|discriminate E]. assert (E2 : bs_units bs = placed (annexb_units data) us) by (injection E; intros; subst; reflexivity).
    rewrite E2. etransitivity; [apply placed_len|]. unfold annexb_units. rewrite units_at_len. apply start_codes_short. }
  nia.
Qed.
(** The whole program: options, reading the file, parsing and printing.  [run_with args o bytes]: the arguments ask for [o], and the input file
    has the contents [bytes]. *)
Theorem C70_tool_annexb : forall fs w stdin spb sp args o name bytes rest t,
  parse_args args = Ready o -> a_dumpmode o = dump_length -> a_hvcc_file o = None -> a_infile o = Some name -> a_nalu_length_bytes o < 0 ->
  ReadFile fs stdin (Some name) [] = (Some bytes, rest) -> Z.of_nat (List.length bytes) < 2 ^ 32 ->
  main fs w stdin spb sp args = Done (0, t) ->
  exists bs st gs, ParseBitstream (mkOpts (a_add_contents o || a_add_offset o) true (a_add_parsed_length o) (a_add_checksum o) (a_add_resolution o)) bytes empty_state = Done (bs, st) /\
    List.concat gs = bs_units bs /\ pictures gs /\ complete t /\ csv_rows t = header_row :: picture_rows (a_frames_per_second o) 0 0 gs.
Proof.
  intros fs w stdin spb sp args o name bytes rest t E D B I N R L M. unfold main in M. rewrite E in M. cbv zeta in M. destruct o as [debug mode one off len plen csum res cont lb fps hvcc inf outf].
  cbn [a_dumpmode a_hvcc_file a_infile a_nalu_length_bytes a_add_contents a_add_offset a_add_parsed_length a_add_checksum a_add_resolution a_frames_per_second] in *. subst mode hvcc inf.
  unfold load_box, load_units, imply, parsing_options in M. cbn [a_dumpmode a_hvcc_file a_infile a_nalu_length_bytes a_add_contents a_add_offset a_add_length a_add_parsed_length a_add_checksum a_add_resolution a_frames_per_second] in M.
  rewrite R in M. destruct (Z.ltb_spec lb 0) as [_|]; [|lia].
  replace (cont || true || len) with true in M by (destruct cont, len; reflexivity).
  destruct (ParseBitstream (mkOpts (cont || off) true plen csum res) bytes empty_state) as [[bs st]|e] eqn:P; [|discriminate M].
  destruct w; cbn [negb] in M; [|discriminate M]. destruct (csv_dump fps (bs_units bs)) as [t2|e] eqn:C; [|discriminate M].
  assert (T : t = t2) by (injection M; intros; subst; reflexivity). subst t2. destruct (annexb_lengths _ _ _ _ _ L P) as [H1 H2].
  destruct (C70_csv fps (bs_units bs) t (fun u Iu _ => proj1 (H1 u Iu)) H2 C) as (C1 & gs & C2 & C3 & C4). exists bs, st, gs. auto.
Qed.
(** The names of the types: one for each of the 64, and one for everything else *)
Theorem C70_names : (forall a b, 0 <= a < 64 -> NalUnitTypeToString a = NalUnitTypeToString b -> a = b) /\ (forall a, a < 0 \/ 64 <= a -> NalUnitTypeToString a = "unknown").
Proof.
  assert (H0 : forall l a, (forall p, In p l -> fst p <> a) -> lookup l a = "unknown").
  { induction l as [|[k n] l IH]; intros a H; [reflexivity|]. cbn [lookup]. destruct (Z.eqb_spec a k) as [->|]; [exfalso; exact (H _ (or_introl eq_refl) eq_refl)|]. apply IH. intros p I. exact (H p (or_intror I)). }
  assert (H1 : forall l a, lookup l a = "unknown" \/ In (a, lookup l a) l).
  { induction l as [|[k n] l IH]; intros a; [left; reflexivity|]. cbn [lookup]. destruct (Z.eqb_spec a k) as [->|]; [right; left; reflexivity|]. destruct (IH a) as [H|H]; [left; exact H | right; right; exact H]. }
  assert (H2 : forallb (fun p => (fst p <? 64) && (0 <=? fst p) && negb (String.eqb (snd p) "unknown")) type_names = true) by (vm_compute; reflexivity).
  assert (H3 : forallb (fun p => forallb (fun q => negb (String.eqb (snd p) (snd q)) || (fst p =? fst q)) type_names) type_names = true) by (vm_compute; reflexivity).
  rewrite forallb_forall in H2, H3.
  assert (H5 : forall a, a < 0 \/ 64 <= a -> NalUnitTypeToString a = "unknown").
  { intros a Ha. apply H0. intros p I Ep. specialize (H2 p I). apply andb_prop in H2. destruct H2 as [H2 _]. apply andb_prop in H2. destruct H2 as [A1 A2]. apply Z.ltb_lt in A1. apply Z.leb_le in A2. lia. }
  split; [|exact H5]. intros a b Ha E.
  assert (Ia : In (a, NalUnitTypeToString a) type_names).
  { destruct (H1 type_names a) as [H|H]; [|exact H]. exfalso. assert (G : forallb (fun i => negb (String.eqb (lookup type_names (Z.of_nat i)) "unknown")) (List.seq 0 64) = true) by (vm_compute; reflexivity).
    rewrite forallb_forall in G. specialize (G (Z.to_nat a) ltac:(apply in_seq; lia)). rewrite Z2Nat.id in G by lia. rewrite H in G. discriminate G. }
  destruct (H1 type_names b) as [H|Ib].
  - unfold NalUnitTypeToString in E, Ia. rewrite H in E. rewrite E in Ia. specialize (H2 _ Ia). cbn [fst snd] in H2. rewrite String.eqb_refl, andb_false_r in H2. discriminate H2.
  - specialize (H3 _ Ia). rewrite forallb_forall in H3. specialize (H3 _ Ib). cbn [fst snd] in H3. change (lookup type_names b) with (NalUnitTypeToString b) in H3. rewrite <- E, String.eqb_refl in H3. cbn [negb orb] in H3.
    apply Z.eqb_eq in H3. exact H3.
Qed.

(** * C71: undefined behaviour of the tool *)
Lemma csv_units_safe fps us : forall s, (exists r, csv_units fps s us = Done r /\ forall u, In u us -> slice u = true -> np_slice (nu_payload u) <> None) \/
  (csv_units fps s us = Bad NullDeref /\ exists u, In u us /\ slice u = true /\ np_slice (nu_payload u) = None).
Proof.
  induction us as [|u us IH]; intros s; cbn [csv_units]; [left; eexists; split; [reflexivity | intros u []]|].
  unfold csv_unit. rewrite slice_type. destruct (slice u) eqn:S.
  - destruct (np_slice (nu_payload u)) as [h|] eqn:E; [|right; split; [reflexivity|]; exists u; split; [left; reflexivity | auto]].
    destruct ((_ =? 1) && _); match goal with |- context [csv_units fps ?c us] => destruct (IH c) as [([t s2] & H1 & H2)|[H1 (v & I & V)]] end; rewrite H1.
    1, 3: left; eexists; split; [reflexivity|]; intros v [<-|I] Sv; [congruence | exact (H2 v I Sv)].
    all: right; split; [reflexivity|]; exists v; split; [right; exact I | exact V].
  - match goal with |- context [csv_units fps ?c us] => destruct (IH c) as [([t s2] & H1 & H2)|[H1 (v & I & V)]] end; rewrite H1.
    + left; eexists; split; [reflexivity|]; intros v [<-|I] Sv; [congruence | exact (H2 v I Sv)].
    + right; split; [reflexivity|]; exists v; split; [right; exact I | exact V].
Qed.
Lemma dump_units_safe o buffer us : forall sp i, match each us (dump_nal (parsing_options o)) with Done _ => exists t, dump_units o buffer sp i us = Done t | Bad e => dump_units o buffer sp i us = Bad e end.
Proof.
  induction us as [|u us IH]; intros sp i; cbn [each dump_units]; [eexists; reflexivity|]. unfold dump_unit, fdumped. pose proof (ag_nal (sp i) (parsing_options o) u) as A. unfold ag, er in A.
  destruct (text_nal (sp i) (parsing_options o) u) as [c|e]; rewrite <- A; cbn [seq nop]; [|reflexivity]. specialize (IH sp (S i)). unfold nop in A. unfold nop.
  destruct (each us _) as [[]|e]; [destruct IH as (t & IH)|]; rewrite IH; [eauto | reflexivity].
Qed.
(** What the mode needs: every slice header (length mode), or every unit that fdump can print (C51). *)
Definition mode_ok (o : arg_options) (us : list nal_unit) : Prop :=
  match a_dumpmode o with
  | dump_length => forall u, In u us -> slice u = true -> np_slice (nu_payload u) <> None
  | dump_all => forall u, In u us -> unprintable (nal_unit_type (nu_header u)) (nu_payload u) = false
  end.
(** The theorem is C71_tool (PropsToolE.v). *)
(** A slice whose PPS is missing: --dump-all prints it, --dump-length dereferences null. *)
Definition C71_fs (name : string) : option file := if String.eqb name "in" then Some (mkFile 6 [0; 0; 1; 0x02; 1; 0x80]) else None.
Theorem C71_refuted : forall spb sp, main C71_fs true [] spb sp [O_infile "in"; O_dump_length] = Bad NullDeref /\
  exists t, main C71_fs true [] spb sp [O_infile "in"] = Done (0, t).
Proof. intros spb sp. split; [vm_compute; reflexivity|]. eexists. vm_compute. reflexivity. Qed.
