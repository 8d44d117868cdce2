(** C75: the options of the command line tool; examples for C70-C75. *)
From Coq Require Import ZArith List Bool Lia String Ascii.
From Verif Require Import MBase MBitBuffer Spec BitsFacts Reader ReaderFacts Syntax MCommon CommonFacts MFraming FramingFacts PropsFraming MSyntaxA SpecA FactsA Api MSps SpecSps MPps MSlice SpecSlice MNal FactsNal PropsNal PropsLocal
  MRtp MText SpecText FactsText PropsText MTool SpecTool FactsTool PropsSafe PropsTool PropsToolB PropsSps PropsPps PropsSlice.
Import ListNotations.
Open Scope string_scope.
Open Scope Z_scope.

(** * C75 *)
Lemma last_of_none {A} (f : arg -> option A) a d l : f a = None -> last_of f d (a :: l) = last_of f d l.
Proof. intros H. cbn [last_of]. rewrite H. reflexivity. Qed.
Lemma takes_number s n : number s = Some n <-> takes s n.
Proof. exact (C73_accepted s n). Qed.
Lemma last_some {A} (f : arg -> option A) l : forall d, last_of (fun a => option_map Some (f a)) (Some d) l <> None.
Proof. induction l as [|a l IH]; intros d; cbn [last_of]; [discriminate|]. destruct (f a); cbn [option_map]; apply IH. Qed.
Lemma last_any {A} (f : arg -> option A) l d : last_of (fun a => option_map Some (f a)) None l <> None -> last_of (fun a => option_map Some (f a)) (Some d) l = last_of (fun a => option_map Some (f a)) None l.
Proof. revert d. induction l as [|a l IH]; intros d H; [cbn in H; congruence|]. cbn [last_of] in *. destruct (f a); cbn [option_map] in *; [reflexivity | apply IH, H]. Qed.
Lemma last_absent {A} (f : arg -> option A) l d : last_of (fun a => option_map Some (f a)) None l = None -> last_of (fun a => option_map Some (f a)) (Some d) l = Some d.
Proof. revert d. induction l as [|a l IH]; intros d H; [reflexivity|]. cbn [last_of] in *. destruct (f a) as [x|]; cbn [option_map] in *; [exfalso; exact (last_some f l x H) | apply IH, H]. Qed.
(** [takes_last] along the list *)
Lemma takes_last_skip f d n a l : f a = None -> takes_last f d n (a :: l) <-> takes_last f d n l.
Proof. intros H. unfold takes_last. rewrite last_of_none; [tauto|]. rewrite H. reflexivity. Qed.
Lemma takes_last_set f d n a l s m : f a = Some s -> takes s m -> takes_last f m n l -> takes_last f d n (a :: l).
Proof.
  intros H T. unfold takes_last. cbn [last_of]. rewrite H. cbn [option_map].
  destruct (last_of (fun a0 => option_map Some (f a0)) None l) as [s'|] eqn:E; [rewrite last_any by congruence; rewrite E; auto|]. rewrite last_absent by exact E. intros ->. exact T.
Qed.
Lemma parse_loop_chosen l : forall d o, parse_loop d l = Ready o -> chosen d o l.
Proof.
  induction l as [|a l IH]; intros d o E; cbn [parse_loop] in E; [assert (o = d) by congruence; subst o; unfold chosen, takes_last; cbn [last_of]; auto 20|].
  destruct d as [debug mode one off len plen csum res cont lb fps hvcc inf outf]. cbn [parse_arg] in E.
  destruct a; try discriminate E; cbv beta iota in E.
  all: try (destruct (number n) as [m|] eqn:Em; [|discriminate E]; apply takes_number in Em).
  all: specialize (IH _ _ E); unfold chosen in *;
    cbn [a_dumpmode a_as_one_line a_add_offset a_add_length a_add_parsed_length a_add_checksum a_add_resolution a_add_contents a_infile a_outfile a_hvcc_file a_nalu_length_bytes a_frames_per_second] in *;
    destruct IH as (I1 & I2 & I3 & I4 & I5 & I6 & I7 & I8 & I9 & I10 & I11 & I12 & I13);
    repeat (apply conj; [first [exact I1 | exact I2 | exact I3 | exact I4 | exact I5 | exact I6 | exact I7 | exact I8 | exact I9 | exact I10 | exact I11 | apply takes_last_skip; [reflexivity | exact I12] |
      eapply takes_last_set; [reflexivity | exact Em | exact I12]]|]);
    first [apply takes_last_skip; [reflexivity | exact I13] | eapply takes_last_set; [reflexivity | exact Em | exact I13]].
Qed.
(** Every option is what the last one of its kind asks for, else its default (--dump-all, --as-one-line, no --add-..., start codes, 30 frames per second). *)
Theorem C75_last_wins : forall args o, parse_args args = Ready o -> chosen (mkArgs 0 dump_all true false false false false false false (-1) 30 None None None) o args.
Proof.
  intros args o E. unfold parse_args in E. destruct (parse_loop DEFAULT_OPTIONS args) as [x|c] eqn:L; [|discriminate E]. assert (x = o) by (destruct (a_infile x), (a_hvcc_file x); congruence). subst x.
  apply parse_loop_chosen, L.
Qed.
(** Verbosity: the number of times -d stands after the last -q. *)
Definition is_debug (a : arg) : bool := match a with O_debug => true | _ => false end.
Lemma parse_loop_debug l : forall d o, parse_loop d l = Ready o ->
  (~ In O_quiet l /\ a_debug o = a_debug d + Z.of_nat (List.length (filter is_debug l))) \/
  (exists l1 l2, l = (l1 ++ O_quiet :: l2)%list /\ ~ In O_quiet l2 /\ a_debug o = Z.of_nat (List.length (filter is_debug l2))).
Proof.
  induction l as [|a l IH]; intros d o E; cbn [parse_loop] in E; [assert (o = d) by congruence; subst o; left; split; [intros []|cbn; lia]|].
  destruct (parse_arg d a) as [d'|c] eqn:P; [|discriminate E].
  destruct (IH _ _ E) as [[N H]|(l1 & l2 & -> & N & H)]; [|right; exists (a :: l1)%list, l2; split; [reflexivity|split; assumption]].
  assert (D : a = O_quiet /\ a_debug d' = 0 \/ a <> O_quiet /\ a_debug d' = a_debug d + (if is_debug a then 1 else 0)).
  { destruct d; destruct a; cbn in P; try discriminate P; try (destruct (number n) as [m|]; [|discriminate P]);
      match type of P with Ready ?x = _ => assert (d' = x) by congruence; subst d' end; cbn; first [left; split; [reflexivity|reflexivity] | right; split; [discriminate|lia]]. }
  destruct D as [[-> D]|[Q D]].
  - right. exists nil, l. split; [reflexivity|split; [exact N|]]. rewrite H, D. reflexivity.
  - left. split; [intros [I|I]; [exact (Q I)|exact (N I)]|]. rewrite H, D. cbn [filter]. destruct (is_debug a); cbn [List.length]; lia.
Qed.
Theorem C75_verbosity : forall args o, parse_args args = Ready o ->
  exists l, (args = l \/ exists l1, args = (l1 ++ O_quiet :: l)%list) /\ ~ In O_quiet l /\ a_debug o = Z.of_nat (List.length (filter is_debug l)).
Proof.
  intros args o E. unfold parse_args in E. destruct (parse_loop DEFAULT_OPTIONS args) as [x|c] eqn:L; [|discriminate E]. assert (x = o) by (destruct (a_infile x), (a_hvcc_file x); congruence). subst x.
  destruct (parse_loop_debug _ _ _ L) as [[N H]|(l1 & l2 & -> & N & H)]; [exists args; split; [left; reflexivity|split; [exact N|exact H]]|].
  exists l2. split; [right; exists l1; reflexivity|split; assumption].
Qed.
Lemma parse_loop_ready l : forall d, (exists o, parse_loop d l = Ready o) <-> Forall acceptable l.
Proof.
  induction l as [|a l IH]; intros d; [split; [constructor | intros _; exists d; reflexivity]|]. cbn [parse_loop]. destruct d as [debug mode one off len plen csum res cont lb fps hvcc inf outf]. cbn [parse_arg].
  destruct a; cbv beta iota.
  all: try (split; [intros H; constructor; [exact I | apply (proj1 (IH _) H)] | intros H; inversion H; subst; apply (proj2 (IH _)); assumption]).
  all: try (split; [intros (o & H); discriminate H | intros H; inversion H; subst; contradiction]).
  all: destruct (number n) as [m|] eqn:Em; split.
  1, 5: intros H; constructor; [exists m; apply takes_number, Em | apply (proj1 (IH _) H)].
  1, 4: intros H; inversion H; subst; apply (proj2 (IH _)); assumption.
  1, 3: intros (o & H); discriminate H.
  all: intros H; apply Forall_inv in H; destruct H as (k & K); apply takes_number in K; congruence.
Qed.
Lemma last_in {A} (f : arg -> option A) l : last_of (fun a => option_map Some (f a)) None l <> None <-> exists a, In a l /\ f a <> None.
Proof.
  split.
  - induction l as [|a l IH]; cbn [last_of]; [congruence|]. destruct (f a) as [x|] eqn:E; cbn [option_map].
    + intros _. exists a. split; [left; reflexivity | congruence].
    + intros H. destruct (IH H) as (b & I & N). exists b. split; [right; exact I | exact N].
  - intros (a & I & N). induction l as [|b l IH]; [destruct I|]. cbn [last_of]. destruct (f b) as [x|] eqn:E; cbn [option_map]; [apply last_some|].
    destruct I as [->|I]; [congruence | apply IH, I].
Qed.
(** The tool goes to work exactly if every option is known, every number is one, and there is something to read. *)
Theorem C75_accepts : forall args, (exists o, parse_args args = Ready o) <-> Forall acceptable args /\ exists f, In (O_infile f) args \/ In (O_hvcc_file f) args.
Proof.
  intros args. unfold parse_args. rewrite <- (parse_loop_ready args DEFAULT_OPTIONS).
  destruct (parse_loop DEFAULT_OPTIONS args) as [x|c] eqn:L; [|split; [intros (o & H); discriminate H | intros [(o & H) _]; discriminate H]].
  destruct (parse_loop_chosen _ _ _ L) as (_ & _ & _ & _ & _ & _ & _ & _ & Hi & _ & Hb & _). cbn [a_infile a_hvcc_file DEFAULT_OPTIONS] in Hi, Hb.
  pose proof (last_in (fun a => match a with O_infile f => Some f | _ => None end) args) as Li. pose proof (last_in (fun a => match a with O_hvcc_file f => Some f | _ => None end) args) as Lb.
  assert (Ext : forall (f g : arg -> option (option string)) l d, (forall a, f a = g a) -> last_of f d l = last_of g d l).
  { intros f g l. induction l as [|a l IH]; intros d H; [reflexivity|]. cbn [last_of]. rewrite (H a). apply IH, H. }
  rewrite (Ext _ (fun a => match a with O_infile f => Some (Some f) | _ => None end)) in Li by (intros []; reflexivity).
  rewrite (Ext _ (fun a => match a with O_hvcc_file f => Some (Some f) | _ => None end)) in Lb by (intros []; reflexivity).
  rewrite <- Hi in Li. rewrite <- Hb in Lb. split.
  - intros (o & H). split; [exists x; reflexivity|].
    destruct (a_infile x) as [f|]; [destruct (proj1 Li ltac:(discriminate)) as ([] & I & N); try congruence; eauto|].
    destruct (a_hvcc_file x) as [f|]; [destruct (proj1 Lb ltac:(discriminate)) as ([] & I & N); try congruence; eauto | discriminate H].
  - intros [_ (f & [I|I])].
    + destruct (a_infile x); [eexists; reflexivity|]. exfalso. apply (proj2 Li); [|reflexivity]. exists (O_infile f). split; [exact I | discriminate].
    + destruct (a_infile x), (a_hvcc_file x); try (eexists; reflexivity). exfalso. apply (proj2 Lb); [|reflexivity]. exists (O_hvcc_file f). split; [exact I | discriminate].
Qed.
(** Otherwise it ends with -1, or with 0 if --version comes before anything wrong. *)
Theorem C75_exit_code : forall args c, parse_args args = Exit c -> (c = 0 /\ exists l1 l2, args = (l1 ++ O_version :: l2)%list /\ Forall acceptable l1) \/ (c = -1 /\ forall l1 l2, args = (l1 ++ O_version :: l2)%list -> ~ Forall acceptable l1).
Proof.
  assert (H : forall l d c, parse_loop d l = Exit c -> (c = 0 /\ exists l1 l2, l = (l1 ++ O_version :: l2)%list /\ Forall acceptable l1) \/ (c = -1 /\ forall l1 l2, l = (l1 ++ O_version :: l2)%list -> ~ Forall acceptable l1)).
  { induction l as [|a l IH]; intros d c E; [discriminate E|]. cbn [parse_loop] in E. destruct (parse_arg d a) as [d'|c'] eqn:P.
    - assert (A : acceptable a) by (assert (P1 : exists o, parse_loop d [a] = Ready o) by (exists d'; cbn [parse_loop]; rewrite P; reflexivity); apply parse_loop_ready in P1; inversion P1; assumption).
      destruct (IH _ _ E) as [(-> & l1 & l2 & -> & F)|(-> & N)].
      + left. split; [reflexivity|]. exists (a :: l1)%list, l2. split; [reflexivity | constructor; assumption].
      + right. split; [reflexivity|]. intros [|b l1] l2 X F; cbn [List.app] in X; [assert (a = O_version) by congruence; subst a; exact A|].
        assert (l = (l1 ++ O_version :: l2)%list) by congruence. inversion F; subst. exact (N _ _ eq_refl ltac:(assumption)).
    - assert (c' = c) by congruence. subst c'. assert (NA : ~ acceptable a).
      { intros A. assert (P1 : Forall acceptable [a]) by (constructor; [exact A | constructor]). apply (parse_loop_ready _ d) in P1. destruct P1 as (o & P1). cbn [parse_loop] in P1. rewrite P in P1. discriminate P1. }
      assert (V : (a = O_version /\ c = 0) \/ (a <> O_version /\ c = -1)).
      { destruct d. cbn [parse_arg] in P. destruct a; try discriminate P; try (right; split; [discriminate | congruence]); try (left; split; congruence);
          destruct (number n); try discriminate P; right; (split; [discriminate | congruence]). }
      destruct V as [[-> ->]|[Nv ->]]; [left; split; [reflexivity|]; exists []%list, l; split; [reflexivity | constructor]|].
      right. split; [reflexivity|]. intros [|b l1] l2 X F; cbn [List.app] in X; [congruence|]. assert (a = b) by congruence. subst b. inversion F; subst. contradiction. }
  intros args c E. unfold parse_args in E. destruct (parse_loop DEFAULT_OPTIONS args) as [x|c0] eqn:L; [|assert (c0 = c) by congruence; subst c0; exact (H _ _ _ L)].
  right. split; [destruct (a_infile x), (a_hvcc_file x); congruence|]. intros l1 l2 -> F.
  assert (A : Forall acceptable (l1 ++ O_version :: l2)) by (apply (parse_loop_ready _ DEFAULT_OPTIONS); exists x; exact L). apply Forall_app in A. destruct A as [_ A]. inversion A; subst. contradiction.
Qed.

(** * C76: --dump-all prints one line for each unit *)
Lemma plain_one_line s : plain s = true -> one_line s.
Proof. exact (lines_plain s). Qed.
Lemma one_line_plain s : one_line s -> plain s = true.
Proof.
  unfold one_line, plain. induction s as [|c s IH]; [reflexivity|]. cbn [lines sall]. destruct (is_newline c); [discriminate|].
  destruct (lines s) as [|x xs] eqn:E; [discriminate|]. intros H. injection H as -> ->. cbn [negb andb]. apply IH, eq_refl.
Qed.
Lemma hex_plain n : forall x, plain (hex_digits n x) = true.
Proof.
  unfold plain. induction n as [|n IH]; intros x; [reflexivity|]. cbn [hex_digits]. rewrite sall_app, IH. cbn [sall]. pose proof (land15 x) as Hd. revert Hd. generalize (Z.land x 15). intros d Hd.
  assert (K : forallb (fun k => negb (is_newline (ascii_of_nat (Z.to_nat (hex_char (Z.of_nat k)))))) (seq 0 16) = true) by (vm_compute; reflexivity).
  rewrite forallb_forall in K. specialize (K (Z.to_nat d) ltac:(apply in_seq; lia)). rewrite Z2Nat.id in K by lia. rewrite K. reflexivity.
Qed.
Lemma contents_plain buffer u : plain (contents buffer u) = true.
Proof.
  unfold contents. generalize (firstn (Z.to_nat (nu_length u)) (skipn (Z.to_nat (nu_offset u)) buffer)). intros l.
  assert (H : forall i, plain (hex_bytes i l) = true).
  { induction l as [|x l IH]; intros i; [reflexivity|]. cbn [hex_bytes]. unfold plain in *. rewrite !sall_app, IH. unfold pr_x. pose proof (hex_plain (Nat.max 2 (hex_len x)) x) as P. unfold plain in P. rewrite P. destruct (_ =? 0); reflexivity. }
  unfold plain in *. rewrite !sall_app, H. reflexivity.
Qed.
Definition unit_line (o : arg_options) (buffer : list Z) (u : nal_unit) (s : string) : string := s ++ (if a_add_contents o then contents buffer u else "").
Lemma dump_units_lines o buffer sp us : a_as_one_line o = true -> forall i t, dump_units o buffer sp i us = Done t ->
  exists ts, List.length ts = List.length us /\ lines t = (ts ++ [""])%list /\
    forall k u, nth_error us k = Some u -> exists s, fdump (text_nal (sp (i + k)%nat) (parsing_options o) u) (-1) = Done s /\ nth_error ts k = Some (unit_line o buffer u s).
Proof.
  intros O. induction us as [|u us IH]; intros i t E; cbn [dump_units] in E.
  - apply done_inj1 in E. subst t. exists []%list. split; [reflexivity|]. split; [reflexivity|]. intros [|k] u H; discriminate H.
  - unfold dump_unit, fdumped in E. rewrite O in E. destruct (text_nal (sp i) (parsing_options o) u) as [c|e] eqn:T; [|discriminate E].
    destruct (dump_units o buffer sp (S i) us) as [t'|e] eqn:R; [|discriminate E]. apply done_inj1 in E. destruct (IH _ _ R) as (ts & L & Ls & N).
    assert (F : fdump (text_nal (sp i) (parsing_options o) u) (-1) = Done (run (-1) [] c)) by (unfold fdump; rewrite T; reflexivity).
    destruct (C68_layout (T_nal (sp i) (parsing_options o) u) (-1) _ _ ltac:(lia) F F) as (P & _). apply one_line_plain in P.
    exists (unit_line o buffer u (run (-1) [] c) :: ts)%list. split; [cbn [List.length]; congruence|]. split.
    + subst t. unfold newline_str. rewrite !sapp_assoc. cbn [String.append]. rewrite <- sapp_assoc. rewrite lines_cut; [cbn [List.app]; rewrite Ls; reflexivity|].
      unfold plain in *. rewrite sall_app, P. destruct (a_add_contents o); [apply contents_plain | reflexivity].
    + intros [|k] v Hv; cbn [nth_error] in Hv.
      * assert (v = u) by congruence. subst v. exists (run (-1) [] c). rewrite Nat.add_0_r. split; [exact F | reflexivity].
      * destruct (N _ _ Hv) as (s & S1 & S2). exists s. rewrite Nat.add_succ_r. split; [exact S1 | exact S2].
Qed.
(** The k-th line of the output is the k-th unit of the file, as NalUnitState::fdump prints it with the options given, followed by its bytes if
    --add-contents asks for them; --add-contents also turns on --add-offset and --add-length. *)
Theorem C76_one_line_per_unit : forall fs w stdin spb sp args o name bytes rest t,
  parse_args args = Ready o -> a_dumpmode o = dump_all -> a_as_one_line o = true -> a_hvcc_file o = None -> a_infile o = Some name ->
  ReadFile fs stdin (Some name) [] = (Some bytes, rest) -> main fs w stdin spb sp args = Done (0, t) ->
  let opts := mkOpts (a_add_contents o || a_add_offset o) (a_add_contents o || a_add_length o) (a_add_parsed_length o) (a_add_checksum o) (a_add_resolution o) in
  exists bs st ts, (if a_nalu_length_bytes o <? 0 then ParseBitstream opts bytes empty_state else ParseBitstreamNALULength opts bytes (a_nalu_length_bytes o) empty_state) = Done (bs, st) /\
    lines t = (ts ++ [""])%list /\ List.length ts = List.length (bs_units bs) /\
    forall k u, nth_error (bs_units bs) k = Some u -> exists s, fdump (text_nal (sp k) opts u) (-1) = Done s /\ nth_error ts k = Some (s ++ (if a_add_contents o then contents bytes u else "")).
Proof.
  intros fs w stdin spb sp args o name bytes rest t E D O B I R M. unfold main in M. rewrite E in M. cbv zeta in M. destruct o as [debug mode one off len plen csum res cont lb fps hvcc inf outf].
  cbn [a_dumpmode a_as_one_line a_hvcc_file a_infile a_nalu_length_bytes a_add_contents a_add_offset a_add_length a_add_parsed_length a_add_checksum a_add_resolution a_frames_per_second] in *. subst mode hvcc inf one.
  unfold load_box, load_units in M. cbn [imply a_dumpmode a_hvcc_file a_infile a_nalu_length_bytes a_add_contents a_frames_per_second] in M. rewrite R in M.
  set (o' := mkArgs debug dump_all true (cont || off) (cont || false || len) plen csum res cont lb fps None (Some name) outf) in *.
  assert (P : parsing_options o' = mkOpts (cont || off) (cont || len) plen csum res) by (unfold o', parsing_options; cbn; destruct cont; reflexivity). rewrite P in M.
  set (opts := mkOpts (cont || off) (cont || len) plen csum res) in *. cbv zeta.
  destruct (if lb <? 0 then _ else _) as [[bs st]|e] eqn:L; [|discriminate M]. destruct w; cbn [negb] in M; [|discriminate M].
  destruct (dump_units o' bytes sp 0 (bs_units bs)) as [t2|e] eqn:U; [|discriminate M]. assert (T : t = t2) by (injection M; intros; subst; reflexivity). subst t2.
  destruct (dump_units_lines o' bytes sp (bs_units bs) eq_refl 0 t U) as (ts & H1 & H2 & H3). exists bs, st, ts. split; [reflexivity|]. split; [exact H2|]. split; [exact H1|].
  intros k u Hk. destruct (H3 k u Hk) as (s & S1 & S2). rewrite P in S1. exists s. split; [exact S1 | exact S2].
Qed.

(** * Examples *)
Definition tool_fs (bytes : list Z) (name : string) : option file := if String.eqb name "in" then Some (mkFile (Z.of_nat (List.length bytes)) bytes) else None.
Definition C37_header4 : slice_header :=
  mkSH 0 0 3 0 7 [] 1 0 0 200 1 None 0 0 0 [] 1 0 0 0 1 0 0 0 1 1 None 2 0 5 0 0 0 0 0 0 0 0 0 0 0 0 [] 0 [] 0 0.
(** One stream with parameter sets and three pictures, the second one of two slices. *)
Definition tool_nals : list (bool * list Z) :=
  (C24_nals ++ [(false, C24_nal 1 (enc_slice false 1 C31_sps C37_pps1 C37_header1)); (true, C24_nal 1 (enc_slice false 1 C31_sps C37_pps1 C37_header4));
                (false, C24_nal 35 (enc_u 3 1)); (false, C24_nal 0 (enc_slice false 0 C31_sps C37_pps1 C37_header1))])%list.
Definition tool_stream : list Z := annexb_stream tool_nals.
Definition no_sp : sps * pps := (C31_sps, C37_pps).
Definition run_on (stream : list Z) (args : list arg) : outcome (Z * string) := main (tool_fs stream) true [] (fun _ _ => no_sp) (fun _ => no_sp) args.
Example C70_case : exists t, run_on tool_stream [O_infile "in"; O_dump_length; O_frames_per_second "25"] = Done (0, t) /\ csv_rows t =
  [header_row;
   ["0"; "0"; "32"; "vps"; "33"; ""; ""; ""; ""]; ["1"; "0"; "33"; "sps"; "230"; ""; ""; ""; ""]; ["2"; "0"; "34"; "pps"; "20"; ""; ""; ""; ""];
   ["3"; "0"; "1"; "trail_r"; "29"; ""; "0"; "100"; "200"]; ["4"; "0"; "34"; "pps"; "7"; ""; ""; ""; ""]; ["5"; "0"; "35"; "aud"; "3"; ""; ""; ""; ""];
   [""; "0"; "1"; "frame"; ""; "5800"; ""; ""; ""];
   ["6"; "1"; "1"; "trail_r"; "7"; ""; "1"; "0"; "200"]; ["7"; "1"; "1"; "trail_r"; "9"; ""; "0"; "7"; "200"]; ["8"; "1"; "35"; "aud"; "3"; ""; ""; ""; ""];
   [""; "1"; "1"; "frame"; ""; "3200"; ""; ""; ""];
   ["9"; "2"; "0"; "trail_n"; "7"; ""; "1"; "0"; "200"];
   [""; "2"; "0"; "frame"; ""; "1400"; ""; ""; ""]].
Proof.
  assert (H : match run_on tool_stream [O_infile "in"; O_dump_length; O_frames_per_second "25"] with Done (0, t) => csv_rows t | _ => [] end =
    [header_row;
     ["0"; "0"; "32"; "vps"; "33"; ""; ""; ""; ""]; ["1"; "0"; "33"; "sps"; "230"; ""; ""; ""; ""]; ["2"; "0"; "34"; "pps"; "20"; ""; ""; ""; ""];
     ["3"; "0"; "1"; "trail_r"; "29"; ""; "0"; "100"; "200"]; ["4"; "0"; "34"; "pps"; "7"; ""; ""; ""; ""]; ["5"; "0"; "35"; "aud"; "3"; ""; ""; ""; ""];
     [""; "0"; "1"; "frame"; ""; "5800"; ""; ""; ""];
     ["6"; "1"; "1"; "trail_r"; "7"; ""; "1"; "0"; "200"]; ["7"; "1"; "1"; "trail_r"; "9"; ""; "0"; "7"; "200"]; ["8"; "1"; "35"; "aud"; "3"; ""; ""; ""; ""];
     [""; "1"; "1"; "frame"; ""; "3200"; ""; ""; ""];
     ["9"; "2"; "0"; "trail_n"; "7"; ""; "1"; "0"; "200"];
     [""; "2"; "0"; "frame"; ""; "1400"; ""; ""; ""]]) by (vm_compute; reflexivity).
  destruct (run_on tool_stream [O_infile "in"; O_dump_length; O_frames_per_second "25"]) as [[[|p|p] t]|e]; try discriminate H. exists t. split; [reflexivity | exact H].
Qed.
(** The hypotheses of C70_tool_annexb, C71_tool and C76_one_line_per_unit are met by it. *)
Example C70_hypotheses : parse_args [O_infile "in"; O_dump_length; O_frames_per_second "25"] = Ready (mkArgs 0 dump_length true false false false false false false (-1) 25 None (Some "in") None) /\
  ReadFile (tool_fs tool_stream) [] (Some "in") [] = (Some tool_stream, []) /\ byte_string tool_stream.
Proof. split; [reflexivity|]. split; [vm_compute; reflexivity|]. apply bytesb_ok; vm_compute. reflexivity. Qed.
Example C72_case : exists t l, run_on tool_stream [O_infile "in"; O_add_contents true] = Done (0, t) /\ nth_error (lines t) 8 = Some l /\
  l = "nal_unit { offset: 0x00000171 length: 3 nal_unit_header { forbidden_zero_bit: 0 nal_unit_type: 35 nuh_layer_id: 0 nuh_temporal_id_plus1: 1 } nal_unit_payload { aud { pic_type: 1 } } } contents { 46 01 30 }".
Proof.
  assert (H : match run_on tool_stream [O_infile "in"; O_add_contents true] with Done (0, t) => nth_error (lines t) 8 | _ => None end = Some
    "nal_unit { offset: 0x00000171 length: 3 nal_unit_header { forbidden_zero_bit: 0 nal_unit_type: 35 nuh_layer_id: 0 nuh_temporal_id_plus1: 1 } nal_unit_payload { aud { pic_type: 1 } } } contents { 46 01 30 }")
    by (vm_compute; reflexivity).
  destruct (run_on tool_stream [O_infile "in"; O_add_contents true]) as [[[|p|p] t]|e]; try discriminate H. exists t. eexists. split; [reflexivity|]. split; [exact H | reflexivity].
Qed.
Example C73_case : number " +30" = Some 30 /\ number "2147483647" = Some (2 ^ 31 - 1) /\ number "2147483648" = None /\ number "30x" = None /\ number "-0" = Some 0 /\
  number "99999999999999999999" = None /\ number " " = None.
Proof. vm_compute. auto 10. Qed.
Example C74_case : ReadFile (tool_fs [1; 2; 3]) [9; 9] (Some "in") [7] = (Some [1; 2; 3], [9; 9]) /\ ReadFile (tool_fs [1; 2; 3]) [9; 9] (Some "-") [7] = (Some [7; 9; 9], []) /\
  ReadFile (tool_fs [1; 2; 3]) [9; 9] (Some "other") [7] = (None, [9; 9]) /\ fst (ReadFile (tool_fs []) [] (Some "in") []) = None /\
  exists t, run_on [0; 0; 1; 0x46; 1; 0x50] [O_infile "in"] = Done (0, t) /\ t <> "" /\ run_on [0; 0; 1; 0x46; 1; 0x50] [O_infile "no"] = Done (-1, "").
Proof. repeat (apply conj; [vm_compute; reflexivity|]). eexists. split; [vm_compute; reflexivity|]. split; [discriminate | vm_compute; reflexivity]. Qed.
Example C75_verbosity_case : parse_args [O_debug; O_quiet; O_debug; O_infile "a"; O_debug] = Ready (mkArgs 2 dump_all true false false false false false false (-1) 30 None (Some "a") None).
Proof. reflexivity. Qed.
Example C75_case : parse_args [O_add_length true; O_infile "a"; O_dump_length; O_add_length false; O_infile "b"; O_nalu_length_bytes "4"; O_quiet] =
    Ready (mkArgs 0 dump_length true false false false false false false 4 30 None (Some "b") None) /\
  parse_args [O_debug; O_version; O_help] = Exit 0 /\ parse_args [O_help; O_version] = Exit (-1) /\ parse_args [O_dump_length] = Exit (-1).
Proof. repeat (apply conj; [reflexivity|]). reflexivity. Qed.
