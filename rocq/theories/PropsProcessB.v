(** C86: what the tool says when it gives up. *)
From Coq Require Import ZArith List Bool Lia String Ascii.
From Verif Require Import MBase Spec MCommon MSyntaxA MSps MPps MSlice MNal MRtp MText MTool MProcess FramingFacts FactsText FactsTool PropsTool PropsToolC PropsProcess.
Import ListNotations.
Open Scope string_scope.
Open Scope Z_scope.

(** * Specification *)
Definition nl : string := String "010"%char "".
(** What is wrong with a file to be read: it is not there, it is empty (or its size is unknown), or it gives fewer bytes than its size. *)
Definition complaint (f : option file) (name : string) : option string :=
  match f with
  | None => Some ("Could not open input file: """ ++ name ++ """" ++ nl)
  | Some f =>
    if file_size f <=? 0 then Some ("Could not determine file size: """ ++ name ++ """" ++ nl)
    else if Z.of_nat (List.length (file_bytes f)) <? file_size f then
      Some ("Could not read entire file: """ ++ name ++ """ (read " ++ pr_u (Z.of_nat (List.length (file_bytes f))) ++ " of " ++ pr_u (file_size f) ++ " bytes)" ++ nl)
    else None
  end.
(** Arguments that let the tool go on *)
Definition fine (a : arg) : Prop :=
  match a with
  | O_nalu_length_bytes s | O_frames_per_second s => number s <> None
  | O_version | O_help | O_other => False
  | _ => True
  end.
Definition names_input (a : arg) : Prop := match a with O_infile _ | O_hvcc_file _ => True | _ => False end.
(** The first argument that is not fine decides what is said; with none, that there is nothing to read. *)
Definition objection (a : arg) : string :=
  match a with
  | O_nalu_length_bytes s => "error: invalid nalu_length_bytes: " ++ s ++ nl
  | O_frames_per_second s => "error: invalid frames_per_second: " ++ s ++ nl
  | O_other => "Unsupported option: ?" ++ nl
  | _ => ""
  end.
Definition stops (args : list arg) (a : arg) : Prop := exists before rest, args = (before ++ a :: rest)%list /\ Forall fine before /\ ~ fine a.
Definition nothing_to_read (args : list arg) : Prop := Forall fine args /\ Forall (fun a => ~ names_input a) args.

(** * Facts *)
Lemma read_complaint fs stdin name t : name <> "-" -> complaint (fs name) name = Some t ->
  ReadFile fs stdin (Some name) [] = (None, stdin) /\ read_error fs name = t.
Proof.
  intros N C. unfold ReadFile, read_error. apply String.eqb_neq in N. rewrite N. unfold complaint in C.
  destruct (fs name) as [f|]; [|injection C as <-; auto]. destruct (file_size f <=? 0) eqn:S; [injection C as <-; auto|].
  destruct (Z.ltb_spec (Z.of_nat (List.length (file_bytes f))) (file_size f)) as [L|L]; [|discriminate C]. injection C as <-.
  rewrite firstn_all2 by lia. destruct (Z.eqb_spec (Z.of_nat (List.length (file_bytes f))) (file_size f)) as [E|E]; [lia|]. cbn [negb]. split; reflexivity.
Qed.
Lemma read_fine fs stdin name : name <> "-" -> complaint (fs name) name = None -> exists f, fs name = Some f /\
  ReadFile fs stdin (Some name) [] = (Some (firstn (Z.to_nat (file_size f)) (file_bytes f)), stdin).
Proof.
  intros N C. unfold ReadFile. apply String.eqb_neq in N. rewrite N. unfold complaint in C. destruct (fs name) as [f|]; [|discriminate C]. exists f. split; [reflexivity|].
  destruct (file_size f <=? 0) eqn:S; [discriminate C|]. destruct (Z.ltb_spec (Z.of_nat (List.length (file_bytes f))) (file_size f)) as [L|L]; [discriminate C|].
  rewrite firstn_length_le by lia. rewrite Z2Nat.id by lia. rewrite Z.eqb_refl. reflexivity.
Qed.
Lemma read_name n : n <> "-" -> read_action n = ReadsFile n.
Proof. intros N. unfold read_action. apply String.eqb_neq in N. rewrite N. reflexivity. Qed.

(** A bitstream file that cannot be read *)
Theorem C86_unreadable_input : forall bld cw fs stdin spb sp args o name t, parse_args args = Ready o -> a_hvcc_file o = None -> a_infile o = Some name -> name <> "-" ->
  complaint (fs name) name = Some t -> process bld cw fs stdin spb sp args = ((tells_of bld o ++ [ReadsFile name; Complains t])%list, Done (-1)).
Proof.
  intros bld cw fs stdin spb sp args o name t A B I N C. unfold process. rewrite A. cbv zeta. fold (tells_of bld o). destruct (imply_facts o) as (I1 & I2 & _ & _).
  unfold load_box, load_units. rewrite I1, I2, B, I. destruct (read_complaint fs stdin name t N C) as (R & E). rewrite R. cbn [or_null]. rewrite E, read_name by assumption. reflexivity.
Qed.
(** A configuration box file that cannot be read: the bitstream is not even looked at *)
Theorem C86_unreadable_box : forall bld cw fs stdin spb sp args o name t, parse_args args = Ready o -> a_hvcc_file o = Some name -> name <> "-" ->
  complaint (fs name) name = Some t -> process bld cw fs stdin spb sp args = ((tells_of bld o ++ [ReadsFile name; Complains t])%list, Done (-1)).
Proof.
  intros bld cw fs stdin spb sp args o name t A B N C. unfold process. rewrite A. cbv zeta. fold (tells_of bld o). destruct (imply_facts o) as (I1 & I2 & _ & _).
  unfold load_box. rewrite I1, B. destruct (read_complaint fs stdin name t N C) as (R & E). rewrite R. cbn [or_null]. rewrite R. cbn [fst]. rewrite E, read_name by assumption. reflexivity.
Qed.
(** A file that can be read in full is never complained about; what is left to complain about is the output file. *)
Theorem C86_readable : forall bld cw fs stdin spb sp args o name tr r t, parse_args args = Ready o -> a_hvcc_file o = None -> a_infile o = Some name -> name <> "-" ->
  complaint (fs name) name = None -> process bld cw fs stdin spb sp args = (tr, r) -> In (Complains t) tr ->
  exists n, a_outfile o = Some n /\ n <> "-" /\ cw n = false /\ t = "Could not open output file: """ ++ n ++ """" ++ nl /\ r = Done (-1).
Proof.
  intros bld cw fs stdin spb sp args o name tr r t A B I N C P T. unfold process in P. rewrite A in P. cbv zeta in P. fold (tells_of bld o) in P.
  destruct (imply_facts o) as (I1 & I2 & I3 & I4). unfold load_box, load_units in P. rewrite I1, I2, B, I in P. destruct (read_fine fs stdin name N C) as (f & F & R). rewrite R in P.
  rewrite read_name in P by assumption.
  assert (D : ~ In (Complains t) (tells_of bld o ++ [ReadsFile name])).
  { intros X. apply in_app_or in X. destruct X as [X|[X|[]]]; [|discriminate X]. unfold tells_of in X. destruct (1 <? a_debug o); [destruct X as [X|[]]; discriminate X | destruct X]. }
  assert (K : forall l, tr = (tells_of bld o ++ [] ++ [ReadsFile name] ++ l)%list -> In (Complains t) l).
  { intros l ->. change ([] ++ [ReadsFile name] ++ l)%list with ([ReadsFile name] ++ l)%list in T. rewrite app_assoc in T. apply in_app_or in T. destruct T as [T|T]; [elim D; exact T | exact T]. }
  destruct (if a_nalu_length_bytes (imply o) <? 0 then _ else _) as [[bs st]|e].
  - match type of P with context [output ?c ?x ?y] => remember (output c x y) as out eqn:O end. destruct out as [l r']. symmetry in O.
    assert (T' : In (Complains t) l) by (apply K; congruence). assert (r' = r) by congruence. subst r'.
    unfold output in O. rewrite I4, I3 in O. unfold to_stdout in O. destruct (a_outfile o) as [n|] eqn:W.
    + destruct (String.eqb_spec n "-") as [W'|W'].
      * exfalso. destruct (dump_text _ _ _ _ _) as [u|e]; [assert (l = [Prints u]) as -> by congruence; destruct T' as [T'|[]]; discriminate T' | assert (l = []) as -> by congruence; destruct T'].
      * exists n. cbn [or_null] in O. destruct (cw n) eqn:CW; cbn [negb] in O.
        -- exfalso. destruct (dump_text _ _ _ _ _) as [u|e].
           ++ assert (l = [Opens n; Writes n u; Closes n]) as -> by congruence. destruct T' as [T'|[T'|[T'|[]]]]; discriminate T'.
           ++ assert (l = [Opens n]) as -> by congruence. destruct T' as [T'|[]]; discriminate T'.
        -- assert (l = [Complains ("Could not open output file: " ++ quote ++ n ++ quote ++ newline_str)]) as -> by congruence. destruct T' as [T'|[]].
           injection T' as <-. split; [reflexivity|]. split; [exact W'|]. split; [reflexivity|]. split; [reflexivity | congruence].
    + exfalso. destruct (dump_text _ _ _ _ _) as [u|e]; [assert (l = [Prints u]) as -> by congruence; destruct T' as [T'|[]]; discriminate T' | assert (l = []) as -> by congruence; destruct T'].
  - exfalso. apply D. assert (tr = (tells_of bld o ++ [] ++ [ReadsFile name])%list) as -> by congruence. exact T.
Qed.
(** An output file that cannot be opened: with a readable input, what is said and what is returned *)
Theorem C86_unwritable : forall bld cw fs stdin spb sp args o name n tr c, parse_args args = Ready o -> a_hvcc_file o = None -> a_infile o = Some name -> name <> "-" ->
  complaint (fs name) name = None -> a_outfile o = Some n -> n <> "-" -> cw n = false -> process bld cw fs stdin spb sp args = (tr, Done c) ->
  tr = (tells_of bld o ++ [ReadsFile name; Complains ("Could not open output file: """ ++ n ++ """" ++ nl)])%list /\ c = -1.
Proof.
  intros bld cw fs stdin spb sp args o name n tr c A B I N C W W' CW P. unfold process in P. rewrite A in P. cbv zeta in P. fold (tells_of bld o) in P.
  destruct (imply_facts o) as (I1 & I2 & I3 & I4). unfold load_box, load_units in P. rewrite I1, I2, B, I in P. destruct (read_fine fs stdin name N C) as (f & F & R). rewrite R in P.
  rewrite read_name in P by assumption. destruct (if a_nalu_length_bytes (imply o) <? 0 then _ else _) as [[bs st]|e]; [|discriminate P].
  unfold output in P. rewrite I4, I3 in P. unfold to_stdout in P. rewrite W in P. apply String.eqb_neq in W'. rewrite W' in P. cbn [or_null] in P. rewrite CW in P. cbn [negb] in P.
  injection P as <- <-. split; reflexivity.
Qed.

(** * Arguments *)
Lemma fine_arg o a : fine a -> exists o', parse_arg o a = Ready o' /\ (names_input a \/ (a_infile o' = a_infile o /\ a_hvcc_file o' = a_hvcc_file o)).
Proof.
  intros F. destruct o. destruct a; cbn [parse_arg fine names_input] in *; try contradiction; try (eexists; split; [reflexivity|]; try (left; exact I); right; split; reflexivity);
    (match goal with |- context [number ?x] => destruct (number x) as [m|] | F : context [number ?x] |- _ => destruct (number x) as [m|] end; [|congruence]; eexists; split; [reflexivity|]; right; split; reflexivity).
Qed.
Lemma not_fine_arg o a : ~ fine a -> parse_arg o a = Exit (match a with O_version => 0 | _ => -1 end) /\ arg_error a = objection a.
Proof.
  intros F. destruct o. destruct a; try (exfalso; apply F; exact I); cbn [parse_arg fine] in *; try (split; reflexivity);
    (match goal with |- context [number ?x] => destruct (number x) as [m|] | F : context [number ?x] |- _ => destruct (number x) as [m|] end; [exfalso; apply F; discriminate|]; split; reflexivity).
Qed.
Lemma fine_dec a : fine a \/ ~ fine a.
Proof. destruct a; cbn [fine]; try (left; exact I); try (right; intros []; fail); match goal with |- context [number ?x] => destruct (number x) end; (left; discriminate) || (right; intros X; apply X; reflexivity). Qed.
Lemma first_stop args : Forall fine args \/ exists a, stops args a.
Proof.
  induction args as [|a r [IH|(b & before & rest & -> & F & S)]]; [left; constructor| |].
  - destruct (fine_dec a) as [Fa|Fa]; [left; constructor; assumption | right; exists a, [], r; repeat split; auto].
  - right. destruct (fine_dec a) as [Fa|Fa]; [exists b, (a :: before), rest; split; [reflexivity | split; [constructor; assumption | exact S]] | exists a, [], (before ++ b :: rest)%list; split; [reflexivity | split; [constructor | exact Fa]]].
Qed.
Lemma loop_stop a rest : ~ fine a -> forall before o, Forall fine before ->
  parse_loop o (before ++ a :: rest)%list = Exit (match a with O_version => 0 | _ => -1 end) /\ args_error o (before ++ a :: rest)%list = objection a.
Proof.
  intros S. induction before as [|b r IH]; intros o F.
  - cbn [List.app parse_loop args_error]. destruct (not_fine_arg o a S) as (-> & ->). split; reflexivity.
  - apply Forall_cons_iff in F. destruct F as (Fb & F). cbn [List.app parse_loop args_error]. destruct (fine_arg o b Fb) as (o' & -> & _). apply IH, F.
Qed.
Lemma loop_fine args : forall o, Forall fine args -> exists o', parse_loop o args = Ready o' /\ args_error o args = "error: need at least one input file to parse" ++ nl /\
  (Forall (fun a => ~ names_input a) args -> a_infile o' = a_infile o /\ a_hvcc_file o' = a_hvcc_file o) /\
  (Exists names_input args \/ a_infile o <> None \/ a_hvcc_file o <> None -> a_infile o' <> None \/ a_hvcc_file o' <> None).
Proof.
  induction args as [|a r IH]; intros o F.
  - exists o. split; [reflexivity|]. split; [reflexivity|]. split; [auto|]. intros [X|X]; [inversion X | exact X].
  - apply Forall_cons_iff in F. destruct F as (Fa & F). cbn [parse_loop args_error]. destruct (fine_arg o a Fa) as (o1 & E & K). rewrite E.
    destruct (IH o1 F) as (o' & L & G & N & M). exists o'. split; [exact L|]. split; [exact G|]. split.
    + intros X. apply Forall_cons_iff in X. destruct X as (Xa & X). destruct (N X) as (N1 & N2). destruct K as [K|(K1 & K2)]; [elim Xa; exact K|]. rewrite N1, N2. auto.
    + intros X. apply M. destruct X as [X|X].
      * apply Exists_cons in X. destruct X as [X|X]; [|left; exact X]. right. destruct o. destruct a; try (destruct X; fail); injection E as <-; [left; discriminate | right; discriminate] || (right; discriminate).
      * right. destruct K as [K|(K1 & K2)]; [|rewrite K1, K2; exact X]. destruct o. destruct a; try (destruct K; fail); injection E as <-; cbn; (left; discriminate) || (right; discriminate).
Qed.
(** When the tool does not start: it says what the first bad argument is, and then how to use the tool; --version says the version. *)
Theorem C86_stops : forall bld cw fs stdin spb sp args a, stops args a ->
  process bld cw fs stdin spb sp args = match a with O_version => ([Prints ("version: " ++ version bld ++ nl)], Done 0) | _ => ([Complains (objection a ++ usage bld)], Done (-1)) end.
Proof.
  intros bld cw fs stdin spb sp args a (before & rest & -> & F & S). destruct (loop_stop a rest S before DEFAULT_OPTIONS F) as (L & G).
  unfold process, parse_args. rewrite L. cbv iota beta. rewrite G. destruct a; reflexivity.
Qed.
Theorem C86_nothing_to_read : forall bld cw fs stdin spb sp args, nothing_to_read args ->
  process bld cw fs stdin spb sp args = ([Complains ("error: need at least one input file to parse" ++ nl ++ usage bld)], Done (-1)).
Proof.
  intros bld cw fs stdin spb sp args (F & N). destruct (loop_fine args DEFAULT_OPTIONS F) as (o & L & G & K & _). destruct (K N) as (K1 & K2).
  unfold process, parse_args. rewrite L. rewrite K1, K2. cbn [a_infile a_hvcc_file DEFAULT_OPTIONS]. rewrite G. reflexivity.
Qed.
(** And it starts in every other case. *)
Theorem C86_starts : forall args, (exists o, parse_args args = Ready o) <-> Forall fine args /\ Exists names_input args.
Proof.
  intros args. split.
  - intros (o & A). unfold parse_args in A. destruct (first_stop args) as [F|(a & before & rest & -> & F & S)].
    + split; [exact F|]. destruct (loop_fine args DEFAULT_OPTIONS F) as (o' & L & _ & K & _). destruct (Exists_dec names_input args) as [X|X]; [intros []; cbn; auto | exact X |]. exfalso. apply Forall_Exists_neg in X. pose proof X as N. destruct (K N) as (K1 & K2).
      rewrite L in A. rewrite K1, K2 in A. discriminate A.
    + destruct (loop_stop a rest S before DEFAULT_OPTIONS F) as (L & _). rewrite L in A. discriminate A.
  - intros (F & N). destruct (loop_fine args DEFAULT_OPTIONS F) as (o & L & _ & _ & M). exists o. unfold parse_args. rewrite L. destruct (M (or_introl N)) as [X|X]; destruct (a_infile o), (a_hvcc_file o); congruence.
Qed.

Definition C86_messages_run := process C86_build (fun _ => false) (tool_fs C86_aud) [] (fun _ _ => no_sp) (fun _ => no_sp).
Example C86_message_cases :
  C86_messages_run [O_infile "no"] = ([ReadsFile "no"; Complains ("Could not open input file: ""no""" ++ nl)], Done (-1)) /\
  C86_messages_run [O_infile "in"; O_outfile "out"] = ([ReadsFile "in"; Complains ("Could not open output file: ""out""" ++ nl)], Done (-1)) /\
  process C86_build (fun _ => false) (fun _ => Some (mkFile 7 [1; 2])) [] (fun _ _ => no_sp) (fun _ => no_sp) [O_hvcc_file "x"] =
    ([ReadsFile "x"; Complains ("Could not read entire file: ""x"" (read 2 of 7 bytes)" ++ nl)], Done (-1)) /\
  stops [O_infile "in"; O_nalu_length_bytes "x1"; O_version] (O_nalu_length_bytes "x1").
Proof.
  split; [vm_compute; reflexivity|]. split; [vm_compute; reflexivity|]. split; [vm_compute; reflexivity|].
  exists [O_infile "in"], [O_version]. split; [reflexivity|]. split; [constructor; [exact I | constructor]|]. vm_compute. intros X. apply X. reflexivity.
Qed.
