(** C86: what a run of the tool reads and writes. *)
From Coq Require Import ZArith List Bool Lia String Ascii.
From Verif Require Import MBase Spec MCommon MSyntaxA MSps MPps MSlice MNal MRtp MText MTool MProcess FramingFacts FactsText FactsTool PropsTool PropsToolC.
Import ListNotations.
Open Scope string_scope.
Open Scope Z_scope.

(** * Specification: the world the process runs in *)
(** The files by name, and what has come out on standard output and standard error. *)
Record world : Type := mkWorld { files : string -> option file; printed : string; complained : string }.
(** A file that holds exactly the text [t] *)
Definition bytes_of (t : string) : list Z := map (fun c => Z.of_nat (nat_of_ascii c)) (list_ascii_of_string t).
Definition holding (t : string) : file := mkFile (Z.of_nat (String.length t)) (bytes_of t).
Definition set_file (n : string) (f : option file) (fs : string -> option file) (m : string) : option file := if String.eqb m n then f else fs m.
Definition effect (w : world) (a : action) : world :=
  match a with
  | ReadsFile _ | ReadsStdin | Closes _ => w
  | Prints t => mkWorld (files w) (printed w ++ t) (complained w)
  | Complains t => mkWorld (files w) (printed w) (complained w ++ t)
  | Opens n => mkWorld (set_file n (Some (mkFile 0 [])) (files w)) (printed w) (complained w)
  | Writes n t =>
    mkWorld (set_file n (match files w n with Some f => Some (mkFile (file_size f + Z.of_nat (String.length t)) (file_bytes f ++ bytes_of t)%list) | None => None end) (files w))
      (printed w) (complained w)
  end.
Definition after (w : world) (l : list action) : world := fold_left effect l w.
(** The process may be killed at any moment, between any two characters. *)
Definition atoms (a : action) : list action :=
  match a with
  | Prints t => map (fun c => Prints (String c "")) (list_ascii_of_string t)
  | Complains t => map (fun c => Complains (String c "")) (list_ascii_of_string t)
  | Writes n t => map (fun c => Writes n (String c "")) (list_ascii_of_string t)
  | _ => [a]
  end.
Definition killed (w : world) (l : list action) (w' : world) : Prop := exists pre rest, flat_map atoms l = (pre ++ rest)%list /\ w' = after w pre.
Definition is_read (a : action) : Prop := match a with ReadsFile _ | ReadsStdin => True | _ => False end.

(** * Shape of a run *)
Definition tells_of (bld : build) (o : arg_options) : list action := if 1 <? a_debug o then [Prints (debug_text (small bld) o)] else [].
Definition names_read (o : arg_options) (a : action) : Prop :=
  exists n, a = read_action n /\ (a_hvcc_file o = Some n \/ a_infile o = Some n).
Lemma imply_facts o : a_hvcc_file (imply o) = a_hvcc_file o /\ a_infile (imply o) = a_infile o /\ a_outfile (imply o) = a_outfile o /\ to_stdout (imply o) = to_stdout o.
Proof. destruct o. repeat split. Qed.
Lemma process_cases bld cw fs stdin spb sp args tr r : process bld cw fs stdin spb sp args = (tr, r) ->
  (exists c, parse_args args = Exit c /\ tr = [if c =? 0 then Prints ("version: " ++ version bld ++ newline_str) else Complains (args_error DEFAULT_OPTIONS args ++ usage bld)] /\ r = Done c) \/
  (exists o reads, parse_args args = Ready o /\ Forall (names_read o) reads /\
    ((exists comp, tr = (tells_of bld o ++ reads ++ comp)%list /\ r = Done (-1) /\ (forall b, main fs b stdin spb sp args = Done (-1, "")) /\
        ((exists t, comp = [Complains t] /\ t <> "") \/ (comp = [] /\ verbose bld = false /\ exists name bytes rest st, a_hvcc_file o = Some name /\ ReadFile fs stdin (Some name) [] = (Some bytes, rest) /\
           ParseConfigurationBox (parsing_options (imply o)) bytes empty_state = Done (None, st)))) \/
     (exists e, tr = (tells_of bld o ++ reads)%list /\ r = Bad e /\ forall b, main fs b stdin spb sp args = Bad e) \/
     (exists text l, tr = (tells_of bld o ++ reads ++ l)%list /\ output cw (imply o) text = (l, r) /\
        forall b, main fs b stdin spb sp args = if negb b then Done (-1, "") else match text with Bad e => Bad e | Done t => Done (0, t) end))).
Proof.
  intros E. unfold process in E. destruct (parse_args args) as [o|c] eqn:A.
  2:{ left. exists c. split; [reflexivity|]. assert (X : tr = fst (tr, r) /\ r = snd (tr, r)) by (split; reflexivity). rewrite <- E in X. cbn [fst snd] in X. exact X. }
  right. exists o. cbv zeta in E. fold (tells_of bld o) in E. destruct (imply_facts o) as (I1 & I2 & I3 & I4). rewrite I1, I2 in E.
  set (rb := match a_hvcc_file o with None => [] | Some n => [read_action n] end) in *. set (ru := match a_infile o with None => [] | Some n => [read_action n] end) in *.
  assert (Fb : Forall (names_read o) rb) by (unfold rb; destruct (a_hvcc_file o) as [n|] eqn:H; [constructor; [exists n; auto | constructor] | constructor]).
  assert (Fu : Forall (names_read o) ru) by (unfold ru; destruct (a_infile o) as [n|] eqn:H; [constructor; [exists n; auto | constructor] | constructor]).
  assert (M : forall b, main fs b stdin spb sp args = match load_box fs stdin (imply o) with
    | Bad e => Bad e | Done None => Done (-1, "")
    | Done (Some (box, st, stdin')) => match load_units fs stdin' (imply o) st with
      | Bad e => Bad e | Done None => Done (-1, "")
      | Done (Some units) => if negb b then Done (-1, "") else match dump_text (imply o) spb sp box units with Bad e => Bad e | Done t => Done (0, t) end end end).
  { intros b. unfold main. rewrite A. cbv zeta. destruct (load_box fs stdin (imply o)) as [[[[box st] stdin']|]|e]; try reflexivity.
    destruct (load_units fs stdin' (imply o) st) as [[units|]|e]; try reflexivity. destruct b; cbn [negb]; [|reflexivity]. unfold dump_text.
    destruct (match box with None => _ | Some b => _ end) as [t1|e]; [|reflexivity]. destruct (match units with None => _ | Some _ => _ end) as [t2|e]; reflexivity. }
  destruct (load_box fs stdin (imply o)) as [[[[box st] stdin']|]|e] eqn:LB.
  - destruct (load_units fs stdin' (imply o) st) as [[units|]|e] eqn:LU.
    + destruct (output cw (imply o) (dump_text (imply o) spb sp box units)) as [l r1] eqn:O. exists (rb ++ ru)%list. split; [reflexivity|]. split; [apply Forall_app; auto|].
      right. right. exists (dump_text (imply o) spb sp box units), l. assert (tr = (tells_of bld o ++ rb ++ ru ++ l)%list) by congruence. assert (r = r1) by congruence. subst. rewrite <- !app_assoc. auto.
    + exists (rb ++ ru)%list. split; [reflexivity|]. split; [apply Forall_app; auto|]. left. eexists. split; [rewrite <- !app_assoc; assert (X : fst (tr, r) = tr) by reflexivity; rewrite <- E in X; symmetry; exact X|].
      split; [congruence|]. split; [exact M|]. left. eexists. split; [reflexivity|]. unfold read_error. destruct (fs _) as [f|]; [destruct (file_size f <=? 0)|]; discriminate.
    + exists (rb ++ ru)%list. split; [reflexivity|]. split; [apply Forall_app; auto|]. right. left. exists e. split; [congruence|]. split; [congruence | exact M].
  - exists rb. split; [reflexivity|]. split; [exact Fb|]. left. assert (X : fst (tr, r) = tr) by reflexivity. rewrite <- E in X. cbn [fst] in X.
    unfold load_box in LB. rewrite I1 in LB. destruct (a_hvcc_file o) as [name|] eqn:H; [|discriminate LB]. cbn [or_null] in X.
    destruct (ReadFile fs stdin (Some name) []) as [[bytes|] rest] eqn:R; cbn [fst] in X.
    + destruct (ParseConfigurationBox (parsing_options (imply o)) bytes empty_state) as [[[b|] st]|e] eqn:P; try discriminate LB.
      eexists. split; [symmetry; exact X|]. split; [congruence|]. split; [exact M|]. destruct (verbose bld); [left; eexists; split; [reflexivity | discriminate] | right].
      split; [reflexivity|]. split; [reflexivity|]. exists name, bytes, rest, st. auto.
    + eexists. split; [symmetry; exact X|]. split; [congruence|]. split; [exact M|]. left. eexists. split; [reflexivity|]. unfold read_error. destruct (fs _) as [f|]; [destruct (file_size f <=? 0)|]; discriminate.
  - exists rb. split; [reflexivity|]. split; [exact Fb|]. right. left. exists e. split; [congruence|]. split; [congruence | exact M].
Qed.

(** * Effects *)
Definition touches (n : string) (a : action) : Prop := match a with Opens m => m = n | Writes m _ => m = n | _ => False end.
Lemma after_app w a b : after w (a ++ b)%list = after (after w a) b.
Proof. unfold after. apply fold_left_app. Qed.
Lemma effect_file n w a : ~ touches n a -> files (effect w a) n = files w n.
Proof.
  intros T. destruct a; try reflexivity; cbn [effect files]; unfold set_file; destruct (String.eqb_spec n name) as [->|_]; try reflexivity; exfalso; apply T; reflexivity.
Qed.
Lemma after_file n l : forall w, Forall (fun a => ~ touches n a) l -> files (after w l) n = files w n.
Proof. induction l as [|a l IH]; intros w F; [reflexivity|]. apply Forall_cons_iff in F. destruct F as [Fa F]. change (after w (a :: l)) with (after (effect w a) l). rewrite IH, effect_file by assumption. reflexivity. Qed.
Lemma atoms_touch n a : ~ touches n a -> Forall (fun b => ~ touches n b) (atoms a).
Proof.
  intros T. destruct a; cbn [atoms]; try (constructor; [exact T | constructor]); apply Forall_map, Forall_forall; intros c _; exact T.
Qed.
Lemma all_atoms_touch n l : Forall (fun a => ~ touches n a) l -> Forall (fun a => ~ touches n a) (flat_map atoms l).
Proof. induction 1 as [|a l T F IH]; [constructor|]. change (flat_map atoms (a :: l)) with (atoms a ++ flat_map atoms l)%list. apply Forall_app. split; [apply atoms_touch, T | exact IH]. Qed.
Lemma killed_firstn w l w' : killed w l w' -> exists k, w' = after w (firstn k (flat_map atoms l)).
Proof. intros (pre & rest & E & ->). exists (List.length pre). rewrite E, firstn_app, Nat.sub_diag, firstn_all. cbn [firstn]. rewrite app_nil_r. reflexivity. Qed.
Lemma killed_other n w l w' : Forall (fun a => ~ touches n a) l -> killed w l w' -> files w' n = files w n.
Proof. intros F K. destruct (killed_firstn _ _ _ K) as (k & ->). apply after_file, Forall_firstn, all_atoms_touch, F. Qed.
Lemma after_writes n : forall cs w f, files w n = Some f ->
  files (after w (map (fun c => Writes n (String c "")) cs)) n = Some (mkFile (file_size f + Z.of_nat (List.length cs)) (file_bytes f ++ map (fun c => Z.of_nat (nat_of_ascii c)) cs)%list).
Proof.
  induction cs as [|c cs IH]; intros w f E; [cbn; rewrite E, app_nil_r, Z.add_0_r; destruct f; reflexivity|].
  change (after w (map (fun c => Writes n (String c "")) (c :: cs))) with (after (effect w (Writes n (String c ""))) (map (fun c => Writes n (String c "")) cs)).
  erewrite IH; [|cbn [effect files]; unfold set_file; rewrite String.eqb_refl, E; reflexivity]. cbn [file_size file_bytes List.length map bytes_of list_ascii_of_string String.length]. rewrite <- app_assoc.
  f_equal. f_equal. lia.
Qed.
Lemma names_read_not n o a : names_read o a -> ~ touches n a.
Proof. intros (m & -> & _). unfold read_action. destruct (String.eqb m "-"); intros T; exact T. Qed.
Lemma tells_not n bld o : Forall (fun a => ~ touches n a) (tells_of bld o).
Proof. unfold tells_of. destruct (1 <? a_debug o); [constructor; [intros T; exact T | constructor] | constructor]. Qed.
Lemma ascii_firstn k t : exists t2, t = string_of_list_ascii (firstn k (list_ascii_of_string t)) ++ t2.
Proof.
  exists (string_of_list_ascii (skipn k (list_ascii_of_string t))). rewrite <- (string_of_list_ascii_of_string t) at 1.
  rewrite <- (firstn_skipn k (list_ascii_of_string t)) at 1. generalize (firstn k (list_ascii_of_string t)), (skipn k (list_ascii_of_string t)). clear. intros a b.
  induction a as [|c a IH]; [reflexivity|]. cbn [app string_of_list_ascii String.append]. rewrite IH. reflexivity.
Qed.
Lemma length_ascii t : String.length t = List.length (list_ascii_of_string t).
Proof. induction t as [|c t IH]; [reflexivity|]. cbn. rewrite IH. reflexivity. Qed.
Lemma written n pre t w w' : Forall (fun a => ~ touches n a) pre -> killed w (pre ++ [Opens n; Writes n t; Closes n])%list w' ->
  files w' n = files w n \/ exists t1 t2, t = t1 ++ t2 /\ files w' n = Some (holding t1).
Proof.
  intros F K. destruct (killed_firstn _ _ _ K) as (k & ->). clear K. rewrite flat_map_app, firstn_app, after_app.
  assert (E0 : files (after w (firstn k (flat_map atoms pre))) n = files w n) by (apply after_file, Forall_firstn, all_atoms_touch, F).
  revert E0. generalize (after w (firstn k (flat_map atoms pre))). intros w1 E0. rewrite <- E0. clear E0.
  destruct (k - List.length (flat_map atoms pre))%nat as [|m]; [left; reflexivity|right].
  change (flat_map atoms [Opens n; Writes n t; Closes n]) with (Opens n :: (map (fun c => Writes n (String c "")) (list_ascii_of_string t) ++ [Closes n]))%list.
  cbn [firstn]. rewrite firstn_app, firstn_map. destruct (ascii_firstn m t) as (t2 & E2). eexists. exists t2. split; [exact E2|].
  change (after w1 (Opens n :: ?l)) with (after (effect w1 (Opens n)) l). rewrite after_app. rewrite after_file.
  2:{ apply Forall_firstn. constructor; [intros T; exact T | constructor]. }
  erewrite after_writes; [|cbn [effect files]; unfold set_file; rewrite String.eqb_refl; reflexivity]. cbn [file_size file_bytes app].
  unfold holding, bytes_of. rewrite length_ascii, list_ascii_of_string_of_list_ascii. reflexivity.
Qed.
Lemma written_all n pre t w : Forall (fun a => ~ touches n a) pre -> files (after w (pre ++ [Opens n; Writes n t; Closes n])%list) n = Some (holding t).
Proof.
  intros F. rewrite after_app. cbn [after fold_left effect files]. unfold set_file. rewrite String.eqb_refl. cbn [file_size file_bytes]. reflexivity.
Qed.
Lemma output_cases cw o text l r : output cw o text = (l, r) ->
  (to_stdout o = true /\ ((exists t, text = Done t /\ l = [Prints t] /\ r = Done 0) \/ (exists e, text = Bad e /\ l = [] /\ r = Bad e))) \/
  (exists n, to_stdout o = false /\ a_outfile o = Some n /\ n <> "-" /\
    ((cw n = false /\ (exists t, t <> "" /\ l = [Complains t]) /\ r = Done (-1)) \/
     (cw n = true /\ ((exists t, text = Done t /\ l = [Opens n; Writes n t; Closes n] /\ r = Done 0) \/ (exists e, text = Bad e /\ l = [Opens n] /\ r = Bad e))))).
Proof.
  unfold output. destruct (to_stdout o) eqn:T.
  - intros E. left. split; [reflexivity|]. destruct text as [t|e]; [left; exists t | right; exists e]; (split; [reflexivity|]; split; congruence).
  - unfold to_stdout in T. destruct (a_outfile o) as [n|] eqn:O; [|discriminate T]. cbn [or_null]. intros E. right. exists n. split; [reflexivity|]. split; [reflexivity|].
    split; [intros ->; discriminate T|]. destruct (cw n); cbn [negb] in E; [right | left].
    + split; [reflexivity|]. destruct text as [t|e]; [left; exists t | right; exists e]; (split; [reflexivity|]; split; congruence).
    + split; [reflexivity|]. split; [eexists; split; [|symmetry; exact (f_equal fst E)]; discriminate | congruence].
Qed.

(** * C86 *)
(** No run, finished, failed or killed at any moment, changes a file other than the one named by -o. *)
Theorem C86_other_files : forall bld cw w stdin spb sp args tr r w', process bld cw (files w) stdin spb sp args = (tr, r) -> killed w tr w' ->
  forall n, (forall o, parse_args args = Ready o -> a_outfile o = Some n -> False) -> files w' n = files w n.
Proof.
  intros bld cw w stdin spb sp args tr r w' E K n N. eapply killed_other; [|exact K]. destruct (process_cases _ _ _ _ _ _ _ _ _ E) as [(c & A & -> & _)|(o & reads & A & R & C)].
  - constructor; [destruct (c =? 0); intros T; exact T | constructor].
  - assert (Fr : Forall (fun a => ~ touches n a) reads) by (eapply Forall_impl; [|exact R]; intros a; apply names_read_not).
    destruct C as [(comp & -> & _ & _ & C)|[(e & -> & _)|(text & l & -> & O & _)]].
    + apply Forall_app. split; [apply tells_not|]. apply Forall_app. split; [exact Fr|]. destruct C as [(t & -> & _)|(-> & _)]; [constructor; [intros T; exact T | constructor] | constructor].
    + apply Forall_app. split; [apply tells_not | exact Fr].
    + apply Forall_app. split; [apply tells_not|]. apply Forall_app. split; [exact Fr|]. destruct (imply_facts o) as (_ & _ & I & _).
      destruct (output_cases _ _ _ _ _ O) as [(_ & [(t & _ & -> & _)|(e & _ & -> & _)])|(m & _ & Om & _ & C)].
      * constructor; [intros T; exact T | constructor].
      * constructor.
      * rewrite I in Om. assert (m <> n) by (intros ->; exact (N o A Om)).
        destruct C as [(_ & (t & _ & ->) & _)|(_ & [(t & _ & -> & _)|(e & _ & -> & _)])]; repeat (constructor; [intros T; first [exact T | apply H; exact T]|]); constructor.
Qed.
(** A run that ends with a code other than 0 has changed no file at all. *)
Theorem C86_failure_touches_nothing : forall bld cw w stdin spb sp args tr c w', process bld cw (files w) stdin spb sp args = (tr, Done c) -> c <> 0 -> killed w tr w' ->
  forall n, files w' n = files w n.
Proof.
  intros bld cw w stdin spb sp args tr r w' E Hc K n. eapply killed_other; [|exact K]. destruct (process_cases _ _ _ _ _ _ _ _ _ E) as [(c & A & -> & _)|(o & reads & A & R & C)].
  - constructor; [destruct (c =? 0); intros T; exact T | constructor].
  - assert (Fr : Forall (fun a => ~ touches n a) reads) by (eapply Forall_impl; [|exact R]; intros a; apply names_read_not).
    destruct C as [(comp & -> & _ & _ & C)|[(e & -> & _)|(text & l & -> & O & _)]].
    + apply Forall_app. split; [apply tells_not|]. apply Forall_app. split; [exact Fr|]. destruct C as [(t & -> & _)|(-> & _)]; [constructor; [intros T; exact T | constructor] | constructor].
    + apply Forall_app. split; [apply tells_not | exact Fr].
    + apply Forall_app. split; [apply tells_not|]. apply Forall_app. split; [exact Fr|].
      destruct (output_cases _ _ _ _ _ O) as [(_ & [(t & _ & _ & Z)|(e & _ & _ & Z)])|(m & _ & _ & _ & [(_ & (t & _ & ->) & _)|(_ & [(t & _ & _ & Z)|(e & _ & _ & Z)])])]; try congruence.
      constructor; [intros T; exact T | constructor].
Qed.
(** With -o n, a run that ends with 0 leaves in n exactly the text of the dump (the text of C71-C76, C85), whatever was there before; killed at any moment,
    n is as before or holds a beginning of that text.  n may be the input file. *)
Theorem C86_output_file : forall bld cw w stdin spb sp args o n tr, parse_args args = Ready o -> a_outfile o = Some n -> n <> "-" ->
  process bld cw (files w) stdin spb sp args = (tr, Done 0) ->
  exists t, main (files w) true stdin spb sp args = Done (0, t) /\ files (after w tr) n = Some (holding t) /\
    forall w', killed w tr w' -> files w' n = files w n \/ exists t1 t2, t = t1 ++ t2 /\ files w' n = Some (holding t1).
Proof.
  intros bld cw w stdin spb sp args o n tr A On Nn E. destruct (process_cases _ _ _ _ _ _ _ _ _ E) as [(c & A' & _)|(o' & reads & A' & R & C)]; [congruence|].
  assert (o' = o) by congruence. subst o'. clear A'. assert (Fr : Forall (fun a => ~ touches n a) reads) by (eapply Forall_impl; [|exact R]; intros a; apply names_read_not).
  destruct C as [(comp & _ & Z & _)|[(e & _ & Z & _)|(text & l & -> & O & M)]]; try discriminate Z. destruct (imply_facts o) as (_ & _ & I & I').
  assert (Ts : to_stdout o = false) by (unfold to_stdout; rewrite On; apply String.eqb_neq, Nn).
  destruct (output_cases _ _ _ _ _ O) as [(T & _)|(m & _ & Om & _ & C)]; [congruence|]. assert (m = n) by congruence. subst m.
  destruct C as [(_ & _ & Z)|(_ & [(t & -> & -> & _)|(e & _ & _ & Z)])]; try discriminate Z.
  exists t. split; [exact (M true)|]. rewrite app_assoc. assert (F : Forall (fun a => ~ touches n a) (tells_of bld o ++ reads)%list) by (apply Forall_app; split; [apply tells_not | exact Fr]).
  split; [apply written_all, F | intros w' K; eapply written; eassumption].
Qed.
(** When the tool reads a file, nothing has been written yet: what it reads is the file as it was at the start. *)
Theorem C86_reads_first : forall bld cw w stdin spb sp args tr r pre a post, process bld cw (files w) stdin spb sp args = (tr, r) -> tr = (pre ++ a :: post)%list -> is_read a ->
  forall n, files (after w pre) n = files w n.
Proof.
  intros bld cw w stdin spb sp args tr r pre a post E Et Ra n. apply after_file.
  assert (P : exists p q, tr = (p ++ q)%list /\ Forall (fun b => ~ touches n b) p /\ Forall (fun b => ~ is_read b) q).
  { destruct (process_cases _ _ _ _ _ _ _ _ _ E) as [(c & A & -> & _)|(o & reads & A & R & C)].
    - exists [], [if c =? 0 then Prints ("version: " ++ version bld ++ newline_str) else Complains (args_error DEFAULT_OPTIONS args ++ usage bld)]. split; [reflexivity|]. split; [constructor|].
      constructor; [destruct (c =? 0); intros T; exact T | constructor].
    - assert (Fr : Forall (fun a => ~ touches n a) (tells_of bld o ++ reads)%list) by (apply Forall_app; split; [apply tells_not | eapply Forall_impl; [|exact R]; intros b; apply names_read_not]).
      destruct C as [(comp & -> & _ & _ & C)|[(e & -> & _)|(text & l & -> & O & _)]]; exists (tells_of bld o ++ reads)%list.
      + exists comp. split; [apply app_assoc|]. split; [exact Fr|]. destruct C as [(t & -> & _)|(-> & _)]; [constructor; [intros T; exact T | constructor] | constructor].
      + exists []. rewrite app_nil_r. split; [reflexivity|]. split; [exact Fr | constructor].
      + exists l. split; [apply app_assoc|]. split; [exact Fr|].
        destruct (output_cases _ _ _ _ _ O) as [(_ & [(t & _ & -> & _)|(e & _ & -> & _)])|(m & _ & Om & _ & [(_ & (t & _ & ->) & _)|(_ & [(t & _ & -> & _)|(e & _ & -> & _)])])];
          repeat (constructor; [intros T; exact T|]); constructor. }
  destruct P as (p & q & E2 & Fp & Fq). rewrite Et in E2. revert p E2 Fp. induction pre as [|b pre IH]; intros p E2 Fp; [constructor|].
  clear IH. assert (L : (List.length (b :: pre) < List.length p)%nat).
  { destruct (Nat.lt_ge_cases (List.length (b :: pre)) (List.length p)) as [L|L]; [exact L|]. exfalso.
    assert (X : nth_error ((b :: pre) ++ a :: post)%list (List.length (b :: pre)) = Some a) by (rewrite nth_error_app2, Nat.sub_diag by lia; reflexivity).
    rewrite E2, nth_error_app2 in X by lia. rewrite Forall_forall in Fq. exact (Fq a (nth_error_In _ _ X) Ra). }
  assert (X : (b :: pre)%list = firstn (List.length (b :: pre)) p).
  { pose proof (f_equal (firstn (List.length (b :: pre))) E2) as Y. rewrite !firstn_app, Nat.sub_diag, firstn_all in Y. cbn [firstn] in Y. rewrite app_nil_r in Y.
    replace (List.length (b :: pre) - List.length p)%nat with 0%nat in Y by lia. rewrite firstn_O, app_nil_r in Y. exact Y. }
  rewrite X. apply Forall_firstn, Fp.
Qed.
(** The tool reads no file but those named by -i and --hvcc-file. *)
Theorem C86_reads_only : forall bld cw fs stdin spb sp args tr r n, process bld cw fs stdin spb sp args = (tr, r) -> In (ReadsFile n) tr ->
  exists o, parse_args args = Ready o /\ (a_hvcc_file o = Some n \/ a_infile o = Some n).
Proof.
  intros bld cw fs stdin spb sp args tr r n E H. destruct (process_cases _ _ _ _ _ _ _ _ _ E) as [(c & A & -> & _)|(o & reads & A & R & C)].
  - destruct H as [H|[]]. destruct (c =? 0); discriminate H.
  - exists o. split; [exact A|]. assert (In (ReadsFile n) (tells_of bld o ++ reads)%list).
    { destruct C as [(comp & -> & _ & _ & C)|[(e & -> & _)|(text & l & -> & O & _)]]; [| exact H|].
      - rewrite app_assoc in H. apply in_app_iff in H. destruct H as [H|H]; [exact H|]. destruct C as [(t & -> & _)|(-> & _)]; [destruct H as [H|[]]; discriminate H | destruct H].
      - rewrite app_assoc in H. apply in_app_iff in H. destruct H as [H|H]; [exact H|].
        destruct (output_cases _ _ _ _ _ O) as [(_ & [(t & _ & -> & _)|(e & _ & -> & _)])|(m & _ & Om & _ & [(_ & (t & _ & ->) & _)|(_ & [(t & _ & -> & _)|(e & _ & -> & _)])])];
          repeat (destruct H as [H|H]; [discriminate H|]); destruct H. }
    clear H C. apply in_app_iff in H0. destruct H0 as [H|H].
    + unfold tells_of in H. destruct (1 <? a_debug o); [destruct H as [H|[]]; discriminate H | destruct H].
    + rewrite Forall_forall in R. destruct (R _ H) as (m & E1 & E2). unfold read_action in E1. destruct (String.eqb m "-"); [discriminate E1|]. assert (m = n) by congruence. subst m. exact E2.
Qed.

Lemma effect_printed w a : printed (effect w a) = printed w ++ match a with Prints t => t | _ => "" end.
Proof. destruct a; cbv iota; try reflexivity; rewrite sapp_nil; reflexivity. Qed.
Lemma effect_complained w a : complained (effect w a) = complained w ++ match a with Complains t => t | _ => "" end.
Proof. destruct a; cbv iota; try reflexivity; rewrite sapp_nil; reflexivity. Qed.
Lemma reads_quiet o reads : Forall (names_read o) reads -> forall w, printed (after w reads) = printed w /\ complained (after w reads) = complained w.
Proof.
  induction 1 as [|a l (n & -> & _) F IH]; intros w; [split; reflexivity|]. change (after w (read_action n :: l)) with (after (effect w (read_action n)) l).
  destruct (IH (effect w (read_action n))) as [-> ->]. unfold read_action. destruct (String.eqb n "-"); split; reflexivity.
Qed.
Lemma tells_printed bld o w : printed (after w (tells_of bld o)) = printed w ++ (if 1 <? a_debug o then debug_text (small bld) o else "") /\ complained (after w (tells_of bld o)) = complained w.
Proof. unfold tells_of. destruct (1 <? a_debug o); cbn [after fold_left effect printed complained]; rewrite ?sapp_nil; split; reflexivity. Qed.
(** The code it ends with and the undefined behaviour are those of main, where the output file can be opened. *)
Theorem C86_outcome : forall bld cw fs stdin spb sp args o tr r, process bld cw fs stdin spb sp args = (tr, r) -> parse_args args = Ready o ->
  r = match main fs (to_stdout o || cw (or_null (a_outfile o))) stdin spb sp args with Done (c, _) => Done c | Bad e => Bad e end.
Proof.
  intros bld cw fs stdin spb sp args o tr r E A. destruct (process_cases _ _ _ _ _ _ _ _ _ E) as [(c & A' & _)|(o' & reads & A' & R & C)]; [congruence|].
  assert (o' = o) by congruence. subst o'. destruct C as [(comp & _ & -> & M & _)|[(e & _ & -> & M)|(text & l & _ & O & M)]]; rewrite M; try reflexivity.
  destruct (imply_facts o) as (_ & _ & I & I').
  destruct (output_cases _ _ _ _ _ O) as [(T & C)|(m & T & Om & _ & C)]; rewrite I' in T; rewrite T.
  - cbn [orb negb]. destruct C as [(t & -> & _ & ->)|(e & -> & _ & ->)]; reflexivity.
  - rewrite I in Om. rewrite Om. cbn [or_null orb]. destruct C as [(-> & _ & ->)|(-> & [(t & -> & _ & ->)|(e & -> & _ & ->)])]; reflexivity.
Qed.
(** On standard output: with -d -d the text of the options, then the dump, unless it goes to a file; with --version, that. *)
Theorem C86_stdout : forall bld cw w stdin spb sp args tr c, process bld cw (files w) stdin spb sp args = (tr, Done c) ->
  match parse_args args with
  | Exit c' => c' = c /\ printed (after w tr) = printed w ++ (if c =? 0 then "version: " ++ version bld ++ newline_str else "")
  | Ready o => exists t, main (files w) (to_stdout o || cw (or_null (a_outfile o))) stdin spb sp args = Done (c, t) /\
      printed (after w tr) = printed w ++ (if 1 <? a_debug o then debug_text (small bld) o else "") ++ (if to_stdout o then t else "")
  end.
Proof.
  intros bld cw w stdin spb sp args tr c E. destruct (process_cases _ _ _ _ _ _ _ _ _ E) as [(c' & A & -> & Z)|(o & reads & A & R & C)]; rewrite A.
  - assert (c' = c) by congruence. subst c'. split; [reflexivity|]. cbn [after fold_left]. rewrite effect_printed. destruct (c =? 0); reflexivity.
  - assert (P : printed (after w (tells_of bld o ++ reads)%list) = printed w ++ (if 1 <? a_debug o then debug_text (small bld) o else "")).
    { rewrite after_app. destruct (reads_quiet o reads R (after w (tells_of bld o))) as [-> _]. apply tells_printed. }
    destruct (imply_facts o) as (_ & _ & I & I').
    destruct C as [(comp & -> & Z & M & C)|[(e & _ & Z & M)|(text & l & -> & O & M)]]; [| discriminate Z |].
    + exists "". rewrite M. split; [congruence|]. rewrite app_assoc, after_app. destruct C as [(t & -> & _)|(-> & _)]; cbn [after fold_left]; rewrite ?effect_printed, P; destruct (to_stdout o); rewrite ?sapp_nil; reflexivity.
    + rewrite M. rewrite app_assoc, after_app.
      destruct (output_cases _ _ _ _ _ O) as [(T & C)|(m & T & Om & _ & C)]; rewrite I' in T; rewrite T.
      * cbn [orb negb]. destruct C as [(t & -> & -> & Z)|(e & _ & _ & Z)]; [|discriminate Z]. exists t. split; [congruence|]. cbn [after fold_left]. rewrite effect_printed, P, sapp_assoc. reflexivity.
      * rewrite I in Om. rewrite Om. cbn [or_null orb]. destruct C as [(-> & (t & _ & ->) & Z)|(-> & [(t & -> & -> & Z)|(e & _ & _ & Z)])]; [| |discriminate Z].
        { exists "". split; [cbn [negb]; congruence|]. cbn [after fold_left]. rewrite effect_printed, P, !sapp_nil. reflexivity. }
        { exists t. split; [cbn [negb]; congruence|]. cbn [after fold_left]. rewrite !effect_printed, P, !sapp_nil. reflexivity. }
Qed.
(** On standard error: nothing if the code is 0; otherwise a message, except for a configuration box that cannot be parsed, in a build without FPRINT_ERRORS. *)
Theorem C86_stderr : forall bld cw w stdin spb sp args tr c, process bld cw (files w) stdin spb sp args = (tr, Done c) -> usage bld <> "" ->
  (c = 0 -> complained (after w tr) = complained w) /\
  (c <> 0 -> (exists t, t <> "" /\ complained (after w tr) = complained w ++ t) \/
    (verbose bld = false /\ exists o name bytes rest st, parse_args args = Ready o /\ a_hvcc_file o = Some name /\ ReadFile (files w) stdin (Some name) [] = (Some bytes, rest) /\
       ParseConfigurationBox (parsing_options (imply o)) bytes empty_state = Done (None, st))).
Proof.
  intros bld cw w stdin spb sp args tr c E U. destruct (process_cases _ _ _ _ _ _ _ _ _ E) as [(c' & A & -> & Z)|(o & reads & A & R & C)].
  - assert (c' = c) by congruence. subst c'. cbn [after fold_left]. rewrite effect_complained. split.
    + intros ->. apply sapp_nil.
    + intros N. left. apply Z.eqb_neq in N. rewrite N. eexists. split; [|reflexivity]. destruct (args_error DEFAULT_OPTIONS args); [exact U | discriminate].
  - assert (P : complained (after w (tells_of bld o ++ reads)%list) = complained w).
    { rewrite after_app. destruct (reads_quiet o reads R (after w (tells_of bld o))) as [_ ->]. apply tells_printed. }
    destruct C as [(comp & -> & Z & M & C)|[(e & _ & Z & M)|(text & l & -> & O & M)]]; [| discriminate Z |].
    + assert (c = -1) by congruence. subst c. split; [discriminate|]. intros _. rewrite app_assoc, after_app. destruct C as [(t & -> & N)|(-> & V & name & bytes & rest & st & H)].
      * left. exists t. split; [exact N|]. cbn [after fold_left]. rewrite effect_complained. rewrite P. reflexivity.
      * right. split; [exact V|]. exists o, name, bytes, rest, st. split; [exact A | exact H].
    + rewrite app_assoc, after_app.
      destruct (output_cases _ _ _ _ _ O) as [(_ & [(t & _ & -> & Z)|(e & _ & _ & Z)])|(m & _ & Om & _ & [(_ & (t & N & ->) & Z)|(_ & [(t & _ & -> & Z)|(e & _ & _ & Z)])])]; try discriminate Z.
      * assert (c = 0) by congruence. subst c. split; [intros _; cbn [after fold_left]; rewrite effect_complained, P, sapp_nil; reflexivity | intros N; exfalso; apply N; reflexivity].
      * assert (c = -1) by congruence. subst c. split; [discriminate|]. intros _. left. exists t. split; [exact N|]. cbn [after fold_left]. rewrite effect_complained, P. reflexivity.
      * assert (c = 0) by congruence. subst c. split; [intros _; cbn [after fold_left]; rewrite !effect_complained, P, !sapp_nil; reflexivity | intros N; exfalso; apply N; reflexivity].
Qed.

(** A run depends on no file but its inputs. *)
Lemma ReadFile_same fs fs' stdin n b : fs n = fs' n -> ReadFile fs stdin (Some n) b = ReadFile fs' stdin (Some n) b.
Proof. intros E. unfold ReadFile. rewrite E. reflexivity. Qed.
Theorem C86_inputs_only : forall bld cw fs fs' stdin spb sp args,
  (forall o n, parse_args args = Ready o -> a_hvcc_file o = Some n \/ a_infile o = Some n -> n <> "-" -> fs n = fs' n) ->
  process bld cw fs stdin spb sp args = process bld cw fs' stdin spb sp args.
Proof.
  intros bld cw fs fs' stdin spb sp args H. unfold process. destruct (parse_args args) as [o|c] eqn:A; [|reflexivity]. cbv zeta. destruct (imply_facts o) as (I1 & I2 & _).
  assert (RF : forall s b n, a_hvcc_file o = Some n \/ a_infile o = Some n -> ReadFile fs s (Some n) b = ReadFile fs' s (Some n) b).
  { intros s b n Hn. destruct (String.eqb_spec n "-") as [->|N]; [reflexivity|]. apply ReadFile_same. apply (H o n eq_refl Hn N). }
  assert (LB : load_box fs stdin (imply o) = load_box fs' stdin (imply o)).
  { unfold load_box. rewrite I1. destruct (a_hvcc_file o) as [n|] eqn:Hb; [|reflexivity]. rewrite (RF stdin [] n) by (left; reflexivity). reflexivity. }
  assert (LU : forall s st, load_units fs s (imply o) st = load_units fs' s (imply o) st).
  { intros s st. unfold load_units. rewrite I2. destruct (a_infile o) as [n|] eqn:Hb; [|reflexivity]. rewrite (RF s [] n) by (right; reflexivity). reflexivity. }
  rewrite <- LB. destruct (load_box fs stdin (imply o)) as [[[[box st] stdin']|]|e] eqn:L; [| |reflexivity].
  - rewrite <- LU. destruct (load_units fs stdin' (imply o) st) as [[u|]|e] eqn:L2; [reflexivity| |reflexivity]. unfold load_units in L2. rewrite I2 in *. destruct (a_infile o) as [n|] eqn:Hb; [|discriminate L2].
    cbn [or_null]. destruct (String.eqb_spec n "-") as [->|N]; [|unfold read_error; rewrite (H o n eq_refl ltac:(right; exact Hb) N); reflexivity].
    exfalso. unfold ReadFile in L2. rewrite String.eqb_refl in L2. destruct (ReadStdinToBuffer _ _ _) as [b rest]. destruct (if _ <? 0 then _ else _) as [[bs st1]|e]; discriminate L2.
  - unfold load_box in L. rewrite I1 in *. destruct (a_hvcc_file o) as [n|] eqn:Hb; [|discriminate L]. cbn [or_null]. rewrite (RF stdin [] n) by (left; reflexivity).
    destruct (fst (ReadFile fs' stdin (Some n) [])) as [b|] eqn:F; [reflexivity|].
    destruct (String.eqb_spec n "-") as [->|N]; [|unfold read_error; rewrite (H o n eq_refl ltac:(left; exact Hb) N); reflexivity].
    exfalso. unfold ReadFile in F. rewrite String.eqb_refl in F. destruct (ReadStdinToBuffer _ _ _); discriminate F.
Qed.
(** So the same run again, after the first one was finished or killed anywhere, does and gives the same, unless the output file is an input too. *)
Theorem C86_again : forall bld cw w stdin spb sp args tr r w', process bld cw (files w) stdin spb sp args = (tr, r) -> killed w tr w' ->
  (forall o n, parse_args args = Ready o -> a_outfile o = Some n -> a_hvcc_file o <> Some n /\ a_infile o <> Some n) ->
  process bld cw (files w') stdin spb sp args = (tr, r).
Proof.
  intros bld cw w stdin spb sp args tr r w' E K H. rewrite <- E. apply C86_inputs_only. intros o n A Hn N. eapply C86_other_files; [exact E | exact K|].
  intros o' A' On. assert (o' = o) by congruence. subst o'. destruct (H o n A On) as [H1 H2]. destruct Hn; contradiction.
Qed.

(** * Examples *)
Definition C86_world (bytes : list Z) : world := mkWorld (tool_fs bytes) "" "".
Definition C86_build : build := mkBuild "0.1" "usage" false false.
Definition C86_aud : list Z := [0; 0; 1; 0x46; 1; 0x50].
(** The input file is the output file: it is replaced by the dump of what it held.  With -d -d the options go to standard output. *)
Example C86_case : exists tr, process C86_build (fun _ => true) (files (C86_world C86_aud)) [] (fun _ _ => no_sp) (fun _ => no_sp) [O_infile "in"; O_outfile "in"; O_debug; O_debug] = (tr, Done 0) /\
  files (after (C86_world C86_aud) tr) "in" = Some (holding (
    "nal_unit { nal_unit_header { forbidden_zero_bit: 0 nal_unit_type: 35 nuh_layer_id: 0 nuh_temporal_id_plus1: 1 } nal_unit_payload { aud { pic_type: 2 } } }" ++ newline_str)) /\
  String.length (printed (after (C86_world C86_aud) tr)) = 85%nat /\
  parse_args [O_infile "in"; O_outfile "in"; O_debug; O_debug] = Ready (mkArgs 2 dump_all true false false false false false false (-1) 30 None (Some "in") (Some "in")).
Proof. eexists. split; [vm_compute; reflexivity|]. split; [vm_compute; reflexivity|]. split; vm_compute; reflexivity. Qed.
(** Killed while it writes: a beginning of the dump. *)
Example C86_killed_case : exists tr w', process C86_build (fun _ => true) (files (C86_world C86_aud)) [] (fun _ _ => no_sp) (fun _ => no_sp) [O_infile "in"; O_outfile "out"] = (tr, Done 0) /\
  killed (C86_world C86_aud) tr w' /\ files w' "out" = Some (holding "nal_") /\ files w' "in" = tool_fs C86_aud "in".
Proof.
  eexists. eexists. split; [vm_compute; reflexivity|]. split; [|split].
  - eexists (firstn 6 _), (skipn 6 _). split; [symmetry; apply firstn_skipn | reflexivity].
  - vm_compute. reflexivity.
  - vm_compute. reflexivity.
Qed.
(** Failures: no input file, an output file that cannot be opened, and a box that cannot be parsed, of which the user is not told. *)
Example C86_failures :
  (exists tr t, process C86_build (fun _ => true) (tool_fs []) [] (fun _ _ => no_sp) (fun _ => no_sp) [O_infile "no"; O_outfile "out"] = (tr, Done (-1)) /\ tr = [ReadsFile "no"; Complains t] /\ t <> "") /\
  (exists tr, process C86_build (fun _ => false) (tool_fs C86_aud) [] (fun _ _ => no_sp) (fun _ => no_sp) [O_infile "in"; O_outfile "out"] = (tr, Done (-1)) /\ List.length tr = 2%nat) /\
  process C86_build (fun _ => true) (tool_fs [1]) [] (fun _ _ => no_sp) (fun _ => no_sp) [O_hvcc_file "in"; O_outfile "out"] = ([ReadsFile "in"], Done (-1)).
Proof.
  split; [eexists; eexists; split; [vm_compute; reflexivity|]; split; [reflexivity | discriminate]|]. split; [eexists; split; [vm_compute; reflexivity | reflexivity]|]. vm_compute. reflexivity.
Qed.
