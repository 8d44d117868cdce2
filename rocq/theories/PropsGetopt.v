(** C84: the words of the command line. *)
From Coq Require Import ZArith List Bool String Ascii Lia.
From Verif Require Import MTool SpecTool MGetopt MNal MSps MPps MCommon PropsToolC.
Import ListNotations.
Open Scope string_scope.
Open Scope Z_scope.

(** * Specification: how a command line writes options *)
(** The long name of each option, and its argument *)
Definition no (b : bool) (n : string) : string := if b then n else "no-" ++ n.
Definition spelling (a : arg) : option (string * option string) :=
  match a with
  | O_debug => Some ("debug", None) | O_quiet => Some ("quiet", None)
  | O_infile f => Some ("infile", Some f) | O_outfile f => Some ("outfile", Some f) | O_hvcc_file f => Some ("hvcc-file", Some f)
  | O_dump_all => Some ("dump-all", None) | O_dump_length => Some ("dump-length", None)
  | O_as_one_line b => Some (no b "as-one-line", None) | O_add_offset b => Some (no b "add-offset", None)
  | O_add_length b => Some (no b "add-length", None) | O_add_parsed_length b => Some (no b "add-parsed-length", None)
  | O_add_checksum b => Some (no b "add-checksum", None) | O_add_resolution b => Some (no b "add-resolution", None)
  | O_add_contents b => Some (no b "add-contents", None)
  | O_nalu_length_bytes n => Some ("nalu-length-bytes", Some n) | O_frames_per_second n => Some ("frames-per-second", Some n)
  | O_version => Some ("version", None) | O_help => Some ("help", None)
  | O_other => None
  end.
(** [p] is the name [n] or begins it and no other name *)
Definition begins (p n : string) : Prop := exists r, n = p ++ r.
Definition stands_for (p n : string) : Prop :=
  p = n \/ (begins p n /\ forall a n' v, spelling a = Some (n', v) -> begins p n' -> n' = n).
(** Short options without an argument, in one word *)
Inductive flags : string -> list arg -> Prop :=
| F_nil : flags "" []
| F_d w l : flags w l -> flags ("d" ++ w) (O_debug :: l)
| F_h w l : flags w l -> flags ("h" ++ w) (O_help :: l).
(** Short options with an argument *)
Inductive short_arg : string -> string -> arg -> Prop :=
| S_i v : short_arg "i" v (O_infile v)
| S_o v : short_arg "o" v (O_outfile v).
Definition operand (w : string) : Prop := w = "-" \/ forall r, w <> "-" ++ r.

(** [writes words options]: the words are a way to write these options, in this order *)
Inductive writes : list string -> list arg -> Prop :=
| W_nil : writes [] []
| W_end r : writes ("--" :: r) []
| W_operand w r l : operand w -> writes r l -> writes (w :: r) l
| W_long p n a r l : spelling a = Some (n, None) -> stands_for p n -> writes r l -> writes (("--" ++ p) :: r) (a :: l)
| W_eq p n a v r l : spelling a = Some (n, Some v) -> stands_for p n -> writes r l -> writes (("--" ++ p ++ "=" ++ v) :: r) (a :: l)
| W_next p n a v r l : spelling a = Some (n, Some v) -> stands_for p n -> writes r l -> writes (("--" ++ p) :: v :: r) (a :: l)
| W_flags w la r l : flags w la -> w <> "" -> writes r l -> writes (("-" ++ w) :: r) (la ++ l)
| W_glued w la c v a r l : flags w la -> short_arg c v a -> v <> "" -> writes r l -> writes (("-" ++ w ++ c ++ v) :: r) (la ++ a :: l)
| W_short w la c v a r l : flags w la -> short_arg c v a -> writes r l -> writes (("-" ++ w ++ c) :: v :: r) (la ++ a :: l).

(** * Facts *)
Lemma append_nil_r (s : string) : s ++ "" = s.
Proof. induction s as [|c s IH]; cbn; [reflexivity | now rewrite IH]. Qed.
Lemma begins_prefix p n : String.prefix p n = true <-> begins p n.
Proof.
  revert n. induction p as [|c p IH]; intro n.
  - split; [intros _; exists n; reflexivity | destruct n; reflexivity].
  - destruct n as [|c' n].
    + split; [discriminate | intros [r E]; discriminate E].
    + cbn [String.prefix]. destruct (ascii_dec c c') as [->|N].
      * rewrite IH. split; intros [r E]; exists r; [cbn; now rewrite E | now injection E].
      * split; [discriminate | intros [r E]; injection E; congruence].
Qed.

Lemma table_flag n a : In (n, Flag a) longopts -> spelling a = Some (n, None).
Proof. cbn [longopts In]. intuition; match goal with H : (_, _) = _ |- _ => try discriminate H; injection H as <- <- end; reflexivity. Qed.
Lemma table_takes n f : In (n, Takes f) longopts -> forall v, spelling (f v) = Some (n, Some v).
Proof. cbn [longopts In]. intuition; match goal with H : (_, _) = _ |- _ => try discriminate H; injection H as <- <- end; reflexivity. Qed.
Lemma flag_table n a : spelling a = Some (n, None) -> In (n, Flag a) longopts.
Proof.
  destruct a as [| | | | | |b|b|b|b|b|b|b| | | | | |]; cbn [spelling]; intro H; try discriminate H; injection H as <-; try destruct b; cbn; tauto.
Qed.
Lemma takes_table n a v : spelling a = Some (n, Some v) -> exists f, In (n, Takes f) longopts /\ a = f v.
Proof.
  destruct a; cbn [spelling]; intro H; try discriminate H; injection H as <- <-; eexists; (split; [|reflexivity]); cbn; tauto.
Qed.

Lemma names_differ n k k' : In (n, k) longopts -> In (n, k') longopts -> k = k'.
Proof.
  assert (D : NoDup (map fst longopts)).
  { cbn [longopts map fst]. repeat constructor; cbn [In]; intuition discriminate. }
  revert D. generalize longopts. intro t. induction t as [|[m j] t IH]; cbn [map In fst]; intros D H H'; [contradiction|].
  inversion D as [|? ? N D']. subst. destruct H as [H|H], H' as [H'|H'].
  - congruence.
  - injection H as -> ->. exfalso. apply N. apply (in_map fst) in H'. exact H'.
  - injection H' as -> ->. exfalso. apply N. apply (in_map fst) in H. exact H.
  - exact (IH D' H H').
Qed.

Lemma table_name n k : In (n, k) longopts -> exists a v, spelling a = Some (n, v).
Proof.
  destruct k as [a|f]; intro H.
  - exists a, None. exact (table_flag _ _ H).
  - exists (f ""), (Some ""). exact (table_takes _ _ H "").
Qed.

Lemma filter_one {A} (p : A -> bool) (l : list A) x : NoDup l -> In x l -> p x = true -> (forall y, In y l -> p y = true -> y = x) -> filter p l = [x].
Proof.
  induction l as [|y l IH]; cbn [In filter]; intros D I P U; [contradiction|]. inversion D as [|? ? N D']. subst.
  destruct I as [->|I].
  - rewrite P. f_equal. destruct (filter p l) as [|z r] eqn:E; [reflexivity|].
    assert (F : In z (filter p l)) by (rewrite E; left; reflexivity). apply filter_In in F. destruct F as [F Q].
    rewrite (U z (or_intror F) Q) in F. contradiction.
  - destruct (p y) eqn:E.
    + rewrite (U y (or_introl eq_refl) E) in N. contradiction.
    + apply IH; auto.
Qed.

Lemma resolve_some p n k : In (n, k) longopts -> stands_for p n -> resolve p = Some k.
Proof.
  intros I S. unfold resolve.
  destruct (find (fun e => String.eqb p (fst e)) longopts) as [[m j]|] eqn:E.
  - apply find_some in E. destruct E as [J E]. cbn [fst] in E. apply String.eqb_eq in E. subst m. cbn [snd].
    destruct S as [->|[B U]]; [now rewrite (names_differ _ _ _ I J)|].
    destruct (table_name _ _ J) as (a & v & Sp). specialize (U a p v Sp (ex_intro _ "" (eq_sym (append_nil_r p)))).
    subst n. now rewrite (names_differ _ _ _ I J).
  - destruct S as [->|[B U]].
    + pose proof (find_none _ _ E _ I) as F. cbn [fst] in F. now rewrite String.eqb_refl in F.
    + rewrite (filter_one _ longopts (n, k)); [reflexivity| |exact I|now apply begins_prefix|].
      * apply (NoDup_map_inv fst). cbn [longopts map fst]. repeat constructor; cbn [In]; intuition discriminate.
      * intros [m j] J Q. cbn [fst] in Q. apply begins_prefix in Q. destruct (table_name _ _ J) as (a & v & Sp).
        specialize (U a m v Sp Q). subst m. now rewrite (names_differ _ _ _ I J).
Qed.

Lemma resolve_inv p k : resolve p = Some k -> exists n, In (n, k) longopts /\ stands_for p n.
Proof.
  unfold resolve. destruct (find (fun e => String.eqb p (fst e)) longopts) as [[m j]|] eqn:E.
  - intro H. injection H as <-. apply find_some in E. destruct E as [J E]. cbn [fst] in E. apply String.eqb_eq in E. subst m.
    exists p. split; [exact J | left; reflexivity].
  - destruct (filter (fun e => String.prefix p (fst e)) longopts) as [|[n j] [|? ?]] eqn:F; try discriminate.
    intro H. injection H as <-. exists n.
    assert (X : In (n, j) (filter (fun e => String.prefix p (fst e)) longopts)) by (rewrite F; left; reflexivity).
    apply filter_In in X. destruct X as [X Q]. cbn [fst] in Q. split; [exact X|]. right. split; [now apply begins_prefix|].
    intros a n' v Sp B.
    assert (T : exists k', In (n', k') longopts).
    { destruct v as [v|]; [destruct (takes_table _ _ _ Sp) as (f & T & _); eauto | eauto using flag_table]. }
    destruct T as [k' T].
    assert (Y : In (n', k') (filter (fun e => String.prefix p (fst e)) longopts)).
    { apply filter_In. split; [exact T|]. cbn [fst]. now apply begins_prefix. }
    rewrite F in Y. destruct Y as [Y|[]]. now injection Y.
Qed.

(** Names have no "=" *)
Definition plain (p : string) : Prop := split_eq p = (p, None).
Lemma split_plain p v : plain p -> split_eq (p ++ "=" ++ v) = (p, Some v).
Proof.
  unfold plain. induction p as [|c p IH]; intro H; [reflexivity|]. cbn [split_eq String.append] in *.
  destruct (Ascii.eqb c "="); [discriminate|]. destruct (split_eq p) as [n w]. injection H as -> ->. now rewrite IH.
Qed.
Lemma plain_begins p r : plain (p ++ r) -> plain p.
Proof.
  unfold plain. induction p as [|c p IH]; intro H; [reflexivity|]. cbn [split_eq String.append] in *.
  destruct (Ascii.eqb c "="); [discriminate|]. destruct (split_eq (p ++ r)) as [n w]. injection H as -> ->. now rewrite IH.
Qed.
Lemma plain_name n k : In (n, k) longopts -> plain n.
Proof. cbn [longopts In]. intuition; match goal with H : (_, _) = _ |- _ => injection H as <- <- end; reflexivity. Qed.
Lemma plain_stands p n k : In (n, k) longopts -> stands_for p n -> plain p.
Proof.
  intros I [->|[[r E] _]]; [exact (plain_name _ _ I)|]. apply (plain_begins _ r). rewrite <- E. exact (plain_name _ _ I).
Qed.
Lemma stands_nonempty p n k : In (n, k) longopts -> stands_for p n -> p <> "".
Proof.
  intros I S ->. pose proof (resolve_some _ _ _ I S) as R. vm_compute in R. discriminate R.
Qed.
Lemma split_inv w p v : split_eq w = (p, v) -> w = match v with None => p | Some v => p ++ "=" ++ v end.
Proof.
  revert p v. induction w as [|c w IH]; intros p v; cbn [split_eq].
  - intro H. now injection H as <- <-.
  - destruct (Ascii.eqb_spec c "=") as [->|N].
    + intro H. now injection H as <- <-.
    + destruct (split_eq w) as [n u]. intro H. injection H as <- <-. rewrite (IH n u eq_refl). now destruct u.
Qed.

Lemma word_long w : w <> "" -> word_of ("--" ++ w) = Options (fst (long_word w)) (snd (long_word w)).
Proof. destruct w as [|c w]; [congruence|]. intros _. cbn [word_of String.append]. now destruct (long_word (String c w)). Qed.
Lemma append_cons_nonempty p v : p <> "" -> p ++ v <> "".
Proof. destruct p; [congruence | discriminate]. Qed.

Lemma cluster_flags w la : flags w la -> forall t, cluster (w ++ t) = ((la ++ fst (cluster t))%list, snd (cluster t)).
Proof.
  induction 1 as [|w l F IH|w l F IH]; intro t.
  - cbn. now destruct (cluster t).
  - change (("d" ++ w) ++ t) with (String "d" (w ++ t)). cbn [cluster shortopts Ascii.eqb Bool.eqb]. rewrite IH. reflexivity.
  - change (("h" ++ w) ++ t) with (String "h" (w ++ t)). cbn [cluster shortopts Ascii.eqb Bool.eqb]. rewrite IH. reflexivity.
Qed.
Lemma word_short w : w <> "" -> (forall r, w <> "-" ++ r) -> word_of ("-" ++ w) = Options (fst (cluster w)) (snd (cluster w)).
Proof.
  destruct w as [|c w]; [congruence|]. intros _ N. 
  destruct (ascii_dec c "-") as [->|D]; [exfalso; exact (N w eq_refl)|].
  cbn [String.append]. unfold word_of.
  destruct c as [[|] [|] [|] [|] [|] [|] [|] [|]]; try (now destruct (cluster _)).
Qed.
Lemma flags_start w la t r : flags w la -> (forall r, t <> "-" ++ r) -> w ++ t <> "-" ++ r.
Proof. intros F N. destruct F; [apply N | discriminate | discriminate]. Qed.

Theorem C84_recognised : forall words options, writes words options -> getopt_long words = options.
Proof.
  induction 1 as [| |w r l O W IH|p n a r l Sp St W IH|p n a v r l Sp St W IH|p n a v r l Sp St W IH|w la r l F N W IH|w la c v a r l F Sh N W IH|w la c v a r l F Sh W IH].
  - reflexivity.
  - reflexivity.
  - cbn [getopt_long]. destruct O as [->|O]; [exact IH|]. 
    assert (E : word_of w = Operand).
    { destruct w as [|c w]; [reflexivity|]. destruct (ascii_dec c "-") as [->|D]; [exfalso; exact (O w eq_refl)|].
      unfold word_of. destruct c as [[|] [|] [|] [|] [|] [|] [|] [|]]; try reflexivity. congruence. }
    now rewrite E.
  - apply flag_table in Sp. cbn [getopt_long]. rewrite word_long by exact (stands_nonempty _ _ _ Sp St).
    unfold long_word. rewrite (plain_stands _ _ _ Sp St), (resolve_some _ _ _ Sp St). cbn. now rewrite IH.
  - apply takes_table in Sp. destruct Sp as (f & Sp & ->). cbn [getopt_long].
    rewrite word_long by (apply append_cons_nonempty; exact (stands_nonempty _ _ _ Sp St)).
    unfold long_word. rewrite split_plain by exact (plain_stands _ _ _ Sp St). rewrite (resolve_some _ _ _ Sp St). cbn. now rewrite IH.
  - apply takes_table in Sp. destruct Sp as (f & Sp & ->). cbn [getopt_long].
    rewrite word_long by exact (stands_nonempty _ _ _ Sp St).
    unfold long_word. rewrite (plain_stands _ _ _ Sp St), (resolve_some _ _ _ Sp St). cbn. now rewrite IH.
  - cbn [getopt_long]. pose proof (cluster_flags _ _ F "") as C. rewrite append_nil_r in C.
    rewrite word_short; [|exact N|intro r'; rewrite <- (append_nil_r w); apply (flags_start _ _ _ _ F); discriminate].
    rewrite C. cbn. now rewrite app_nil_r, IH.
  - cbn [getopt_long]. pose proof (cluster_flags _ _ F (c ++ v)) as C.
    assert (X : cluster (c ++ v) = ([a], None)).
    { destruct Sh; cbn [String.append cluster shortopts Ascii.eqb Bool.eqb]; destruct (String.eqb_spec v ""); congruence. }
    rewrite X in C. cbn [fst snd] in C.
    rewrite word_short.
    + rewrite C. cbn. now rewrite <- app_assoc, IH.
    + destruct F; [destruct Sh; discriminate | discriminate | discriminate].
    + intro r'. apply (flags_start _ _ _ _ F). destruct Sh; discriminate.
  - cbn [getopt_long]. pose proof (cluster_flags _ _ F c) as C.
    assert (X : exists f, cluster c = ([], Some f) /\ f v = a) by (destruct Sh; eexists; split; reflexivity).
    destruct X as (f & X & Y). rewrite X in C. cbn [fst snd] in C. rewrite app_nil_r in C.
    rewrite word_short.
    + rewrite C. cbn. now rewrite Y, IH.
    + destruct F; [destruct Sh; discriminate | discriminate | discriminate].
    + intro r'. apply (flags_start _ _ _ _ F). destruct Sh; discriminate.
Qed.

Lemma cluster_inv w : ~ In O_other (fst (cluster w)) ->
  match snd (cluster w) with
  | None => flags w (fst (cluster w)) \/
            exists w1 la c v a, w = w1 ++ c ++ v /\ flags w1 la /\ short_arg c v a /\ v <> "" /\ fst (cluster w) = (la ++ [a])%list
  | Some f => exists w1 c, w = w1 ++ c /\ flags w1 (fst (cluster w)) /\ forall v, short_arg c v (f v)
  end.
Proof.
  induction w as [|c w IH]; [left; constructor|].
  assert (T : forall f, (forall v, short_arg (String c "") v (f v)) -> cluster (String c w) = (if String.eqb w "" then ([], Some f) else ([f w], None)) ->
    match snd (cluster (String c w)) with
    | None => flags (String c w) (fst (cluster (String c w))) \/
            exists w1 la c' v a, String c w = w1 ++ c' ++ v /\ flags w1 la /\ short_arg c' v a /\ v <> "" /\ fst (cluster (String c w)) = (la ++ [a])%list
    | Some f => exists w1 c', String c w = w1 ++ c' /\ flags w1 (fst (cluster (String c w))) /\ forall v, short_arg c' v (f v)
    end).
  { intros f Hf E. rewrite E. destruct (String.eqb_spec w "") as [->|N]; cbn [fst snd].
    - exists "", (String c ""). repeat split; [constructor | exact Hf].
    - right. exists "", [], (String c ""), w, (f w). repeat split; [constructor | apply Hf | exact N]. }
  assert (D : forall a, (forall w l, flags w l -> flags (String c w) (a :: l)) -> cluster (String c w) = (a :: fst (cluster w), snd (cluster w)) ->
    ~ In O_other (fst (cluster (String c w))) ->
    match snd (cluster (String c w)) with
    | None => flags (String c w) (fst (cluster (String c w))) \/
            exists w1 la c' v a, String c w = w1 ++ c' ++ v /\ flags w1 la /\ short_arg c' v a /\ v <> "" /\ fst (cluster (String c w)) = (la ++ [a])%list
    | Some f => exists w1 c', String c w = w1 ++ c' /\ flags w1 (fst (cluster (String c w))) /\ forall v, short_arg c' v (f v)
    end).
  { intros a Ha E N. rewrite E in *. cbn [fst snd In] in *. assert (N' : ~ In O_other (fst (cluster w))) by tauto. specialize (IH N').
    destruct (snd (cluster w)) as [f|].
    - destruct IH as (w1 & c' & -> & F & S). exists (String c w1), c'. repeat split; auto.
    - destruct IH as [F|(w1 & la & c' & v & b & -> & F & S & V & ->)]; [left; auto|]. right. exists (String c w1), (a :: la), c', v, b. repeat split; auto. }
  intro N. destruct (ascii_dec c "d") as [->|Nd].
  { apply (D O_debug); [intros; now apply (F_d w0)|cbn; now destruct (cluster w)|exact N]. }
  destruct (ascii_dec c "h") as [->|Nh].
  { apply (D O_help); [intros; now apply (F_h w0)|cbn; now destruct (cluster w)|exact N]. }
  destruct (ascii_dec c "i") as [->|Ni].
  { apply (T O_infile); [intro v; constructor | reflexivity]. }
  destruct (ascii_dec c "o") as [->|No].
  { apply (T O_outfile); [intro v; constructor | reflexivity]. }
  exfalso. apply N. cbn [cluster]. unfold shortopts.
  rewrite (proj2 (Ascii.eqb_neq c "d") Nd), (proj2 (Ascii.eqb_neq c "i") Ni), (proj2 (Ascii.eqb_neq c "o") No), (proj2 (Ascii.eqb_neq c "h") Nh).
  left. reflexivity.
Qed.

Lemma long_inv w : ~ In O_other (fst (long_word w)) ->
  match snd (long_word w) with
  | None => (exists n a, spelling a = Some (n, None) /\ stands_for w n /\ fst (long_word w) = [a]) \/
            (exists p n a v, spelling a = Some (n, Some v) /\ stands_for p n /\ w = p ++ "=" ++ v /\ fst (long_word w) = [a])
  | Some f => fst (long_word w) = [] /\ exists n, stands_for w n /\ forall v, spelling (f v) = Some (n, Some v)
  end.
Proof.
  unfold long_word. destruct (split_eq w) as [p v] eqn:E. apply split_inv in E.
  destruct (resolve p) as [[a|f]|] eqn:R, v as [v|]; cbn [fst snd In]; intro N; try (exfalso; tauto); subst w; apply resolve_inv in R; destruct R as (n & I & S).
  - left. exists n, a. auto using table_flag.
  - right. exists p, n, (f v), v. auto using table_takes.
  - split; [reflexivity|]. exists n. split; [exact S|]. exact (table_takes _ _ I).
Qed.

Lemma word_cases w : (word_of w = Operand /\ operand w) \/ (word_of w = End /\ w = "--") \/
  (exists r, w = "--" ++ r /\ word_of w = Options (fst (long_word r)) (snd (long_word r))) \/
  (exists r, w = "-" ++ r /\ r <> "" /\ word_of w = Options (fst (cluster r)) (snd (cluster r))).
Proof.
  destruct w as [|c w]; [left; split; [reflexivity|right; discriminate]|].
  destruct (ascii_dec c "-") as [->|D].
  - destruct w as [|c w]; [left; split; [reflexivity|left; reflexivity]|]. destruct (ascii_dec c "-") as [->|D].
    + destruct w as [|c w]; [right; left; auto|]. right. right. left. exists (String c w). split; [reflexivity|]. apply (word_long (String c w)). discriminate.
    + right. right. right. exists (String c w). repeat split; [discriminate|]. apply word_short; [discriminate|]. intros r E. injection E. congruence.
  - left. split; [|right; intros r E; injection E; congruence].
    unfold word_of. destruct c as [[|] [|] [|] [|] [|] [|] [|] [|]]; try reflexivity. congruence.
Qed.

Lemma writes_complete : forall n words, (List.length words <= n)%nat -> ~ In O_other (getopt_long words) -> writes words (getopt_long words).
Proof.
  induction n as [|n IH]; intros words L N.
  - destruct words; [constructor | cbn in L; lia].
  - destruct words as [|w r]; [constructor|]. cbn [List.length] in L. cbn [getopt_long] in *.
    destruct (word_cases w) as [[E O]|[[E ->]|[(t & -> & E)|(t & -> & Nt & E)]]]; rewrite E in *.
    + apply W_operand; [exact O|]. apply IH; [lia | exact N].
    + constructor.
    + pose proof (long_inv t) as V. destruct (snd (long_word t)) as [f|].
      * destruct V as (V & m & S & Sp); [intro X; apply N; apply in_or_app; now left|]. rewrite V in *. cbn [app] in *.
        destruct r as [|v r]; [exfalso; apply N; now left|]. apply (W_next _ m); [apply Sp | exact S |].
        apply IH; [cbn [List.length] in L; lia|]. intro X. apply N. now right.
      * destruct V as [(m & a & Sp & S & V)|(p & m & a & v & Sp & S & -> & V)]; [intro X; apply N; apply in_or_app; now left| |]; rewrite V in *; cbn [app] in *.
        -- apply (W_long _ m); [exact Sp | exact S |]. apply IH; [lia|]. intro X. apply N. now right.
        -- apply (W_eq _ m); [exact Sp | exact S |]. apply IH; [lia|]. intro X. apply N. now right.
    + pose proof (cluster_inv t) as V. destruct (snd (cluster t)) as [f|].
      * destruct V as (w1 & c & -> & F & S); [intro X; apply N; apply in_or_app; now left|].
        destruct r as [|v r]; [exfalso; apply N; apply in_or_app; right; now left|]. apply W_short; [exact F | apply S |].
        apply IH; [cbn [List.length] in L; lia|]. intro X. apply N. apply in_or_app. right. now right.
      * assert (N' : ~ In O_other (getopt_long r)) by (intro X; apply N; apply in_or_app; now right).
        destruct V as [F|(w1 & la & c & v & a & -> & F & S & Nv & V)]; [intro X; apply N; apply in_or_app; now left| |].
        -- apply W_flags; [exact F | exact Nt |]. apply IH; [lia | exact N'].
        -- rewrite V. rewrite <- app_assoc. apply W_glued; [exact F | exact S | exact Nv |]. apply IH; [lia | exact N'].
Qed.

Lemma writes_known words l : writes words l -> ~ In O_other l.
Proof.
  induction 1 as [| |w r l O W IH|p n a r l Sp St W IH|p n a v r l Sp St W IH|p n a v r l Sp St W IH|w la r l F N W IH|w la c v a r l F Sh N W IH|w la c v a r l F Sh W IH]; cbn [In];
    try tauto; try (intros [->|X]; [discriminate Sp | tauto]).
  - rewrite in_app_iff. intros [X|X]; [|tauto]. clear - F X. induction F; cbn [In] in X; intuition discriminate.
  - rewrite in_app_iff. cbn [In]. intros [X|[X|X]]; [| |tauto].
    + clear - F X. induction F; cbn [In] in X; intuition discriminate.
    + subst a. inversion Sh.
  - rewrite in_app_iff. cbn [In]. intros [X|[X|X]]; [| |tauto].
    + clear - F X. induction F; cbn [In] in X; intuition discriminate.
    + subst a. inversion Sh.
Qed.

(** A command line is refused by getopt_long iff it writes no list of options *)
Theorem C84_unknown : forall words, In O_other (getopt_long words) <-> ~ exists options, writes words options.
Proof.
  intro words. split.
  - intros I [l W]. apply (writes_known _ _ W). now rewrite <- (C84_recognised _ _ W).
  - intro H. destruct (in_dec (fun x y : arg => ltac:(decide equality; first [apply string_dec | apply bool_dec]) : {x = y} + {x <> y}) O_other (getopt_long words)) as [I|N]; [exact I|].
    exfalso. apply H. exists (getopt_long words). exact (writes_complete _ _ (le_n _) N).
Qed.

(** The tool goes to work iff the words write known options with valid numbers, one of them a file to read *)
Theorem C84_accepts : forall words, (exists o, parse_args (getopt_long words) = Ready o) <->
  exists options, writes words options /\ Forall acceptable options /\ exists f, In (O_infile f) options \/ In (O_hvcc_file f) options.
Proof.
  intro words. rewrite C75_accepts. split.
  - intros [F I]. exists (getopt_long words). repeat split; [|exact F|exact I]. apply (writes_complete _ _ (le_n _)).
    intro X. rewrite Forall_forall in F. exact (F _ X).
  - intros (l & W & F & I). rewrite (C84_recognised _ _ W). auto.
Qed.

(** What the tool does with words that write options is what it does with these options (C70-C77) *)
Theorem C84_tool : forall fs w stdin spb sp words options, writes words options -> main_words fs w stdin spb sp words = main fs w stdin spb sp options.
Proof. intros fs w stdin spb sp words options W. unfold main_words. now rewrite (C84_recognised _ _ W). Qed.

(** * The help text *)
(** tools/h265nal.cc:77-129: the ways to write options that the help text shows, except for -q, and what they stand for *)
Definition help (v : string) : list (list string * arg) :=
  [(["-d"], O_debug); (["-i"; v], O_infile v); (["--hvcc-file"; v], O_hvcc_file v); (["-o"; v], O_outfile v);
   (["--dump-all"], O_dump_all); (["--dump-length"], O_dump_length);
   (["--as-one-line"], O_as_one_line true); (["--no-as-one-line"], O_as_one_line false);
   (["--add-offset"], O_add_offset true); (["--no-add-offset"], O_add_offset false);
   (["--add-length"], O_add_length true); (["--no-add-length"], O_add_length false);
   (["--add-parsed-length"], O_add_parsed_length true); (["--no-add-parsed-length"], O_add_parsed_length false);
   (["--add-checksum"], O_add_checksum true); (["--no-add-checksum"], O_add_checksum false);
   (["--add-resolution"], O_add_resolution true); (["--no-add-resolution"], O_add_resolution false);
   (["--add-contents"], O_add_contents true); (["--no-add-contents"], O_add_contents false);
   (["--nalu-length-bytes"; v], O_nalu_length_bytes v); (["--frames-per-second"; v], O_frames_per_second v);
   (["--version"], O_version); (["-h"], O_help)].
Theorem C84_help : forall v ws a words options, In (ws, a) (help v) -> writes words options -> writes (ws ++ words) (a :: options).
Proof.
  intros v ws a words options I W.
  assert (L : forall a n, spelling a = Some (n, None) -> writes ([("--" ++ n)%string] ++ words) (a :: options)).
  { intros a' n H. apply (W_long n n); [exact H | left; reflexivity | exact W]. }
  assert (T : forall a n, spelling a = Some (n, Some v) -> writes ([("--" ++ n)%string; v] ++ words) (a :: options)).
  { intros a' n H. apply (W_next n n); [exact H | left; reflexivity | exact W]. }
  cbn [help In] in I. intuition; match goal with H : (_, _) = _ |- _ => injection H as <- <- end.
  all: try (match goal with |- writes _ (?a :: _) => let s := eval vm_compute in (spelling a) in
    match s with Some (?n, None) => exact (L a n eq_refl) | Some (?n, Some _) => exact (T a n eq_refl) end end).
  - apply (W_flags "d" [O_debug]); [apply (F_d ""); constructor | discriminate | exact W].
  - apply (W_short "" [] "i"); [constructor | constructor | exact W].
  - apply (W_short "" [] "o"); [constructor | constructor | exact W].
  - apply (W_flags "h" [O_help]); [apply (F_h ""); constructor | discriminate | exact W].
Qed.

(** The help text also shows -q, which the tool does not know: it stops with -1.  And it says that the input is standard input by default,
    but without a file to read the tool stops with -1. *)
Theorem C84_q_refuted : forall fs w stdin spb sp words, main_words fs w stdin spb sp ("-q" :: words) = Done (-1, "").
Proof. reflexivity. Qed.
Theorem C84_stdin_refuted : forall fs w stdin spb sp, main_words fs w stdin spb sp [] = Done (-1, "").
Proof. reflexivity. Qed.

(** Non-vacuity: abbreviations, clusters, glued arguments, operands, "--" *)
Example C84_case : writes ["x.hevc"; "--add-ch"; "-ddi"; "-"; "-oout"; "--frames=25"; "--dump-l"; "-"; "--"; "-q"]
  [O_add_checksum true; O_debug; O_debug; O_infile "-"; O_outfile "out"; O_frames_per_second "25"; O_dump_length].
Proof.
  assert (X : getopt_long ["x.hevc"; "--add-ch"; "-ddi"; "-"; "-oout"; "--frames=25"; "--dump-l"; "-"; "--"; "-q"] =
    [O_add_checksum true; O_debug; O_debug; O_infile "-"; O_outfile "out"; O_frames_per_second "25"; O_dump_length]) by reflexivity.
  rewrite <- X. apply (writes_complete _ _ (le_n _)). rewrite X. cbn [In]. intuition discriminate.
Qed.
(** "--add-c" begins two names and "--no-debug" none: no way to write options *)
Example C84_case_wrong : (~ exists l, writes ["--add-c"] l) /\ (~ exists l, writes ["--no-debug"] l) /\ (~ exists l, writes ["--debug=1"] l) /\ (~ exists l, writes ["-i"] l).
Proof. repeat split; apply C84_unknown; left; reflexivity. Qed.
