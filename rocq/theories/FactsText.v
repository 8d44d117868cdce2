(** Facts about the printed text: running a sequence of output operations that consists of whole items gives well indented text whose words
    do not depend on the indentation level. *)
From Coq Require Import ZArith List Bool Lia ZifyBool ZifyNat String Ascii.
From Coq Require Decimal DecimalString DecimalZ.
From Verif Require Import MBase MBitBuffer Spec Syntax MCommon MText SpecText.
Import ListNotations.
Open Scope string_scope.
Open Scope Z_scope.

(** * Strings *)
Lemma sapp_assoc a b c : (a ++ b) ++ c = a ++ (b ++ c).
Proof. induction a; cbn; [reflexivity | now rewrite IHa]. Qed.
Lemma sapp_nil a : a ++ "" = a.
Proof. induction a; cbn; [reflexivity | now rewrite IHa]. Qed.

Fixpoint sall (p : ascii -> bool) (s : string) : bool := match s with EmptyString => true | String c r => p c && sall p r end.
Lemma sall_app p a b : sall p (a ++ b) = sall p a && sall p b.
Proof. induction a; cbn; [reflexivity | rewrite IHa; now rewrite andb_assoc]. Qed.
Lemma sall_mono (p q : ascii -> bool) s : (forall c, p c = true -> q c = true) -> sall p s = true -> sall q s = true.
Proof. intros H. induction s; cbn; [reflexivity|]. rewrite !andb_true_iff. intros [Ha Hs]. auto. Qed.

Lemma words_cons2 c x s : words (String c (String x s)) =
  if is_space c then words (String x s) else if is_space x then String c "" :: words (String x s)
  else match words (String x s) with w :: ws => String c w :: ws | [] => [] end.
Proof. reflexivity. Qed.
Lemma words_nonempty c s : is_space c = false -> exists w ws, words (String c s) = w :: ws.
Proof.
  revert c. induction s as [|x s IH]; intros c Hc; [cbn; rewrite Hc; eauto|]. rewrite words_cons2, Hc.
  destruct (is_space x) eqn:Hx; [eauto|].
  destruct (IH _ Hx) as (w & ws & E). rewrite E. eauto.
Qed.
Lemma words_app a c b : is_space c = true -> words (a ++ String c b) = (words a ++ words b)%list.
Proof.
  intros Hc. induction a as [|x a IH]; [cbn [words append]; now rewrite Hc|].
  cbn [append]. destruct a as [|y a].
  - cbn [append]. rewrite words_cons2. cbn [words]. rewrite Hc. destruct (is_space x); reflexivity.
  - cbn [append] in *. rewrite !words_cons2.
    rewrite IH. destruct (is_space x); [reflexivity|]. destruct (is_space y) eqn:Hy; [reflexivity|].
    destruct (words_nonempty y a Hy) as (w & ws & E). rewrite E. reflexivity.
Qed.
Lemma words_space c b : is_space c = true -> words (String c b) = words b.
Proof. intros H. cbn [words]. now rewrite H. Qed.
Lemma words_word s : s <> "" -> sall (fun c => negb (is_space c)) s = true -> words s = [s].
Proof.
  induction s as [|c s IH]; [congruence|]. intros _. cbn [sall]. rewrite andb_true_iff, negb_true_iff. intros [Hc Hs].
  destruct s as [|x s]; [cbn; now rewrite Hc|]. rewrite words_cons2, Hc.
  assert (Hx : is_space x = false) by (cbn [sall] in Hs; rewrite andb_true_iff, negb_true_iff in Hs; tauto).
  rewrite Hx, IH by (congruence || assumption). reflexivity.
Qed.

(** * Lines *)
Definition plain (s : string) : bool := sall (fun c => negb (is_newline c)) s.
Lemma lines_plain s : plain s = true -> lines s = [s].
Proof.
  unfold plain. induction s as [|c s IH]; [reflexivity|]. cbn [sall lines]. rewrite andb_true_iff, negb_true_iff. intros [Hc Hs].
  now rewrite Hc, (IH Hs).
Qed.
Lemma lines_cut s t : plain s = true -> lines (s ++ String newline t) = s :: lines t.
Proof.
  unfold plain. induction s as [|c s IH]; [reflexivity|]. cbn [sall append lines]. rewrite andb_true_iff, negb_true_iff. intros [Hc Hs].
  now rewrite Hc, (IH Hs).
Qed.
Definition joined (ls : list string) : string := fold_right (fun l r => String newline l ++ r) "" ls.
Lemma joined_app a b : joined (a ++ b)%list = joined a ++ joined b.
Proof. induction a as [|l a IHa]; [reflexivity|]. cbn [joined fold_right app]. fold (joined a) (joined (a ++ b)%list). rewrite IHa. cbn [append]. now rewrite sapp_assoc. Qed.
Lemma lines_joined s ls : plain s = true -> forallb plain ls = true -> lines (s ++ joined ls) = s :: ls.
Proof.
  revert s. induction ls as [|l ls IH]; intros s Hs H.
  - cbn [joined fold_right]. rewrite sapp_nil. now apply lines_plain.
  - cbn [forallb] in H. rewrite andb_true_iff in H. destruct H as [Hl H].
    cbn [joined fold_right]. fold (joined ls). change (String newline l ++ joined ls) with (String newline (l ++ joined ls)).
    rewrite lines_cut by assumption. f_equal. now apply IH.
Qed.

Lemma layout_app a : forall b d d', layout d a = Some d' -> layout d (a ++ b)%list = layout d' b.
Proof.
  induction a as [|l a IH]; intros b d d' H; [cbn in *; congruence|].
  cbn [layout app] in *. destruct (margin l) as [n t]. destruct (String.eqb t "}").
  - destruct d as [|k]; [discriminate|]. destruct (Nat.eqb n (2 * k)); [now apply IH | discriminate].
  - destruct (Nat.eqb n (2 * d)); [|discriminate].
    destruct (last_char t) as [c|]; [destruct (Ascii.eqb c "{")|]; now apply IH.
Qed.

(** ** A line of text: no newline, no blank at the start, not a closing brace, no open brace at the end *)
Definition starts (s : string) : bool := match s with EmptyString => false | String c _ => negb (Ascii.eqb c " ") && negb (Ascii.eqb c "}") end.
Definition ends_open (s : string) : bool := match last_char s with Some c => Ascii.eqb c "{" | None => false end.
Definition leaf (s : string) : bool := plain s && starts s && negb (ends_open s).
(** the name of a block *)
Definition name (s : string) : bool := plain s && starts s.

Lemma margin_blanks n s : starts s = true -> margin (blanks n ++ s) = (n, s).
Proof.
  intros H. induction n as [|n IH].
  - cbn. destruct s as [|c r]; [discriminate|]. cbn in *. rewrite andb_true_iff, !negb_true_iff in H. destruct H as [H _]. now rewrite H.
  - cbn [blanks append margin]. change (Ascii.eqb " " " ") with true. cbv iota. now rewrite IH.
Qed.
Lemma margin_blank n : margin (blanks n) = (n, "").
Proof. induction n as [|n IH]; [reflexivity|]. cbn [blanks margin]. change (Ascii.eqb " " " ") with true. cbv iota. now rewrite IH. Qed.
Lemma margin_close n : margin (blanks n ++ "}") = (n, "}").
Proof. induction n as [|n IH]; [reflexivity|]. cbn [blanks append margin]. change (Ascii.eqb " " " ") with true. cbv iota. now rewrite IH. Qed.
Lemma plain_blanks n : plain (blanks n) = true.
Proof. unfold plain. induction n; [reflexivity | cbn [blanks sall]; now rewrite IHn]. Qed.
Lemma plain_app a b : plain (a ++ b) = plain a && plain b.
Proof. apply sall_app. Qed.
Lemma starts_brace s : starts s = true -> String.eqb s "}" = false.
Proof.
  destruct s as [|c r]; [discriminate|]. cbn [starts]. rewrite andb_true_iff, !negb_true_iff. intros [_ H]. cbn [String.eqb]. now rewrite H.
Qed.
Lemma last_char_app a c : last_char (a ++ String c "") = Some c.
Proof.
  induction a as [|x a IH]; [reflexivity|]. cbn [append last_char]. destruct a as [|y a]; [reflexivity|]. exact IH.
Qed.
Lemma layout_leaf d s : leaf s = true -> layout d [blanks (2 * d) ++ s] = Some d.
Proof.
  unfold leaf, ends_open. rewrite !andb_true_iff, negb_true_iff. intros [[_ Hs] He].
  cbn [layout]. rewrite (margin_blanks _ _ Hs), (starts_brace _ Hs), Nat.eqb_refl.
  destruct (last_char s); [now rewrite He | reflexivity].
Qed.
Lemma layout_open d n : name n = true -> layout d [blanks (2 * d) ++ (n ++ " {")] = Some (S d).
Proof.
  unfold name. rewrite andb_true_iff. intros [_ Hs].
  assert (Hs' : starts (n ++ " {") = true) by (destruct n; [discriminate | exact Hs]).
  cbn [layout]. rewrite (margin_blanks _ _ Hs'), (starts_brace _ Hs'), Nat.eqb_refl.
  replace (n ++ " {") with ((n ++ " ") ++ String "{" "") by (now rewrite sapp_assoc). now rewrite last_char_app.
Qed.
Lemma layout_close d : layout (S d) [blanks (2 * d) ++ "}"] = Some d.
Proof. cbn [layout]. now rewrite margin_close, String.eqb_refl, Nat.eqb_refl. Qed.
Lemma layout_blank d : layout d [blanks (2 * d)] = Some d.
Proof. cbn [layout]. rewrite margin_blank, Nat.eqb_refl. reflexivity. Qed.

(** * Sequences of whole items *)
Inductive items : list cmd -> Prop :=
| I_nil : items []
| I_line s : leaf s = true -> items [Ind; Put s]
| I_blank : items [Ind]
| I_block n b : name n = true -> items b -> items ([Ind; Put (n ++ " {"); Incr] ++ b ++ [Decr; Ind; Put "}"])%list
| I_sub b : structs b -> items ([Ind; Save] ++ b ++ [Restore])%list
| I_call b : items b -> items ([Save] ++ b ++ [Restore])%list
| I_app a b : items a -> items b -> items (a ++ b)%list
with structs : list cmd -> Prop :=
| S_struct n b : name n = true -> items b -> structs ([Put (n ++ " {"); Incr] ++ b ++ [Decr; Ind; Put "}"])%list.
Scheme items_ind2 := Induction for items Sort Prop with structs_ind2 := Induction for structs Sort Prop.
Combined Scheme items_mut from items_ind2, structs_ind2.

(** The words printed, in order *)
Definition toks (cs : list cmd) : list string := flat_map (fun c => match c with Put s => words s | _ => [] end) cs.
Lemma toks_app a b : toks (a ++ b)%list = (toks a ++ toks b)%list.
Proof. apply flat_map_app. Qed.

(** Text that starts with a blank or newline, or is empty *)
Definition headed (t : string) : Prop := match t with EmptyString => True | String c _ => is_space c = true end.
Lemma headed_app a b : headed a -> headed b -> headed (a ++ b).
Proof. destruct a; cbn; auto. Qed.
Lemma words_headed a b : headed b -> words (a ++ b) = (words a ++ words b)%list.
Proof. destruct b as [|c b]; cbn [headed]; intros H; [now rewrite sapp_nil, app_nil_r | rewrite words_app, words_space by assumption; reflexivity]. Qed.

Definition lvl (l : Z) : nat := Z.to_nat l.
(** [t] is what the items print at level [l] *)
Definition seg (l : Z) (t : string) : Prop :=
  headed t /\
  (l = -1 -> plain t = true) /\
  (0 <= l -> exists ls, t = joined ls /\ forallb plain ls = true /\ layout (lvl l) ls = Some (lvl l)).
(** [t] is what a struct prints at level [l], with the cursor at its indentation *)
Definition sseg (l : Z) (t : string) : Prop :=
  (l = -1 -> plain t = true) /\
  (0 <= l -> exists s ls, t = s ++ joined ls /\ plain s = true /\ forallb plain ls = true /\ layout (lvl l) ((blanks (2 * lvl l) ++ s) :: ls) = Some (lvl l)).

Lemma spaces_blanks n : spaces n = blanks n.
Proof. induction n; [reflexivity | cbn; now rewrite IHn]. Qed.
Lemma indent_one : fdump_indent_level (-1) = " ".
Proof. reflexivity. Qed.
Lemma indent_many l : 0 <= l -> fdump_indent_level l = String newline (blanks (2 * lvl l)).
Proof.
  intros H. unfold fdump_indent_level. replace (l =? -1) with false by lia. rewrite spaces_blanks. do 2 f_equal. unfold lvl. lia.
Qed.
Lemma indent_headed l : headed (fdump_indent_level l).
Proof. unfold fdump_indent_level. now destruct (l =? -1). Qed.
Lemma indent_words l : words (fdump_indent_level l) = [].
Proof.
  unfold fdump_indent_level. destruct (l =? -1); [reflexivity|]. rewrite words_space by reflexivity.
  induction (Z.to_nat (Z.abs (2 * l))); [reflexivity|]. cbn [spaces]. now rewrite words_space.
Qed.
Lemma incr_range l : -1 <= l -> -1 <= indent_level_incr l.
Proof. unfold indent_level_incr. destruct (Z.eqb_spec l (-1)); lia. Qed.
Lemma decr_incr l : -1 <= l -> indent_level_decr (indent_level_incr l) = l.
Proof. unfold indent_level_decr, indent_level_incr. intros H. destruct (Z.eqb_spec l (-1)); [subst; reflexivity|]. destruct (Z.eqb_spec (l + 1) (-1)); lia. Qed.
Lemma incr_lvl l : 0 <= l -> 0 <= indent_level_incr l /\ lvl (indent_level_incr l) = S (lvl l).
Proof. unfold indent_level_incr, lvl. intros H. destruct (Z.eqb_spec l (-1)); lia. Qed.

Lemma seg_line l s : leaf s = true -> seg l (fdump_indent_level l ++ s).
Proof.
  intros Hs. assert (Hp : plain s = true) by (unfold leaf in Hs; rewrite !andb_true_iff in Hs; tauto). split; [|split].
  - unfold fdump_indent_level. now destruct (l =? -1).
  - intros ->. exact Hp.
  - intros Hl. exists [blanks (2 * lvl l) ++ s]. rewrite indent_many by assumption. split; [|split].
    + cbn [joined fold_right]. now rewrite sapp_nil.
    + cbn [forallb]. now rewrite plain_app, plain_blanks, Hp.
    + now apply layout_leaf.
Qed.
Lemma seg_blank l : seg l (fdump_indent_level l).
Proof.
  split; [apply indent_headed|]. split; [now intros ->|]. intros Hl. exists [blanks (2 * lvl l)]. rewrite indent_many by assumption. split; [|split].
  - cbn [joined fold_right]. now rewrite sapp_nil.
  - cbn [forallb]. now rewrite plain_blanks.
  - apply layout_blank.
Qed.
Lemma seg_app l a b : seg l a -> seg l b -> seg l (a ++ b).
Proof.
  intros (Ha & Ha1 & Ha2) (Hb & Hb1 & Hb2). split; [now apply headed_app|]. split.
  - intros H. now rewrite plain_app, Ha1, Hb1.
  - intros H. destruct (Ha2 H) as (la & -> & Pa & La), (Hb2 H) as (lb & -> & Pb & Lb). exists (la ++ lb)%list. split; [|split].
    + symmetry. apply joined_app.
    + now rewrite forallb_app, Pa, Pb.
    + now rewrite (layout_app _ _ _ _ La).
Qed.
Lemma headed_indent l t : headed (fdump_indent_level l ++ t).
Proof. unfold fdump_indent_level. now destruct (l =? -1). Qed.
Lemma seg_sub l t : sseg l t -> seg l (fdump_indent_level l ++ t).
Proof.
  intros (H1 & H2). split; [apply headed_indent|]. split.
  - intros ->. rewrite plain_app. now rewrite H1.
  - intros Hl. destruct (H2 Hl) as (s & ls & -> & Ps & Pl & L). exists ((blanks (2 * lvl l) ++ s) :: ls). rewrite indent_many by assumption. split; [|split].
    + cbn [joined fold_right append]. fold (joined ls). now rewrite sapp_assoc.
    + cbn [forallb]. now rewrite plain_app, plain_blanks, Ps, Pl.
    + exact L.
Qed.
(** a block: name, body one level deeper, closing brace *)
Lemma sseg_struct l n t : name n = true -> -1 <= l -> seg (indent_level_incr l) t -> sseg l ((n ++ " {") ++ t ++ fdump_indent_level l ++ "}").
Proof.
  intros Hn Hl (_ & H1 & H2). assert (Hp : plain (n ++ " {") = true) by (rewrite plain_app; unfold name in Hn; rewrite andb_true_iff in Hn; destruct Hn as [-> _]; reflexivity). split.
  - intros ->. rewrite !plain_app in *. rewrite H1 by reflexivity. rewrite Hp. reflexivity.
  - intros H0. destruct (incr_lvl _ H0) as [Hi Ei]. destruct (H2 Hi) as (ls & -> & Pl & L). rewrite Ei in L.
    exists (n ++ " {"), (List.app ls [(blanks (2 * lvl l) ++ "}")%string]). rewrite indent_many by assumption. split; [|split; [|split]].
    + rewrite joined_app. cbn [joined fold_right]. rewrite sapp_nil. reflexivity.
    + exact Hp.
    + rewrite forallb_app, Pl. cbn [forallb]. now rewrite plain_app, plain_blanks.
    + change (?a :: ?b)%list with ([a] ++ b)%list. rewrite (layout_app _ _ _ _ (layout_open _ _ Hn)), (layout_app _ _ _ _ L). apply layout_close.
Qed.
Lemma words_close l : words (fdump_indent_level l ++ "}") = ["}"].
Proof. unfold fdump_indent_level. destruct (l =? -1); [reflexivity|]. cbn [append]. rewrite words_space by reflexivity.
  induction (Z.to_nat (Z.abs (2 * l))); [reflexivity|]. cbn [spaces append]. now rewrite words_space.
Qed.
Lemma words_indent l t : words (fdump_indent_level l ++ t) = words t.
Proof. unfold fdump_indent_level. destruct (l =? -1); cbn [append]; rewrite words_space by reflexivity; [reflexivity|].
  induction (Z.to_nat (Z.abs (2 * l))); [reflexivity|]. cbn [spaces append]. now rewrite words_space.
Qed.

(** What the items [c] print at level [l] *)
Definition prints (l : Z) (c : list cmd) (t : string) : Prop := forall st rest, run l st (c ++ rest)%list = t ++ run l st rest.
Lemma prints_app l a b ta tb : prints l a ta -> prints l b tb -> prints l (a ++ b)%list (ta ++ tb).
Proof. intros Ha Hb st rest. rewrite <- app_assoc, Ha, Hb. now rewrite sapp_assoc. Qed.
Lemma prints_call l c t : prints l c t -> prints l ([Save] ++ c ++ [Restore])%list t.
Proof. intros H st rest. rewrite <- !app_assoc. cbn [app run]. rewrite H. reflexivity. Qed.
Lemma prints_struct l n b t : -1 <= l -> prints (indent_level_incr l) b t ->
  prints l ([Put (n ++ " {"); Incr] ++ b ++ [Decr; Ind; Put "}"])%list ((n ++ " {") ++ t ++ fdump_indent_level l ++ "}").
Proof.
  intros Hl H st rest. rewrite <- !app_assoc. cbn [app run]. rewrite H. cbn [app run]. rewrite decr_incr by assumption. now rewrite !sapp_assoc.
Qed.

Theorem items_run : 
  (forall c, items c -> forall l, -1 <= l -> exists t, prints l c t /\ seg l t /\ words t = toks c) /\
  (forall c, structs c -> forall l, -1 <= l -> exists t, prints l c t /\ sseg l t /\ words t = toks c).
Proof.
  apply items_mut.
  - intros l Hl. exists "". split; [easy|]. split; [|reflexivity]. split; [exact I|]. split; [reflexivity|]. intros _. exists []. easy.
  - intros s Hs l Hl. exists (fdump_indent_level l ++ s). split; [intros st rest; cbn [app run]; now rewrite sapp_assoc|]. split; [now apply seg_line|].
    rewrite words_indent. symmetry. apply app_nil_r.
  - intros l Hl. exists (fdump_indent_level l). split; [easy|]. split; [apply seg_blank | apply indent_words].
  - intros n b Hn _ IH l Hl. destruct (IH _ (incr_range _ Hl)) as (t & Ht & Hs & Hw).
    exists (fdump_indent_level l ++ ((n ++ " {") ++ t ++ fdump_indent_level l ++ "}")). split; [|split].
    + change ([Ind; Put (n ++ " {"); Incr] ++ b ++ [Decr; Ind; Put "}"])%list with ([Ind] ++ ([Put (n ++ " {"); Incr] ++ b ++ [Decr; Ind; Put "}"]))%list.
      apply prints_app; [easy | now apply prints_struct].
    + apply seg_sub. now apply sseg_struct.
    + rewrite words_indent. cbn [app]. change (toks (Ind :: Put (n ++ " {") :: Incr :: b ++ [Decr; Ind; Put "}"]))%list with
        (words (n ++ " {") ++ toks (b ++ [Decr; Ind; Put "}"]))%list.
      rewrite toks_app, <- Hw. rewrite (words_headed (n ++ " {")) by (apply headed_app; [apply Hs | apply headed_indent]).
      rewrite (words_headed t) by apply headed_indent. now rewrite words_close.
  - intros b _ IH l Hl. destruct (IH _ Hl) as (t & Ht & Hs & Hw). exists (fdump_indent_level l ++ t). split; [|split].
    + change ([Ind; Save] ++ b ++ [Restore])%list with ([Ind] ++ ([Save] ++ b ++ [Restore]))%list. apply prints_app; [easy | now apply prints_call].
    + now apply seg_sub.
    + rewrite words_indent, Hw. cbn [app]. change (toks (Ind :: Save :: b ++ [Restore]))%list with (toks (b ++ [Restore]))%list. rewrite toks_app. cbn. now rewrite app_nil_r.
  - intros b _ IH l Hl. destruct (IH _ Hl) as (t & Ht & Hs & Hw). exists t. split; [now apply prints_call|]. split; [assumption|].
    rewrite Hw. cbn [app]. change (toks (Save :: b ++ [Restore]))%list with (toks (b ++ [Restore]))%list. rewrite toks_app. cbn. now rewrite app_nil_r.
  - intros a b _ IHa _ IHb l Hl. destruct (IHa _ Hl) as (ta & Ha & Sa & Wa), (IHb _ Hl) as (tb & Hb & Sb & Wb).
    exists (ta ++ tb). split; [now apply prints_app|]. split; [now apply seg_app|]. rewrite words_headed by apply Sb. now rewrite toks_app, Wa, Wb.
  - intros n b Hn _ IH l Hl. destruct (IH _ (incr_range _ Hl)) as (t & Ht & Hs & Hw).
    exists ((n ++ " {") ++ t ++ fdump_indent_level l ++ "}"). split; [now apply prints_struct|]. split; [now apply sseg_struct|].
    cbn [app]. change (toks (Put (n ++ " {") :: Incr :: b ++ [Decr; Ind; Put "}"]))%list with (words (n ++ " {") ++ toks (b ++ [Decr; Ind; Put "}"]))%list.
    rewrite toks_app, <- Hw. rewrite (words_headed (n ++ " {")) by (apply headed_app; [apply Hs | apply headed_indent]).
    rewrite (words_headed t) by apply headed_indent. now rewrite words_close.
Qed.

(** The text of a struct, on its own *)
Definition text_of (l : Z) (c : list cmd) : string := run l [] c.
Lemma struct_text c : structs c -> forall l, -1 <= l ->
  words (text_of l c) = toks c /\ (l = -1 -> one_line (text_of l c)) /\ (0 <= l -> well_indented (lvl l) (text_of l c)).
Proof.
  intros H l Hl. destruct (proj2 items_run c H l Hl) as (t & Ht & (H1 & H2) & Hw).
  assert (E : text_of l c = t). { unfold text_of. rewrite <- (app_nil_r c). rewrite Ht. cbn [run]. apply sapp_nil. }
  rewrite E. split; [assumption|]. split.
  - intros H0. apply lines_plain, H1, H0.
  - intros H0. destruct (H2 H0) as (s & ls & -> & Ps & Pl & L). unfold well_indented.
    rewrite <- sapp_assoc, lines_joined; [exact L | rewrite plain_app, plain_blanks; exact Ps | exact Pl].
Qed.

(** * The strings that are printed *)
Definition okc (c : ascii) : bool := negb (is_newline c) && negb (Ascii.eqb c "{").
Lemma okc_plain s : sall okc s = true -> plain s = true.
Proof. apply sall_mono. intros c. unfold okc. rewrite andb_true_iff. tauto. Qed.
Lemma okc_ends s : sall okc s = true -> ends_open s = false.
Proof.
  unfold ends_open. intros H. induction s as [|c s IH]; [reflexivity|]. cbn [sall] in H. rewrite andb_true_iff in H. destruct H as [Hc H].
  cbn [last_char]. destruct s as [|x s].
  - unfold okc in Hc. rewrite andb_true_iff, !negb_true_iff in Hc. tauto.
  - exact (IH H).
Qed.
Lemma ends_app a c s : ends_open (a ++ String c s) = ends_open (String c s).
Proof.
  unfold ends_open. f_equal. induction a as [|x a IH]; [reflexivity|]. cbn [append].
  rewrite <- IH. cbn [last_char]. destruct a; reflexivity.
Qed.
Lemma starts_app n r : starts n = true -> starts (n ++ r) = true.
Proof. now destruct n. Qed.
Lemma leaf_ok n c r : name n = true -> sall okc (String c r) = true -> leaf (n ++ String c r) = true.
Proof.
  unfold name, leaf. rewrite andb_true_iff. intros [Hp Hs] H. rewrite ends_app, (okc_ends _ H), plain_app, Hp, (okc_plain _ H), (starts_app _ _ Hs). reflexivity.
Qed.
Lemma leaf_brace n m : name n = true -> plain m = true -> leaf (n ++ m ++ " }") = true.
Proof.
  unfold name, leaf. rewrite andb_true_iff. intros [Hp Hs] Hm.
  rewrite !plain_app, Hp, Hm, (starts_app _ _ Hs). replace (n ++ m ++ " }") with ((n ++ m) ++ String " " "}") by (now rewrite sapp_assoc).
  rewrite ends_app. reflexivity.
Qed.

Definition digit (c : ascii) : bool := (Nat.leb 48 (nat_of_ascii c) && Nat.leb (nat_of_ascii c) 57) || Ascii.eqb c "-".
Lemma digit_okc c : digit c = true -> okc c = true.
Proof. destruct c as [[] [] [] [] [] [] [] []]; vm_compute; congruence. Qed.
Lemma digit_nospace c : digit c = true -> negb (is_space c) = true.
Proof. destruct c as [[] [] [] [] [] [] [] []]; vm_compute; congruence. Qed.
Lemma uint_digits d : sall digit (DecimalString.NilEmpty.string_of_uint d) = true.
Proof. induction d; cbn [DecimalString.NilEmpty.string_of_uint sall]; try rewrite IHd; reflexivity. Qed.
Lemma uint_digits0 d : sall digit (DecimalString.NilZero.string_of_uint d) = true /\ DecimalString.NilZero.string_of_uint d <> "".
Proof. destruct d; (split; [|discriminate]); try apply (uint_digits (_ d)); try reflexivity. all: apply uint_digits. Qed.
Lemma dec_digit x : sall digit (dec x) = true /\ dec x <> "".
Proof.
  unfold dec. destruct (Z.to_int x); cbn [DecimalString.NilZero.string_of_int]; [apply uint_digits0|].
  split; [|discriminate]. cbn [sall]. rewrite (proj1 (uint_digits0 d)). reflexivity.
Qed.
Lemma dec_okc x : sall okc (dec x) = true.
Proof. eapply sall_mono; [exact digit_okc | apply dec_digit]. Qed.
Lemma dec_word x : words (dec x) = [dec x].
Proof. apply words_word; [apply dec_digit|]. eapply sall_mono; [exact digit_nospace | apply dec_digit]. Qed.
(** Different numbers are printed differently *)
Lemma dec_inj x y : dec x = dec y -> x = y.
Proof.
  unfold dec. intros H. apply (f_equal DecimalString.NilZero.int_of_string) in H.
  assert (N : forall z, match Z.to_int z with Decimal.Pos Decimal.Nil | Decimal.Neg Decimal.Nil => false | _ => true end = true).
  { intros z. pose proof (DecimalZ.of_to z) as E. pose proof (DecimalZ.to_of (Z.to_int z)) as F. rewrite E in F.
    destruct (Z.to_int z) as [[] | []]; try reflexivity; cbn in F; discriminate. }
  rewrite !DecimalString.NilZero.isi in H.
  - apply (f_equal (option_map Z.of_int)) in H. cbn in H. rewrite !DecimalZ.of_to in H. congruence.
  - intros E. specialize (N y). now rewrite E in N.
  - intros E. specialize (N y). now rewrite E in N.
  - intros E. specialize (N x). now rewrite E in N.
  - intros E. specialize (N x). now rewrite E in N.
Qed.

Lemma hex_okc d : 0 <= d < 16 -> okc (ascii_of_nat (Z.to_nat (hex_char d))) = true.
Proof.
  intros H. assert (E : forallb (fun k => okc (ascii_of_nat (Z.to_nat (hex_char (Z.of_nat k))))) (List.seq 0 16) = true) by reflexivity.
  rewrite forallb_forall in E. specialize (E (Z.to_nat d)). rewrite Z2Nat.id in E by lia. apply E, in_seq. lia.
Qed.
Lemma land15 x : 0 <= Z.land x 15 < 16.
Proof. change 15 with (Z.ones 4). rewrite Z.land_ones by lia. apply Z.mod_pos_bound. lia. Qed.
Lemma hex_digits_okc n : forall x, sall okc (hex_digits n x) = true.
Proof. induction n as [|n IH]; intros x; [reflexivity|]. cbn [hex_digits]. rewrite sall_app, IH. cbn [sall]. now rewrite hex_okc by apply land15. Qed.
Lemma pr_x_okc n x : sall okc (pr_x n x) = true.
Proof. apply hex_digits_okc. Qed.
Lemma dec_digit_okc d : 0 <= d < 10 -> okc (ascii_of_nat (Z.to_nat (48 + d))) = true.
Proof.
  intros H. assert (E : forallb (fun k => okc (ascii_of_nat (Z.to_nat (48 + Z.of_nat k)))) (List.seq 0 10) = true) by reflexivity.
  rewrite forallb_forall in E. specialize (E (Z.to_nat d)). rewrite Z2Nat.id in E by lia. apply E, in_seq. lia.
Qed.
Lemma dec_digits_okc n : forall x, sall okc (dec_digits n x) = true.
Proof. induction n as [|n IH]; intros x; [reflexivity|]. cbn [dec_digits]. rewrite sall_app, IH. cbn [sall]. rewrite dec_digit_okc by (apply Z.mod_pos_bound; lia). reflexivity. Qed.
Lemma pr_f_okc d k x : sall okc (pr_f d k x) = true.
Proof. unfold pr_f. rewrite !sall_app, dec_okc, dec_digits_okc. reflexivity. Qed.
Lemma pr_i_okc x : sall okc (pr_i x) = true. Proof. apply dec_okc. Qed.
Lemma pr_u_okc x : sall okc (pr_u x) = true. Proof. apply dec_okc. Qed.
Lemma pr_list_plain pr a b l : (forall x, sall okc (pr x) = true) -> plain a = true -> plain b = true -> plain (pr_list pr a b l) = true.
Proof.
  intros H Ha Hb. induction l as [|x l IH]; [reflexivity|]. cbn [pr_list fold_right]. fold (pr_list pr a b l).
  now rewrite !plain_app, Ha, Hb, IH, (okc_plain _ (H x)).
Qed.
Lemma pr_list2_plain l : plain (pr_list2 l) = true.
Proof.
  induction l as [|x l IH]; [reflexivity|]. cbn [pr_list2 fold_right]. fold (pr_list2 l).
  rewrite !plain_app, IH, pr_list_plain; [reflexivity | exact pr_i_okc | reflexivity | reflexivity].
Qed.
Lemma pr_list3_plain l : plain (pr_list3 l) = true.
Proof. induction l as [|x l IH]; [reflexivity|]. cbn [pr_list3 fold_right]. fold (pr_list3 l). now rewrite !plain_app, IH, pr_list2_plain. Qed.

(** * What the combinators print *)
Definition gi (d : txt) : Prop := forall c, d = Done c -> items c.
Definition gs (d : txt) : Prop := forall c, d = Done c -> structs c.
(** nothing, or the call of a struct *)
Definition gc (d : txt) : Prop := forall c, d = Done c -> c = [] \/ exists b, structs b /\ c = ([Save] ++ b ++ [Restore])%list.

Lemma tseq_done a b c : a +> b = Done c -> exists ca cb, a = Done ca /\ b = Done cb /\ c = (ca ++ cb)%list.
Proof. unfold tseq. destruct a as [ca|]; [|discriminate]. destruct b as [cb|]; [|discriminate]. intros H. injection H as <-. eauto. Qed.
Lemma gi_nop : gi tnop.
Proof. intros c H. injection H as <-. constructor. Qed.
Lemma gi_seq a b : gi a -> gi b -> gi (a +> b).
Proof. intros Ha Hb c H. destruct (tseq_done _ _ _ H) as (ca & cb & Ea & Eb & ->). apply I_app; auto. Qed.
Lemma gi_tif (b : bool) d : (b = true -> gi d) -> gi (tif b d).
Proof. destruct b; cbn; [auto | intros _; apply gi_nop]. Qed.
Lemma gi_if (b : bool) d e : (b = true -> gi d) -> (b = false -> gi e) -> gi (if b then d else e).
Proof. destruct b; auto. Qed.
Lemma gi_tchecked {A} (p : option A) d : (forall a, gi (d a)) -> gi (tchecked p d).
Proof. intros H. destruct p; [apply H | apply gi_nop]. Qed.
Lemma gi_tderef {A} (p : option A) d : (forall a, gi (d a)) -> gi (tderef p d).
Proof. intros H. destruct p; [apply H | intros c E; discriminate]. Qed.
Lemma gi_telem {A} (l : list A) i d : (forall a, gi (d a)) -> gi (telem l i d).
Proof. intros H. unfold telem. destruct (nth_error l i); [apply H | intros c E; discriminate]. Qed.
Lemma gi_teach {A} (l : list A) d : (forall a, gi (d a)) -> gi (teach l d).
Proof. intros H. induction l as [|a l IH]; [apply gi_nop | cbn [teach]; apply gi_seq; auto]. Qed.
Lemma gi_tupto n d : (forall i, gi (d i)) -> gi (tupto n d).
Proof. intros H. induction n as [|n IH]; [apply gi_nop | cbn [tupto]; apply gi_seq; auto]. Qed.
Lemma gi_line s : leaf s = true -> gi (line s).
Proof. intros H c E. injection E as <-. now constructor. Qed.
Lemma gi_call d : gi d -> gi (call d).
Proof.
  intros H c E. destruct (tseq_done _ _ _ E) as (c1 & c2 & E1 & E2 & ->). injection E1 as <-.
  destruct (tseq_done _ _ _ E2) as (c3 & c4 & E3 & E4 & ->). injection E4 as <-. apply I_call, H, E3.
Qed.
Lemma gi_block n d : name n = true -> gi d -> gi (block n d).
Proof.
  intros Hn H c E. destruct (tseq_done _ _ _ E) as (c1 & c2 & E1 & E2 & ->). injection E1 as <-.
  destruct (tseq_done _ _ _ E2) as (c3 & c4 & E3 & E4 & ->). injection E4 as <-. apply I_block; [assumption | apply H, E3].
Qed.
Lemma gs_struct n d : name n = true -> gi d -> gs (struct n d).
Proof.
  intros Hn H c E. destruct (tseq_done _ _ _ E) as (c1 & c2 & E1 & E2 & ->). injection E1 as <-.
  destruct (tseq_done _ _ _ E2) as (c3 & c4 & E3 & E4 & ->). injection E4 as <-. apply S_struct; [assumption | apply H, E3].
Qed.
Lemma gs_tderef {A} (p : option A) d : (forall a, gs (d a)) -> gs (tderef p d).
Proof. intros H. destruct p; [apply H | intros c E; discriminate]. Qed.
Lemma gs_telem {A} (l : list A) i d : (forall a, gs (d a)) -> gs (telem l i d).
Proof. intros H. unfold telem. destruct (nth_error l i); [apply H | intros c E; discriminate]. Qed.
Lemma gi_sub d : gs d -> gi (sub d).
Proof.
  intros H c E. destruct (tseq_done _ _ _ E) as (c1 & c2 & E1 & E2 & ->). injection E1 as <-.
  destruct (tseq_done _ _ _ E2) as (c3 & c4 & E3 & E4 & ->). injection E3 as <-.
  destruct (tseq_done _ _ _ E4) as (c5 & c6 & E5 & E6 & ->). injection E6 as <-. apply (I_sub c5), H, E5.
Qed.
Lemma gc_call d : gs d -> gc (call d).
Proof.
  intros H c E. destruct (tseq_done _ _ _ E) as (c1 & c2 & E1 & E2 & ->). injection E1 as <-.
  destruct (tseq_done _ _ _ E2) as (c3 & c4 & E3 & E4 & ->). injection E4 as <-. right. exists c3. split; [apply H, E3 | reflexivity].
Qed.
Lemma gc_nop : gc tnop.
Proof. intros c E. injection E as <-. now left. Qed.
Lemma gc_tchecked {A} (p : option A) d : (forall a, gc (d a)) -> gc (tchecked p d).
Proof. intros H. destruct p; [apply H | apply gc_nop]. Qed.
Lemma gc_if (b : bool) d e : gc d -> gc e -> gc (if b then d else e).
Proof. destruct b; auto. Qed.
Lemma gi_ind d : gc d -> gi (Done [Ind] +> d).
Proof.
  intros H c E. destruct (tseq_done _ _ _ E) as (c1 & c2 & E1 & E2 & ->). injection E1 as <-.
  destruct (H _ E2) as [-> | (b & Hb & ->)]; [constructor | apply (I_sub b), Hb].
Qed.

Lemma app_string_ok n a r : name n = true -> sall okc (String a r) = true -> leaf (n ++ String a r) = true.
Proof. apply leaf_ok. Qed.
Lemma gi_fi n x : name n = true -> gi (fi n x).
Proof. intros H. apply gi_line. change (": " ++ pr_i x) with (String ":" (String " " (pr_i x))). apply leaf_ok; [assumption|]. cbn [sall]. now rewrite pr_i_okc. Qed.
Lemma gi_fu n x : name n = true -> gi (fu n x).
Proof. intros H. apply gi_line. change (": " ++ pr_u x) with (String ":" (String " " (pr_u x))). apply leaf_ok; [assumption|]. cbn [sall]. now rewrite pr_u_okc. Qed.
Lemma gi_brace n m : name n = true -> plain m = true -> gi (line (n ++ m ++ " }")).
Proof. intros. now apply gi_line, leaf_brace. Qed.
Lemma gi_brace2 n k m : name n = true -> plain k = true -> plain m = true -> gi (line (n ++ k ++ m ++ " }")).
Proof. intros. rewrite <- (sapp_assoc k). apply gi_brace; [assumption | now rewrite plain_app, H0, H1]. Qed.
Lemma gi_vec n l : name n = true -> gi (vec n l).
Proof. intros H. apply gi_brace2; auto. apply pr_list_plain; [exact pr_i_okc | reflexivity | reflexivity]. Qed.
Lemma gi_vecs n l : name n = true -> gi (vecs n l).
Proof. intros H. apply gi_brace2; auto. apply pr_list_plain; [exact pr_i_okc | reflexivity | reflexivity]. Qed.
Lemma gi_vecu n l : name n = true -> gi (vecu n l).
Proof. intros H. apply gi_brace2; auto. apply pr_list_plain; [exact pr_u_okc | reflexivity | reflexivity]. Qed.
Lemma gi_vecc n l : name n = true -> gi (vecc n l).
Proof. intros H. apply gi_brace2; auto. apply pr_list_plain; [exact pr_u_okc | reflexivity | reflexivity]. Qed.
Lemma gi_vecci n l : name n = true -> gi (vecci n l).
Proof. intros H. apply gi_brace2; auto. apply pr_list_plain; [exact pr_i_okc | reflexivity | reflexivity]. Qed.
Lemma gi_vec2 n l : name n = true -> gi (vec2 n l).
Proof. intros H. apply gi_brace2; auto. apply pr_list2_plain. Qed.
Lemma gi_vec3 n l : name n = true -> gi (vec3 n l).
Proof. intros H. apply gi_brace2; auto. apply pr_list3_plain. Qed.
