(** When two structures are printed with the same words, which of their fields agree *)
From Coq Require Import ZArith List Bool Lia ZifyBool ZifyNat String Ascii.
From Coq Require Decimal DecimalString DecimalZ.
From Verif Require Import MBase MBitBuffer Spec Rules Syntax MCommon MText SpecText FactsText.
Import ListNotations.
Open Scope string_scope.
Open Scope Z_scope.

(** * Words of the printed lines *)
Lemma words_cut a b : words (a ++ String " " b) = (words a ++ words b)%list.
Proof. now apply words_app. Qed.
Lemma words_colon n t : words (n ++ ": " ++ t) = (words (n ++ ":") ++ words t)%list.
Proof. replace (n ++ ": " ++ t) with ((n ++ ":") ++ String " " t) by (rewrite sapp_assoc; reflexivity). apply words_cut. Qed.
Definition wlist (pr : Z -> string) (l : list Z) : list string := map pr l.
Lemma words_pr_list pr post l t : (forall x, words (pr x) = [pr x]) -> post = "" \/ post = " " -> headed t ->
  words (pr_list pr " " post l ++ t) = (map pr l ++ words t)%list /\ headed (pr_list pr " " post l ++ t).
Proof.
  intros H P Ht. induction l as [|x l [IH Hd]]; [split; [reflexivity | exact Ht]|].
  cbn [pr_list fold_right map app]. fold (pr_list pr " " post l).
  assert (E : (" " ++ pr x ++ post ++ pr_list pr " " post l) ++ t = String " " (pr x ++ (post ++ (pr_list pr " " post l ++ t)))).
  { cbn [append]. rewrite !sapp_assoc. reflexivity. }
  rewrite E. split; [|reflexivity]. rewrite words_space by reflexivity.
  destruct P as [->| ->].
  - change ("" ++ ?a) with a. rewrite words_headed by exact Hd. now rewrite H, IH.
  - change (" " ++ ?a) with (String " " a). rewrite words_cut, H, IH. reflexivity.
Qed.
Lemma words_vec pr post n l : (forall x, words (pr x) = [pr x]) -> post = "" \/ post = " " ->
  words (n ++ " {" ++ pr_list pr " " post l ++ " }") = (words n ++ "{" :: map pr l ++ ["}"])%list.
Proof.
  intros H P. change (" {" ++ ?a) with (String " " ("{" ++ a)). rewrite words_cut. f_equal.
  destruct (words_pr_list pr post l " }" H P) as [E Hd]; [reflexivity|]. rewrite words_headed by exact Hd. rewrite E. reflexivity.
Qed.
Lemma words_vecc pr n l : (forall x, words (pr x) = [pr x]) ->
  words (n ++ ": {" ++ pr_list pr " " "" l ++ " }") = (words (n ++ ":") ++ "{" :: map pr l ++ ["}"])%list.
Proof.
  intros H. replace (n ++ ": {" ++ pr_list pr " " "" l ++ " }") with ((n ++ ":") ++ " {" ++ pr_list pr " " "" l ++ " }") by (rewrite sapp_assoc; reflexivity).
  apply words_vec; auto.
Qed.
Definition w1 (l : list Z) : list string := ("{" :: map pr_i l ++ ["}"])%list.
Definition w2 (l : list (list Z)) : list string := ("{" :: flat_map w1 l ++ ["}"])%list.
Definition w3 (l : list (list (list Z))) : list string := ("{" :: flat_map w2 l ++ ["}"])%list.
Lemma pr_i_word x : words (pr_i x) = [pr_i x]. Proof. apply dec_word. Qed.
Lemma pr_u_word x : words (pr_u x) = [pr_u x]. Proof. apply dec_word. Qed.
Lemma words_pr_list2 l t : headed t -> words (pr_list2 l ++ t) = (flat_map w1 l ++ words t)%list /\ headed (pr_list2 l ++ t).
Proof.
  intros Ht. induction l as [|x l [IH Hd]]; [split; [reflexivity | exact Ht]|]. cbn [pr_list2 fold_right]. fold (pr_list2 l).
  assert (E : (" {" ++ pr_list pr_i " " "" x ++ " }" ++ pr_list2 l) ++ t = String " " ("{" ++ (pr_list pr_i " " "" x ++ (" }" ++ (pr_list2 l ++ t))))).
  { cbn [append]. rewrite !sapp_assoc. reflexivity. }
  rewrite E. split; [|reflexivity]. rewrite words_space by reflexivity.
  destruct (words_pr_list pr_i "" x (" }" ++ (pr_list2 l ++ t)) pr_i_word (or_introl eq_refl)) as [E2 H2]; [reflexivity|].
  rewrite words_headed by exact H2. rewrite E2. change (" }" ++ ?a) with (String " " ("}" ++ a)). rewrite (words_space " "), (words_headed "}"), IH by (reflexivity || exact Hd).
  change (flat_map w1 (x :: l)) with (w1 x ++ flat_map w1 l)%list. unfold w1 at 2. cbn [words app]. rewrite <- !app_assoc. reflexivity.
Qed.
Lemma words_vec2 n l : words (n ++ " {" ++ pr_list2 l ++ " }") = (words n ++ w2 l)%list.
Proof.
  change (" {" ++ ?a) with (String " " ("{" ++ a)). rewrite words_cut. f_equal.
  destruct (words_pr_list2 l " }") as [E Hd]; [reflexivity|]. rewrite words_headed by exact Hd. rewrite E. reflexivity.
Qed.
Lemma words_pr_list3 l t : headed t -> words (pr_list3 l ++ t) = (flat_map w2 l ++ words t)%list /\ headed (pr_list3 l ++ t).
Proof.
  intros Ht. induction l as [|x l [IH Hd]]; [split; [reflexivity | exact Ht]|]. cbn [pr_list3 fold_right]. fold (pr_list3 l).
  assert (E : (" {" ++ pr_list2 x ++ " }" ++ pr_list3 l) ++ t = String " " ("{" ++ (pr_list2 x ++ (" }" ++ (pr_list3 l ++ t))))).
  { cbn [append]. rewrite !sapp_assoc. reflexivity. }
  rewrite E. split; [|reflexivity]. rewrite words_space by reflexivity.
  destruct (words_pr_list2 x (" }" ++ (pr_list3 l ++ t))) as [E2 H2]; [reflexivity|].
  rewrite words_headed by exact H2. rewrite E2. change (" }" ++ ?a) with (String " " ("}" ++ a)). rewrite (words_space " "), (words_headed "}"), IH by (reflexivity || exact Hd).
  change (flat_map w2 (x :: l)) with (w2 x ++ flat_map w2 l)%list. unfold w2 at 2. cbn [words app]. rewrite <- !app_assoc. reflexivity.
Qed.
Lemma words_vec3 n l : words (n ++ " {" ++ pr_list3 l ++ " }") = (words n ++ w3 l)%list.
Proof.
  change (" {" ++ ?a) with (String " " ("{" ++ a)). rewrite words_cut. f_equal.
  destruct (words_pr_list3 l " }") as [E Hd]; [reflexivity|]. rewrite words_headed by exact Hd. rewrite E. reflexivity.
Qed.

(** * Prefix codes *)
Lemma dec_not_brace x : dec x <> "}".
Proof. intros H. destruct (dec_digit x) as [D _]. rewrite H in D. discriminate. Qed.
Lemma map_inj_end (pr : Z -> string) l : (forall x, pr x <> "}") -> forall l' r r',
  (map pr l ++ "}" :: r = map pr l' ++ "}" :: r')%list -> map pr l = map pr l' /\ r = r'.
Proof.
  intros N. induction l as [|x l IH]; intros [|x' l'] r r' H; cbn [map app] in *.
  - injection H as ->. auto.
  - injection H as H _. symmetry in H. now apply N in H.
  - injection H as H _. now apply N in H.
  - injection H as H1 H2. destruct (IH _ _ _ H2) as [E ->]. rewrite H1, E. auto.
Qed.
Lemma flat_inj_end {A} (w : A -> list string) (R : A -> A -> Prop) l :
  (forall a, exists t, w a = "{" :: t) -> (forall a a' r r', (w a ++ r = w a' ++ r')%list -> R a a' /\ r = r') -> forall l' r r',
  (flat_map w l ++ "}" :: r = flat_map w l' ++ "}" :: r')%list -> Forall2 R l l' /\ r = r'.
Proof.
  intros B W. induction l as [|x l IH]; intros [|x' l'] r r' H; cbn [flat_map app] in *.
  - injection H as ->. auto.
  - change (flat_map w (x' :: l')) with (w x' ++ flat_map w l')%list in H. destruct (B x') as (t & E). rewrite E in H. discriminate.
  - change (flat_map w (x :: l)) with (w x ++ flat_map w l)%list in H. destruct (B x) as (t & E). rewrite E in H. discriminate.
  - change (flat_map w (x :: l)) with (w x ++ flat_map w l)%list in H. change (flat_map w (x' :: l')) with (w x' ++ flat_map w l')%list in H.
    rewrite <- !app_assoc in H. destruct (W _ _ _ _ H) as [E H']. destruct (IH _ _ _ H') as [F ->]. auto.
Qed.

(** The printed form of a 32-bit number determines it among the unsigned and among the signed ones. *)
Definition i32_det (x x' : Z) : Prop := to_i32 x = to_i32 x' -> x = x'.
Lemma det_u x x' : 0 <= x < 2 ^ 32 -> 0 <= x' < 2 ^ 32 -> i32_det x x'.
Proof. unfold i32_det, to_i32, u32. cbv zeta. intros H H'. rewrite !Z.mod_small by assumption. destruct (Z.ltb_spec x (2 ^ 31)), (Z.ltb_spec x' (2 ^ 31)); lia. Qed.
Lemma to_i32_id x : - 2 ^ 31 <= x < 2 ^ 31 -> to_i32 x = x.
Proof.
  intros H. unfold to_i32, u32. cbv zeta. destruct (Z.ltb_spec (x mod 2 ^ 32) (2 ^ 31)) as [L|L]; destruct (Z_lt_ge_dec x 0) as [N|N].
  - exfalso. replace (x mod 2 ^ 32) with (x + 2 ^ 32) in L; [lia|]. rewrite <- (Z.mod_small (x + 2 ^ 32) (2 ^ 32)) by lia. rewrite <- Z.add_mod_idemp_r by lia. rewrite Z.mod_same by lia. rewrite Z.add_0_r. reflexivity.
  - apply Z.mod_small. lia.
  - replace (x mod 2 ^ 32) with (x + 2 ^ 32); [lia|]. rewrite <- (Z.mod_small (x + 2 ^ 32) (2 ^ 32)) by lia. rewrite <- Z.add_mod_idemp_r by lia. rewrite Z.mod_same by lia. rewrite Z.add_0_r. reflexivity.
  - rewrite Z.mod_small in L by lia. lia.
Qed.
Lemma det_s x x' : - 2 ^ 31 <= x < 2 ^ 31 -> - 2 ^ 31 <= x' < 2 ^ 31 -> i32_det x x'.
Proof. unfold i32_det. intros H H'. now rewrite !to_i32_id. Qed.
Lemma det_map (P : Z -> Prop) l : (forall x x', P x -> P x' -> i32_det x x') -> forall l', Forall P l -> Forall P l' -> map to_i32 l = map to_i32 l' -> l = l'.
Proof.
  intros D. induction l as [|x l IH]; intros [|x' l'] F F' H; try discriminate; [reflexivity|].
  inversion F; inversion F'; subst. cbn [map] in H. injection H as K1 K2. f_equal; [eapply D; eassumption | apply IH; assumption].
Qed.
Definition P_u (x : Z) : Prop := 0 <= x < 2 ^ 32.
Definition P_s (x : Z) : Prop := - 2 ^ 31 <= x < 2 ^ 31.

(** * What two printed texts tell *)
(** If the words printed by [d] and then [r] are the same as those printed by [d'] and then [r'], then [Q] holds and [r] and [r'] are the same. *)
Definition tells (d d' : txt) (Q : Prop) : Prop :=
  forall c c' r r', d = Done c -> d' = Done c' -> (toks c ++ r = toks c' ++ r')%list -> Q /\ r = r'.

Lemma tells_weaken d d' (Q R : Prop) : tells d d' Q -> (Q -> R) -> tells d d' R.
Proof. intros H W c c' r r' E E' T. destruct (H _ _ _ _ E E' T). auto. Qed.
Lemma tells_seq a b a' b' (Q R : Prop) : tells a a' Q -> (Q -> tells b b' R) -> tells (a +> b) (a' +> b') (Q /\ R).
Proof.
  intros Ha Hb c c' r r' E E' T. destruct (tseq_done _ _ _ E) as (ca & cb & Ea & Eb & ->), (tseq_done _ _ _ E') as (ca' & cb' & Ea' & Eb' & ->).
  rewrite !toks_app, <- !app_assoc in T. destruct (Ha _ _ _ _ Ea Ea' T) as [HQ T']. destruct (Hb HQ _ _ _ _ Eb Eb' T') as [HR ->]. auto.
Qed.
Lemma tells_same d : tells d d True.
Proof. intros c c' r r' E E' T. rewrite E in E'. injection E' as <-. apply app_inv_head in T. auto. Qed.
Lemma tells_done c c' : toks c = toks c' -> tells (Done c) (Done c') True.
Proof. intros H c1 c1' r r' E E' T. injection E as <-. injection E' as <-. rewrite H in T. apply app_inv_head in T. auto. Qed.
Lemma tells_tif (b b' : bool) d d' Q : b = b' -> (b = true -> tells d d' Q) -> tells (tif b d) (tif b' d') (b = true -> Q).
Proof.
  intros <- H. destruct b; cbn [tif].
  - eapply tells_weaken; [apply H; reflexivity | auto].
  - eapply tells_weaken; [apply tells_same | congruence].
Qed.
Lemma tells_if (b b' : bool) d d' e e' Q R : b = b' -> (b = true -> tells d d' Q) -> (b = false -> tells e e' R) ->
  tells (if b then d else e) (if b' then d' else e') ((b = true -> Q) /\ (b = false -> R)).
Proof. intros <- H G. destruct b; (eapply tells_weaken; [first [apply H | apply G]; reflexivity | split; congruence || auto]). Qed.
Lemma tells_line s s' (Q : Prop) : (forall r r', (words s ++ r = words s' ++ r')%list -> Q /\ r = r') -> tells (line s) (line s') Q.
Proof. intros H c c' r r' E E' T. injection E as <-. injection E' as <-. cbn [toks flat_map] in T. unfold toks, flat_map in T. cbn in T. rewrite !app_nil_r in T. auto. Qed.
Lemma tells_fi n x x' : i32_det x x' -> tells (fi n x) (fi n x') (x = x').
Proof.
  intros D. apply tells_line. intros r r'. rewrite !words_colon, !pr_i_word, <- !app_assoc. intros H. apply app_inv_head in H. injection H as H1 H2.
  split; [|exact H2]. apply D, dec_inj, H1.
Qed.
Lemma tells_fu n x x' : tells (fu n x) (fu n x') (x = x').
Proof.
  apply tells_line. intros r r'. rewrite !words_colon, !pr_u_word, <- !app_assoc. intros H. apply app_inv_head in H. injection H as H1 H2.
  split; [|exact H2]. apply dec_inj, H1.
Qed.
Lemma dec_map l : forall l', map dec l = map dec l' -> l = l'.
Proof. induction l as [|x l IH]; intros [|x' l'] H; try discriminate; [reflexivity|]. cbn [map] in H. injection H as H1 H2. apply dec_inj in H1. subst. f_equal. auto. Qed.
Lemma pr_i_map l l' : map pr_i l = map pr_i l' -> map to_i32 l = map to_i32 l'.
Proof. intros H. apply dec_map. rewrite !map_map. exact H. Qed.
Definition vdet (l l' : list Z) : Prop := map to_i32 l = map to_i32 l' -> l = l'.
Lemma vdet_u l l' : Forall P_u l -> Forall P_u l' -> vdet l l'.
Proof. intros F F' H. eapply det_map; [|exact F|exact F'|exact H]. apply det_u. Qed.
Lemma vdet_s l l' : Forall P_s l -> Forall P_s l' -> vdet l l'.
Proof. intros F F' H. eapply det_map; [|exact F|exact F'|exact H]. apply det_s. Qed.
Lemma tells_words_i pre pre' l l' : pre = pre' -> vdet l l' -> forall r r',
  ((pre ++ "{" :: map pr_i l ++ ["}"]) ++ r = (pre' ++ "{" :: map pr_i l' ++ ["}"]) ++ r')%list -> l = l' /\ r = r'.
Proof.
  intros <- D r r' H. rewrite <- !app_assoc in H. apply app_inv_head in H. cbn [app] in H. injection H as H. rewrite <- !app_assoc in H.
  apply map_inj_end in H; [|intros x; apply dec_not_brace]. destruct H as [H ->]. split; [|reflexivity]. apply D, pr_i_map, H.
Qed.
Lemma tells_words_u pre pre' l l' : pre = pre' -> forall r r',
  ((pre ++ "{" :: map pr_u l ++ ["}"]) ++ r = (pre' ++ "{" :: map pr_u l' ++ ["}"]) ++ r')%list -> l = l' /\ r = r'.
Proof.
  intros <- r r' H. rewrite <- !app_assoc in H. apply app_inv_head in H. cbn [app] in H. injection H as H. rewrite <- !app_assoc in H.
  apply map_inj_end in H; [|intros x; apply dec_not_brace]. destruct H as [H ->]. split; [|reflexivity]. apply dec_map, H.
Qed.
Lemma tells_vec n l l' : vdet l l' -> tells (vec n l) (vec n l') (l = l').
Proof. intros D. apply tells_line. rewrite !(words_vec pr_i "") by (auto using pr_i_word). now apply tells_words_i. Qed.
Lemma tells_vecs n l l' : vdet l l' -> tells (vecs n l) (vecs n l') (l = l').
Proof. intros D. apply tells_line. rewrite !(words_vec pr_i " ") by (auto using pr_i_word). now apply tells_words_i. Qed.
Lemma tells_vecu n l l' : tells (vecu n l) (vecu n l') (l = l').
Proof. apply tells_line. rewrite !(words_vec pr_u "") by (auto using pr_u_word). now apply tells_words_u. Qed.
Lemma tells_vecc n l l' : tells (vecc n l) (vecc n l') (l = l').
Proof. apply tells_line. rewrite !(words_vecc pr_u) by (auto using pr_u_word). now apply tells_words_u. Qed.
Lemma tells_vecci n l l' : vdet l l' -> tells (vecci n l) (vecci n l') (l = l').
Proof. intros D. apply tells_line. rewrite !(words_vecc pr_i) by (auto using pr_i_word). now apply tells_words_i. Qed.
Lemma w1_code a a' r r' : (w1 a ++ r = w1 a' ++ r')%list -> map to_i32 a = map to_i32 a' /\ r = r'.
Proof.
  unfold w1. cbn [app]. intros H. injection H as H. rewrite <- !app_assoc in H. apply map_inj_end in H; [|intros x; apply dec_not_brace].
  destruct H as [H ->]. split; [now apply pr_i_map | reflexivity].
Qed.
Lemma w2_code a a' r r' : (w2 a ++ r = w2 a' ++ r')%list -> Forall2 (fun l l' => map to_i32 l = map to_i32 l') a a' /\ r = r'.
Proof.
  unfold w2. cbn [app]. intros H. injection H as H. rewrite <- !app_assoc in H.
  eapply flat_inj_end in H; [|intros ?; eexists; reflexivity | exact w1_code]. exact H.
Qed.
Lemma w3_code a a' r r' : (w3 a ++ r = w3 a' ++ r')%list -> Forall2 (Forall2 (fun l l' => map to_i32 l = map to_i32 l')) a a' /\ r = r'.
Proof.
  unfold w3. cbn [app]. intros H. injection H as H. rewrite <- !app_assoc in H.
  eapply flat_inj_end in H; [|intros ?; eexists; reflexivity | exact w2_code]. exact H.
Qed.
Lemma Forall2_det {A} (R : A -> A -> Prop) (P : A -> Prop) l : (forall a a', P a -> P a' -> R a a' -> a = a') -> forall l', Forall P l -> Forall P l' -> Forall2 R l l' -> l = l'.
Proof.
  intros D. induction l as [|x l IH]; intros l' F F' H; inversion H; subst; [reflexivity|]. inversion F; inversion F'; subst. f_equal; auto.
Qed.
Lemma tells_vec2 n l l' : Forall (Forall P_u) l -> Forall (Forall P_u) l' -> tells (vec2 n l) (vec2 n l') (l = l').
Proof.
  intros F F'. apply tells_line. intros r r'. rewrite !words_vec2, <- !app_assoc. intros H. apply app_inv_head in H.
  apply w2_code in H. destruct H as [H ->]. split; [|reflexivity]. eapply Forall2_det; [|exact F|exact F'|exact H]. intros a a' G G'. apply vdet_u; assumption.
Qed.
Lemma tells_vec2s n l l' : Forall (Forall P_s) l -> Forall (Forall P_s) l' -> tells (vec2 n l) (vec2 n l') (l = l').
Proof.
  intros F F'. apply tells_line. intros r r'. rewrite !words_vec2, <- !app_assoc. intros H. apply app_inv_head in H.
  apply w2_code in H. destruct H as [H ->]. split; [|reflexivity]. eapply Forall2_det; [|exact F|exact F'|exact H]. intros a a' G G'. apply vdet_s; assumption.
Qed.
Lemma tells_vec3 n l l' : Forall (Forall (Forall P_u)) l -> Forall (Forall (Forall P_u)) l' -> tells (vec3 n l) (vec3 n l') (l = l').
Proof.
  intros F F'. apply tells_line. intros r r'. rewrite !words_vec3, <- !app_assoc. intros H. apply app_inv_head in H.
  apply w3_code in H. destruct H as [H ->]. split; [|reflexivity]. eapply Forall2_det; [|exact F|exact F'|exact H]. intros a a' G G' K.
  eapply Forall2_det; [|exact G|exact G'|exact K]. intros b b' B B'. apply vdet_u; assumption.
Qed.

Lemma tells_call d d' Q : tells d d' Q -> tells (call d) (call d') Q.
Proof.
  intros H. unfold call. eapply tells_weaken; [eapply tells_seq; [apply tells_same | intros _; eapply tells_seq; [exact H | intros _; apply tells_same]] | tauto].
Qed.
Lemma tells_block n d d' Q : tells d d' Q -> tells (block n d) (block n d') Q.
Proof.
  intros H. unfold block. eapply tells_weaken; [eapply tells_seq; [apply tells_same | intros _; eapply tells_seq; [exact H | intros _; apply tells_same]] | tauto].
Qed.
Lemma tells_struct n d d' Q : tells d d' Q -> tells (struct n d) (struct n d') Q.
Proof.
  intros H. unfold struct. eapply tells_weaken; [eapply tells_seq; [apply tells_same | intros _; eapply tells_seq; [exact H | intros _; apply tells_same]] | tauto].
Qed.
Lemma tells_sub d d' Q : tells d d' Q -> tells (sub d) (sub d') Q.
Proof. intros H. unfold sub. eapply tells_weaken; [eapply tells_seq; [apply tells_same | intros _; apply tells_call, H] | tauto]. Qed.
Lemma tells_tderef {A} (p p' : option A) d d' (P P' : A -> Prop) (R : A -> A -> Prop) : is_some P p -> is_some P' p' ->
  (forall a a', P a -> P' a' -> tells (d a) (d' a') (R a a')) -> tells (tderef p d) (tderef p' d') (match p, p' with Some a, Some a' => R a a' | _, _ => False end).
Proof. intros H H' D. destruct p; [|destruct H]. destruct p'; [|destruct H']. apply D; assumption. Qed.
(** lists of the same length *)
Lemma tells_teach {A} (l l' : list A) d d' (R : A -> A -> Prop) : Forall2 (fun a a' => tells (d a) (d' a') (R a a')) l l' -> tells (teach l d) (teach l' d') (Forall2 R l l').
Proof.
  induction 1 as [|a a' l l' H _ IH]; cbn [teach]; [eapply tells_weaken; [apply tells_same | constructor]|].
  eapply tells_weaken; [apply tells_seq; [exact H | intros _; exact IH]|]. intros []. constructor; assumption.
Qed.
Lemma tells_tupto n d d' (R : nat -> Prop) : (forall i, (i < n)%nat -> tells (d i) (d' i) (R i)) -> tells (tupto n d) (tupto n d') (forall i, (i < n)%nat -> R i).
Proof.
  induction n as [|n IH]; intros H; cbn [tupto]; [eapply tells_weaken; [apply tells_same | intros _ i Hi; lia]|].
  eapply tells_weaken; [apply tells_seq; [apply IH; intros i Hi; apply H; lia | intros _; apply H; lia]|]. cbv beta. intros [H1 H2] i Hi.
  destruct (Nat.eq_dec i n) as [->|]; [exact H2 | apply H1; lia].
Qed.

(** A field that is absent has its default value. *)
Lemma optf_eq {A} c (P P' : A -> Prop) d x x' : optf c P d x -> optf c P' d x' -> (c = true -> x = x') -> x = x'.
Proof. destruct c; cbn; [auto | congruence]. Qed.
