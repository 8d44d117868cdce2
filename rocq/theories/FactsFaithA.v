(** What fdump prints determines the parsed structure: tactics, headers, profile_tier_level, hrd_parameters, vui_parameters *)
From Coq Require Import ZArith List Bool Lia ZifyBool ZifyNat String Ascii.
From Verif Require Import MBase MBitBuffer Spec ReaderFacts Rules Syntax SyntaxSe MCommon MSyntaxA SpecA MProfile MSyntaxB SpecB MSps SpecSps MPps SpecPps MSlice SpecSlice MSei SpecSei MText SpecText FactsText FactsTells.
Import ListNotations.
Open Scope string_scope.
Open Scope Z_scope.

(** * Ranges *)
Lemma Pu_u n x : n <= 32 -> u_ok n x -> P_u x.
Proof. unfold u_ok, P_u. intros H [H1 H2]. split; [lia|]. destruct (Z.lt_ge_cases n 0) as [N|N]; [rewrite Z.pow_neg_r in H2 by lia; lia|]. pose proof (Z.pow_le_mono_r 2 n 32). lia. Qed.
Lemma Pu_ue x : ue_ok x -> P_u x. Proof. unfold ue_ok, P_u. lia. Qed.
Lemma Pu_ul n x : n < 2 ^ 32 -> ue_le n x -> P_u x. Proof. unfold ue_le, ue_ok, P_u. lia. Qed.
Lemma Pu_optf c P x : optf c P 0 x -> (P x -> P_u x) -> P_u x.
Proof. destruct c; cbn; [auto|]. intros -> _. unfold P_u. lia. Qed.
Lemma Ps_se x : se_ok x -> P_s x. Proof. unfold se_ok, P_s. lia. Qed.
Lemma Ps_optf c P x : optf c P 0 x -> (P x -> P_s x) -> P_s x.
Proof. destruct c; cbn; [auto|]. intros -> _. unfold P_s. lia. Qed.
Lemma Fu_vec {A} (f : A -> Z) n (P : A -> Prop) l : Syntax.vec n P l -> (forall a, P a -> P_u (f a)) -> Forall P_u (map f l).
Proof. intros [_ H] W. induction H; constructor; auto. Qed.
Lemma Fu_vec0 n (P : Z -> Prop) l : Syntax.vec n P l -> (forall a, P a -> P_u a) -> Forall P_u l.
Proof. intros [_ H] W. eapply Forall_impl; eauto. Qed.
Lemma F_optf {A} c (P : list A -> Prop) (R : A -> Prop) l : optf c P [] l -> (P l -> Forall R l) -> Forall R l.
Proof. destruct c; cbn; [auto|]. intros -> _. constructor. Qed.
Ltac split_ok := repeat match goal with H : _ /\ _ |- _ => destruct H end.
(** the range of a field from the hypotheses *)
Ltac prange :=
  lazymatch goal with
  | H : u_ok _ ?x |- P_u ?x => refine (Pu_u _ _ _ H); first [clear; lia | lia]
  | H : ue_ok ?x |- P_u ?x => exact (Pu_ue _ H)
  | H : ue_le _ ?x |- P_u ?x => refine (Pu_ul _ _ _ H); first [clear; lia | lia]
  | H : se_ok ?x |- P_u ?x => fail
  | H : optf _ se_ok 0 ?x |- P_u ?x => fail
  | H : optf _ _ 0 ?x |- P_u ?x => apply (Pu_optf _ _ _ H); let K := fresh in intros K; prange
  | H : se_ok ?x |- P_s ?x => exact (Ps_se _ H)
  | H : optf _ _ 0 ?x |- P_s ?x => apply (Ps_optf _ _ _ H); let K := fresh in intros K; prange
  | |- P_u ?x => unfold P_u; unfold u_ok in *; lia
  | |- P_s ?x => unfold P_s; lia
  end.
Ltac headof t := lazymatch t with ?f _ => headof f | _ => t end.
Ltac open_ok K := try (let T := type of K in let h := headof T in unfold h in K; cbv beta zeta in K).
Ltac frange :=
  lazymatch goal with
  | H : Syntax.vec _ _ ?x |- Forall P_u ?x => apply (Fu_vec0 _ _ _ H); let a := fresh in let K := fresh in intros a K; split_ok; prange
  | H : Syntax.vec _ _ ?x |- Forall P_u (map ?f ?x) => apply (Fu_vec f _ _ _ H); let a := fresh in let K := fresh in intros a K;
      open_ok K; split_ok; prange
  | H : optf _ _ [] ?x |- Forall _ ?x => apply (F_optf _ _ _ _ H); let K := fresh in intros K; frange
  end.
Lemma det_pu x x' : P_u x -> P_u x' -> i32_det x x'. Proof. apply det_u. Qed.
Lemma det_ps x x' : P_s x -> P_s x' -> i32_det x x'. Proof. apply det_s. Qed.
Ltac idet := first [apply det_pu; prange | apply det_ps; prange].
Ltac vdets := first [apply vdet_u; frange | apply vdet_s; frange].
Ltac tuse := repeat match goal with
  | H : _ /\ _ |- _ => destruct H
  | H : ?a = true, E : ?a = true -> _ |- _ => specialize (E H)
  | H : ?a = false, E : ?a = false -> _ |- _ => specialize (E H)
  end.
(** the fields that are absent have the same default; those that are present are shown *)
Ltac tchain := repeat (tuse; match goal with
  | H : (_ && _)%bool = true |- _ => apply andb_prop in H
  end); tuse; try congruence.
Ltac tfeq := match goal with H : optf ?c _ _ ?x, H' : optf ?c _ _ ?y |- ?x = ?y => apply (optf_eq _ _ _ _ _ _ H H'); let C := fresh "C" in intros C; tchain end.
Ltac tcond := first [solve [apply f_equal; tfeq] | reflexivity | assumption | solve [repeat match goal with E : _ = _ |- _ => first [rewrite E | fail] end; reflexivity] | congruence].
Lemma tells_deref_eq {A} (p p' : option A) d d' (P P' : A -> Prop) : is_some P p -> is_some P' p' ->
  (forall a a', P a -> P' a' -> tells (d a) (d' a') (a = a')) -> tells (tderef p d) (tderef p' d') (p = p').
Proof.
  intros H H' D. eapply tells_weaken; [apply (tells_tderef _ _ _ _ _ _ eq H H' D)|]. destruct p, p'; cbn in *; try tauto. congruence.
Qed.
(** the part is present *)
Ltac ctrue := repeat (apply andb_true_intro; split); assumption || congruence.
Ltac isome := match goal with H : optf ?c (is_some ?P) None ?p |- is_some _ ?p =>
  let K := fresh in assert (K : c = true) by ctrue; rewrite K in H; exact H end.
Create HintDb tdb discriminated.
#[global] Hint Constants Opaque : tdb.
Ltac tspecial := fail.
Ltac tstep :=
  first [tspecial |
  lazymatch goal with
  | |- tells (struct _ _) _ _ => apply tells_struct
  | |- tells (block _ _) _ _ => apply tells_block
  | |- tells (MText.call _) _ _ => apply tells_call
  | |- tells (sub _) _ _ => apply tells_sub
  | |- tells (_ +> _) _ _ => eapply tells_seq; [|let E := fresh "E" in intros E; tuse]
  | |- tells (tderef _ _) _ _ => eapply tells_deref_eq; [isome | isome | cbv beta; intros ? ? ? ?; solve [eauto 4 with tdb]]
  | |- tells (fi _ _) _ _ => apply tells_fi; idet
  | |- tells (fu _ _) _ _ => apply tells_fu
  | |- tells (MText.vec _ _) _ _ => apply tells_vec; vdets
  | |- tells (vecs _ _) _ _ => apply tells_vecs; vdets
  | |- tells (vecu _ _) _ _ => apply tells_vecu
  | |- tells (vecc _ _) _ _ => apply tells_vecc
  | |- tells (vecci _ _) _ _ => apply tells_vecci; vdets
  | |- tells (tif _ _) _ _ => apply tells_tif; [tcond | let C := fresh "C" in intros C]
  | |- tells (if _ then _ else _) _ _ => apply tells_if; [tcond | let C := fresh "C" in intros C | let C := fresh "C" in intros C]
  end].
Ltac tgo := repeat tstep.
Ltac tfields := repeat match goal with
  | H : optf ?c _ ?d ?x, H' : optf ?c _ ?d ?x' |- _ =>
      is_var x; is_var x'; tryif constr_eq x x' then fail else
      (let K := fresh "K" in assert (K : x = x') by (apply (optf_eq _ _ _ _ _ _ H H'); let C := fresh "C" in intros C; tchain); subst x')
  end.

Definition same_shown {A} (d : A -> txt) (s s' : A) : Prop := tells (d s) (d s') (s = s').

Lemma tells_header s s' : nal_header_ok s -> nal_header_ok s' -> tells (text_header s) (text_header s') (s = s').
Proof.
  intros H H'. unfold nal_header_ok in *. split_ok. eapply tells_weaken; [unfold text_header; tgo|].
  intros T. destruct s, s'; cbn in *. tuse; subst. tfields. reflexivity.
Qed.
Lemma tells_aud v v' : u_ok 3 v -> u_ok 3 v' -> tells (text_aud v) (text_aud v') (v = v').
Proof. intros H H'. unfold text_aud; tgo. Qed.
(** a line of unknown words before a line with a name that is not among them *)
Lemma find_end (k : string) (a : list string) : ~ In k a -> forall a' r r', ~ In k a' -> (a ++ k :: r = a' ++ k :: r')%list -> r = r'.
Proof.
  induction a as [|x a IH]; intros N [|x' a'] r r' N' H; cbn [app In] in *.
  - injection H as ->. reflexivity.
  - injection H as -> _. tauto.
  - injection H as <- _. tauto.
  - injection H as _ H. eapply IH; [| |exact H]; tauto.
Qed.
Lemma tells_free s s' k x x' d d' Q : words (k ++ ":") = [k ++ ":"] -> ~ In (k ++ ":") (words s) -> ~ In (k ++ ":") (words s') ->
  tells (fi k x +> d) (fi k x' +> d') Q -> tells (line s +> (fi k x +> d)) (line s' +> (fi k x' +> d')) Q.
Proof.
  intros W N N' T c c' r r' E E' H. destruct (tseq_done _ _ _ E) as (ca & cb & Ea & Eb & ->), (tseq_done _ _ _ E') as (ca' & cb' & Ea' & Eb' & ->).
  apply (T cb cb' r r' Eb Eb'). injection Ea as <-. injection Ea' as <-. rewrite !toks_app, <- !app_assoc in H.
  assert (X : forall s0, toks [Ind; Put s0] = words s0) by (intros s0; unfold toks, flat_map; cbn; apply app_nil_r). rewrite !X in H.
  assert (Y : forall y e cy, fi k y +> e = Done cy -> exists t, toks cy = (k ++ ":") :: t).
  { intros y e cy Ey. destruct (tseq_done _ _ _ Ey) as (c1 & c2 & E1 & E2 & ->). assert (E3 : c1 = [Ind; Put (k ++ ": " ++ pr_i y)]) by (unfold fi, line in E1; congruence). subst c1. rewrite toks_app, X, words_colon, W. eexists. reflexivity. }
  destruct (Y _ _ _ Eb) as (t & Ht), (Y _ _ _ Eb') as (t' & Ht'). rewrite Ht, Ht' in *. cbn [app] in *.
  f_equal. eapply find_end; [exact N | exact N' | exact H].
Qed.
Lemma profile_words p : ~ In "progressive_source_flag:" (words ("profile: " ++ profileTypeToString p)).
Proof. unfold profileTypeToString. repeat match goal with |- context[if ?b then _ else _] => destruct b end; vm_compute; intuition discriminate. Qed.

Ltac tspecial ::= lazymatch goal with
  | |- tells (line ("profile: " ++ _) +> _) _ _ => apply tells_free; [reflexivity | apply profile_words | apply profile_words |]
  end.
Lemma Forall_u1 l : Forall (u_ok 1) l -> Forall P_u l.
Proof. apply Forall_impl. intros a. now apply Pu_u. Qed.
Lemma tells_profile_info s s' : profile_info_ok s -> profile_info_ok s' -> tells (text_profile_info s) (text_profile_info s') (s = s').
Proof.
  intros H H'. unfold profile_info_ok in *. cbv zeta in *. split_ok. eapply tells_weaken; [unfold text_profile_info; tgo|].
  intros T. destruct s, s'; cbn in T.
  tuse; subst. reflexivity.
Qed.

#[global] Hint Resolve tells_header tells_aud tells_profile_info : tdb.
Lemma ext_fst {A B} (l : list (A * B)) : forall l', map fst l = map fst l' -> map snd l = map snd l' -> l = l'.
Proof. induction l as [|[a b] l IH]; intros [|[a' b'] l'] H1 H2; try discriminate; [reflexivity|]. cbn [map fst snd] in *. injection H1 as -> H1. injection H2 as -> H2. f_equal. auto. Qed.
(** sub-layers of profile_tier_level(): which have a profile is known from the flags *)
Definition shape1 (e e' : option profile_info * Z) : Prop :=
  (fst e = None <-> fst e' = None) /\ (fst e = None -> snd e = 0) /\ (fst e' = None -> snd e' = 0) /\
  (forall i, fst e = Some i -> profile_info_ok i) /\ (forall i, fst e' = Some i -> profile_info_ok i) /\ u_ok 8 (snd e) /\ u_ok 8 (snd e').
Definition shape : list (option profile_info * Z) -> list (option profile_info * Z) -> Prop := Forall2 shape1.
Lemma sub_layers_shape fl l : forall k l', List.length l = List.length l' -> all_from k (sub_layer_ok false fl) l -> all_from k (sub_layer_ok false fl) l' -> shape l l'.
Proof.
  induction l as [|[a v] l IH]; intros k [|[a' v'] l'] L H H'; try discriminate; [constructor|]. cbn [all_from List.length] in *. destruct H as [H Hr], H' as [H' Hr'].
  constructor; [|eapply IH; [lia | exact Hr | exact Hr']].
  unfold sub_layer_ok, level_gate in *. cbv zeta in *. cbn [fst snd] in *. destruct H as [H1 H2], H' as [H1' H2']. destruct (nz (fst (znth fl k (0, 0)))); unfold optf in H1, H2, H1', H2'.
  - destruct a; [|destruct H1]. destruct a'; [|destruct H1']. unfold shape1. cbn [fst snd]. refine (conj (conj _ _) (conj _ (conj _ (conj _ (conj _ (conj H2 H2')))))); try congruence; intros i0 E; injection E as <-; assumption.
  - subst. assert (U : u_ok 8 0) by (unfold u_ok; lia). unfold shape1. cbn [fst snd]. refine (conj (conj _ _) (conj _ (conj _ (conj _ (conj _ (conj U U)))))); congruence.
Qed.
Lemma tells_sub_layers l l' : shape l l' ->
  tells (teach l (fun e => tchecked (fst e) (fun i => block "sub_layer" (MText.call (text_profile_info i)))))
        (teach l' (fun e => tchecked (fst e) (fun i => block "sub_layer" (MText.call (text_profile_info i))))) (map fst l = map fst l').
Proof.
  intros H. eapply tells_weaken; [apply (tells_teach _ _ _ _ (fun e e' => fst e = fst e'))|].
  - induction H as [|e e' l l' H _ IH]; constructor; [|exact IH]. destruct H as (N & _ & _ & O & O' & _). destruct (fst e) as [i|], (fst e') as [i'|].
    + cbn [tchecked]. eapply tells_weaken; [apply tells_block, tells_call, tells_profile_info; [apply O | apply O']; reflexivity | congruence].
    + destruct N as [_ N]. discriminate (N eq_refl).
    + destruct N as [N _]. discriminate (N eq_refl).
    + cbn [tchecked]. eapply tells_weaken; [apply tells_same | reflexivity].
  - intros F. clear H. induction F; cbn [map]; congruence.
Qed.
Lemma present_levels_inj l l' : shape l l' -> map fst l = map fst l' -> present_levels l = present_levels l' -> l = l'.
Proof.
  assert (C : forall a v l0, present_levels ((a, v) :: l0) = (match a with Some _ => [v] | None => [] end ++ present_levels l0)%list) by reflexivity.
  induction 1 as [|[a v] [a' v'] l l' H _ IH]; [reflexivity|]. cbn [map]. intros E P. rewrite !C in P.
  injection E as Ea El. cbn [fst] in Ea. subst a'. destruct H as (_ & Z1 & Z2 & _). cbn [fst snd] in *. destruct a.
  - cbn [app] in P. injection P as <- P. f_equal. apply IH; assumption.
  - rewrite (Z1 eq_refl), (Z2 eq_refl). f_equal. apply IH; assumption.
Qed.
Lemma present_levels_u l l' : shape l l' -> Forall P_u (present_levels l) /\ Forall P_u (present_levels l').
Proof.
  unfold present_levels. induction 1 as [|[a v] [a' v'] l l' H _ IH]; [split; constructor|]. destruct IH, H as (_ & _ & _ & _ & _ & U & U'). cbn [fst snd] in *.
  unfold flat_map. fold (@flat_map (option profile_info * Z) Z). cbn [fst snd]. split; apply Forall_app; (split; [|assumption]); [destruct a | destruct a']; first [apply Forall_nil | apply Forall_cons; [prange | apply Forall_nil]].
Qed.
Lemma tells_ptl p n n' s s' : n = n' -> ptl_ok false p n s -> ptl_ok false p n' s' -> tells (text_ptl p n s) (text_ptl p n' s') (s = s').
Proof.
  intros <- H H'. unfold ptl_ok in *. split_ok.
  assert (F1 : forall l, Syntax.vec n sub_layer_flags_ok l -> Forall P_u (map fst l) /\ Forall P_u (map snd l)).
  { intros l Hl. split; (eapply Fu_vec; [exact Hl|]); intros [a b] [Ha Hb]; cbn [fst snd] in *; prange. }
  match goal with X : veci n _ (ptl_sub_layers s), Y : veci n _ (ptl_sub_layers s') |- _ => destruct X as [L A], Y as [L' B] end.
  eapply tells_weaken.
  - unfold text_ptl. tstep. tstep. { tgo. }
    tstep; [tstep|]. tstep. { apply tells_vec, vdet_u; eapply F1; eassumption. }
    tstep. { apply tells_vecs, vdet_u; eapply F1; eassumption. }
    assert (EF : ptl_sub_layer_flags s = ptl_sub_layer_flags s') by (apply ext_fst; assumption). rewrite <- EF in B. 
    pose proof (sub_layers_shape _ _ 0 _ (eq_trans L (eq_sym L')) A B) as S. 
    tstep. { tgo. }
    tstep. tstep. { apply tells_sub_layers, S. } apply tells_vecs, vdet_u; apply (present_levels_u _ _ S).
  - cbv beta. intros T. split_ok. 
    assert (EF : ptl_sub_layer_flags s = ptl_sub_layer_flags s') by (apply ext_fst; assumption). rewrite <- EF in B.
    pose proof (sub_layers_shape _ _ 0 _ (eq_trans L (eq_sym L')) A B) as S.
    destruct s, s'; cbn in *. subst. tfields.
    destruct (0 <? n) eqn:En; [destruct (H12 eq_refl) as [M1 M2]; rewrite (present_levels_inj _ _ S M1 M2); reflexivity|].
    destruct ptl_sub_layers, ptl_sub_layers0; cbn in L, L'; try reflexivity; destruct (Z.ltb_spec 0 n); discriminate || lia.
Qed.
#[global] Hint Resolve tells_ptl : tdb.

(** * hrd_parameters *)
Lemma cpb_ext l : forall l', map bit_rate_value_minus1 l = map bit_rate_value_minus1 l' -> map cpb_size_value_minus1 l = map cpb_size_value_minus1 l' ->
  map cpb_size_du_value_minus1 l = map cpb_size_du_value_minus1 l' -> map bit_rate_du_value_minus1 l = map bit_rate_du_value_minus1 l' -> map cbr_flag l = map cbr_flag l' -> l = l'.
Proof. induction l as [|[] l IH]; intros [|[] l'] H1 H2 H3 H4 H5; try discriminate; [reflexivity|]. cbn in *. f_equal; [congruence | apply IH; congruence]. Qed.
Lemma tells_sub_layer_hrd n n' sp sp' s s' : sub_layer_hrd_ok n sp s -> sub_layer_hrd_ok n' sp' s' -> tells (text_sub_layer_hrd s) (text_sub_layer_hrd s') (s = s').
Proof.
  intros H H'. unfold sub_layer_hrd_ok in *. eapply tells_weaken; [unfold text_sub_layer_hrd; tgo|]. intros T. split_ok. apply cpb_ext; assumption.
Qed.
Definition hsub_same (e e' : hrd_sub) : Prop := sub_layer_nal_hrd e = sub_layer_nal_hrd e' /\ sub_layer_vcl_hrd e = sub_layer_vcl_hrd e'.
Lemma tells_sub_layer_hrds nal vcl sp sp' l l' : List.length l = List.length l' -> Forall (hrd_sub_ok 0 nal vcl sp) l -> Forall (hrd_sub_ok 0 nal vcl sp') l' ->
  tells (teach l (fun e => tchecked (sub_layer_nal_hrd e) (fun l => sub (text_sub_layer_hrd l)) +> tchecked (sub_layer_vcl_hrd e) (fun l => sub (text_sub_layer_hrd l))))
        (teach l' (fun e => tchecked (sub_layer_nal_hrd e) (fun l => sub (text_sub_layer_hrd l)) +> tchecked (sub_layer_vcl_hrd e) (fun l => sub (text_sub_layer_hrd l))))
        (Forall2 hsub_same l l').
Proof.
  intros L F F'. apply tells_teach. revert l' L F'. induction F as [|e l He F IH]; intros [|e' l'] L F'; try discriminate; [constructor|]. inversion F'; subst.
  constructor; [|apply IH; [cbn in L; lia | assumption]]. cbv beta. 
  assert (X : forall c n n' (o o' : option (list cpb_entry)), optf c (is_some (sub_layer_hrd_ok n sp)) None o -> optf c (is_some (sub_layer_hrd_ok n' sp')) None o' ->
    tells (tchecked o (fun l => sub (text_sub_layer_hrd l))) (tchecked o' (fun l => sub (text_sub_layer_hrd l))) (o = o')).
  { intros c n n' o o' H H'. destruct c; unfold optf in *.
    - destruct o; [|destruct H]. destruct o'; [|destruct H']. cbn [tchecked]. eapply tells_weaken; [apply tells_sub; eapply tells_sub_layer_hrd; eassumption | congruence].
    - subst. eapply tells_weaken; [apply tells_same | reflexivity]. }
  unfold hrd_sub_ok in *. cbv zeta in *. split_ok. eapply tells_seq; [|intros _]; eapply X; eassumption.
Qed.
Lemma hsub_ext l : forall l', map fixed_pic_rate_general_flag l = map fixed_pic_rate_general_flag l' -> map fixed_pic_rate_within_cvs_flag l = map fixed_pic_rate_within_cvs_flag l' ->
  map elemental_duration_in_tc_minus1 l = map elemental_duration_in_tc_minus1 l' -> map low_delay_hrd_flag l = map low_delay_hrd_flag l' -> map cpb_cnt_minus1 l = map cpb_cnt_minus1 l' ->
  Forall2 hsub_same l l' -> l = l'.
Proof.
  induction l as [|[] l IH]; intros [|[] l'] H1 H2 H3 H4 H5 F; try discriminate; [reflexivity|]. inversion F as [|? ? ? ? S F']; subst. destruct S as [S1 S2]. cbn in *.
  f_equal; [congruence | apply IH; congruence || assumption].
Qed.
Lemma tells_hrds n sp sp' s s' : nal_hrd_parameters_present_flag s = nal_hrd_parameters_present_flag s' -> vcl_hrd_parameters_present_flag s = vcl_hrd_parameters_present_flag s' ->
  Syntax.vec n (hrd_sub_ok 0 (nal_hrd_parameters_present_flag s) (vcl_hrd_parameters_present_flag s) sp) (hrd_sub_layers s) ->
  Syntax.vec n (hrd_sub_ok 0 (nal_hrd_parameters_present_flag s') (vcl_hrd_parameters_present_flag s') sp') (hrd_sub_layers s') ->
  tells (text_sub_layer_hrds s) (text_sub_layer_hrds s') (Forall2 hsub_same (hrd_sub_layers s) (hrd_sub_layers s')).
Proof. intros <- <- [L H] [L' H']. unfold text_sub_layer_hrds. apply tells_block. eapply tells_sub_layer_hrds; [congruence | exact H | exact H']. Qed.
Lemma hsub_none nal vcl sp sp' l l' : nz nal = false -> nz vcl = false -> List.length l = List.length l' -> Forall (hrd_sub_ok 0 nal vcl sp) l -> Forall (hrd_sub_ok 0 nal vcl sp') l' -> Forall2 hsub_same l l'.
Proof.
  intros N V L F. revert l' L. induction F as [|e l He F IH]; intros [|e' l'] L F'; try discriminate; [constructor|]. inversion F' as [|? ? He' F'']; subst.
  constructor; [|apply IH; [cbn in L; lia | assumption]]. unfold hrd_sub_ok in *. cbv zeta in *. rewrite N, V in *. unfold optf in *. split_ok. split; congruence.
Qed.
Lemma tells_hrd c n n' s s' : n = n' -> hrd_ok 0 c n s -> hrd_ok 0 c n' s' -> tells (text_hrd (nz c) s) (text_hrd (nz c) s') (s = s').
Proof.
  intros <- H H'. unfold hrd_ok in *. cbv zeta in *. split_ok.
  assert (NV : (nz c = true -> nal_hrd_parameters_present_flag s = nal_hrd_parameters_present_flag s') -> nal_hrd_parameters_present_flag s = nal_hrd_parameters_present_flag s') by (eapply optf_eq; eassumption).
  assert (VV : (nz c = true -> vcl_hrd_parameters_present_flag s = vcl_hrd_parameters_present_flag s') -> vcl_hrd_parameters_present_flag s = vcl_hrd_parameters_present_flag s') by (eapply optf_eq; eassumption).
  eapply tells_weaken; [unfold text_hrd; tgo|].
  1, 2: (eapply tells_hrds; [apply NV; intros K; tuse; assumption | apply VV; intros K; tuse; assumption | eassumption | eassumption]).
  intros T. tuse. clear NV VV. destruct s, s'; cbn in *. tfields. subst.
  match goal with A : Syntax.vec _ _ ?x, B : Syntax.vec _ _ ?y |- _ => assert (F : Forall2 hsub_same x y) end.
  { destruct (nz nal_hrd_parameters_present_flag) eqn:En; [auto|]. destruct (nz vcl_hrd_parameters_present_flag) eqn:Ev; [auto|].
    match goal with A : Syntax.vec _ _ ?x, B : Syntax.vec _ _ ?y |- Forall2 _ ?x ?y => destruct A, B; eapply hsub_none; [exact En | exact Ev | congruence | eassumption | eassumption] end. }
  f_equal. apply hsub_ext; assumption.
Qed.
Lemma tells_hrd1 n n' s s' : n = n' -> hrd_ok 0 1 n s -> hrd_ok 0 1 n' s' -> tells (text_hrd true s) (text_hrd true s') (s = s').
Proof. exact (tells_hrd 1 n n' s s'). Qed.
#[global] Hint Resolve tells_hrd1 : tdb.
Lemma tells_vui n n' s s' : n = n' -> vui_ok 0 n s -> vui_ok 0 n' s' -> tells (text_vui s) (text_vui s') (s = s').
Proof.
  intros <- H H'. unfold vui_ok in *. cbv zeta in *. split_ok. eapply tells_weaken; [unfold text_vui; tgo|].
  intros T. tuse. destruct s, s'; cbn in *. subst. tfields. reflexivity.
Qed.
#[global] Hint Resolve tells_vui : tdb.
