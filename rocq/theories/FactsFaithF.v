(** What fdump prints of a slice segment header determines it, given the parameter sets it refers to *)
From Coq Require Import ZArith List Bool Lia ZifyBool ZifyNat String Ascii.
From Verif Require Import MBase MBitBuffer Spec Reader ReaderFacts Rules Syntax SyntaxSe MCommon MSyntaxA SpecA MProfile MSyntaxB SpecB FactsB FactsRps MSps SpecSps FactsSps MPps SpecPps FactsPps MSlice SpecSlice FactsSlice
  FactsLocal MText SpecText FactsText FactsTells FactsFaithA FactsFaithB.
Import ListNotations.
Open Scope string_scope.
Open Scope Z_scope.

Lemma tells_then a b a' b' (Q R : Prop) : tells a a' Q -> (Q -> tells b b' R) -> tells (a +> b) (a' +> b') R.
Proof. intros H G. eapply tells_weaken; [eapply tells_seq; [exact H | exact G]|]. tauto. Qed.
Lemma tells_ofi c n (P P' : Z -> Prop) d x x' : optf c P d x -> optf c P' d x' -> (P x -> P' x' -> i32_det x x') -> tells (tif c (fi n x)) (tif c (fi n x')) (x = x').
Proof.
  destruct c; unfold optf, tif; intros H H' D; [exact (tells_fi _ _ _ (D H H'))|]. rewrite H, H'. eapply tells_weaken; [apply tells_same | intros _; reflexivity].
Qed.
Lemma det_un n x x' : n <= 32 -> u_ok n x -> u_ok n x' -> i32_det x x'.
Proof. intros L H H'. apply det_pu; eapply Pu_u; eassumption. Qed.
Lemma det_ue x x' : ue_ok x -> ue_ok x' -> i32_det x x'.
Proof. intros H H'. apply det_pu; apply Pu_ue; assumption. Qed.
Lemma det_se x x' : se_ok x -> se_ok x' -> i32_det x x'.
Proof. intros H H'. apply det_ps; apply Ps_se; assumption. Qed.

(** * pred_weight_table *)
Lemma flat_cons {A B} (f : A -> list B) a l : flat_map f (a :: l) = (f a ++ flat_map f l)%list.
Proof. reflexivity. Qed.
Lemma flat_cols {A B} (g : A -> option B) (P : Z -> A -> Prop) : (forall i a a', P i a -> P i a' -> (g a = None <-> g a' = None)) ->
  forall l l' i, all_from i P l -> all_from i P l' -> List.length l = List.length l' ->
  flat_map (fun e => match g e with Some p => [p] | None => [] end) l = flat_map (fun e => match g e with Some p => [p] | None => [] end) l' -> map g l = map g l'.
Proof.
  intros D. induction l as [|a l IH]; intros [|a' l'] i H H' L E; try discriminate; [reflexivity|].
  destruct H as [Ha H], H' as [Ha' H']. cbn [List.length] in L. injection L as L. rewrite !flat_cons in E. cbn [map].
  pose proof (D _ _ _ Ha Ha') as Da. destruct (g a) as [x|], (g a') as [x'|]; cbn [app] in E.
  - injection E as -> E. f_equal. eapply IH; eassumption.
  - destruct Da as [_ Da]. discriminate (Da eq_refl).
  - destruct Da as [Da _]. discriminate (Da eq_refl).
  - f_equal. eapply IH; eassumption.
Qed.
Lemma optf_presence {A} c (P P' : A -> Prop) o o' : optf c (is_some P) None o -> optf c (is_some P') None o' -> (o = None <-> o' = None).
Proof. unfold optf, is_some. destruct c; [|intros -> ->; tauto]. destruct o, o'; try tauto; intros _ _; split; intros X; discriminate X. Qed.
Lemma map_pair {A B} (l : list (A * B)) : forall l', map fst l = map fst l' -> map snd l = map snd l' -> l = l'.
Proof. induction l as [|[x y] l IH]; intros [|[x' y'] l'] E F; try discriminate; [reflexivity|]. cbn in *. injection E as -> E. injection F as -> F. f_equal. auto. Qed.
Lemma flat_P {A B} (g : A -> option B) (P : Z -> A -> Prop) (R : B -> Prop) : (forall i a b, P i a -> g a = Some b -> R b) -> forall l i, all_from i P l ->
  Forall R (flat_map (fun e => match g e with Some p => [p] | None => [] end) l).
Proof.
  intros D. induction l as [|a l IH]; intros i H; [constructor|]. destruct H as [Ha H]. specialize (IH _ H). specialize (D i a).
  rewrite flat_cons. destruct (g a) as [b|]; [constructor; [apply D; auto | exact IH] | exact IH].
Qed.
Lemma luma_P lf cf l : all_from 0 (pwt_entry_ok lf cf) l -> Forall luma_weight_ok (flat_map (fun e => match fst e with Some p => [p] | None => [] end) l).
Proof.
  apply flat_P. intros i [o q] w [H _] E. cbn [fst snd] in *. subst o. unfold optf, is_some in H. destruct (nz (znth lf i 0)); [exact H | discriminate].
Qed.
Lemma chroma_P lf cf l : all_from 0 (pwt_entry_ok lf cf) l -> Forall (quad_ok se_ok) (flat_map (fun e => match snd e with Some p => [p] | None => [] end) l).
Proof.
  apply flat_P. intros i [o q] w [_ H] E. cbn [fst snd] in *. subst q. unfold optf, is_some in H. destruct (nz (znth cf i 0)); [exact H | discriminate].
Qed.
Lemma quad_cols (l : list quad) : forall l', map (fun q => [q_1 q; q_3 q]) l = map (fun q => [q_1 q; q_3 q]) l' -> map (fun q => [q_2 q; q_4 q]) l = map (fun q => [q_2 q; q_4 q]) l' -> l = l'.
Proof.
  induction l as [|q l IH]; intros [|q' l'] E F; try discriminate; [reflexivity|]. cbn [map] in *. injection E as E1 E2 E3. injection F as F1 F2 F3.
  f_equal; [destruct q, q'; cbn in *; congruence | auto].
Qed.
Lemma F_map {A B} (f : A -> B) (P : A -> Prop) (R : B -> Prop) l : Forall P l -> (forall a, P a -> R (f a)) -> Forall R (map f l).
Proof. intros F H. induction F; constructor; auto. Qed.
Lemma tells_pwt cat n s s' : pwt_ok cat n s -> pwt_ok cat n s' -> tells (text_pwt cat s) (text_pwt cat s') (s = s').
Proof.
  intros (H1 & H2 & H3 & H4 & H5 & H6) (G1 & G2 & G3 & G4 & G5 & G6). unfold text_pwt. cbv zeta. apply tells_struct.
  eapply tells_then; [apply tells_fi; now apply det_ue | intros E1].
  eapply tells_then; [eapply tells_ofi; [exact H2 | exact G2 | apply det_se] | intros E2].
  eapply tells_then; [apply tells_vecu | intros E3].
  eapply tells_then with (Q := chroma_weight_l0_flag s = chroma_weight_l0_flag s').
  { unfold optf in H4, G4. destruct (negb (cat =? 0)); cbn [tif]; [apply tells_vecu | eapply tells_weaken; [apply tells_same | congruence]]. }
  intros E4. rewrite <- E3, <- E4 in G6.
  pose proof (luma_P _ _ _ H6) as L1. pose proof (luma_P _ _ _ G6) as L2. fold (pwt_luma s) in L1. fold (pwt_luma s') in L2.
  pose proof (chroma_P _ _ _ H6) as C1. pose proof (chroma_P _ _ _ G6) as C2. fold (pwt_chroma s) in C1. fold (pwt_chroma s') in C2.
  eapply tells_then; [apply tells_vec, vdet_s; eapply F_map; [eassumption| |eassumption|]; intros a [A1 A2]; apply Ps_se; assumption | intros E5].
  eapply tells_then; [apply tells_vec, vdet_s; eapply F_map; [eassumption| |eassumption|]; intros a [A1 A2]; apply Ps_se; assumption | intros E6].
  eapply tells_weaken with (Q := pwt_chroma s = pwt_chroma s').
  { destruct (negb (cat =? 0)) eqn:C; cbn [tif].
    - eapply tells_weaken; [apply tells_seq; [apply tells_vec2s|intros _; apply tells_vec2s]; eapply F_map; try eassumption; intros q (Q1 & Q2 & Q3 & Q4); repeat constructor; apply Ps_se; assumption|].
      intros [A B]. apply quad_cols; assumption.
    - assert (N : forall t, chroma_weight_l0_flag t = [] -> all_from 0 (pwt_entry_ok (luma_weight_l0_flag s) (chroma_weight_l0_flag t)) (pwt_entries t) -> pwt_chroma t = []).
      { intros t E. rewrite E. unfold pwt_chroma. generalize 0 at 1. induction (pwt_entries t) as [|e l IH]; intros i A; [reflexivity|]. destruct A as [[_ A] B]. rewrite flat_cons.
        unfold znth in A. replace (nz _) with false in A by (destruct (Z.to_nat i), (Z.ltb_spec i 0); reflexivity). unfold optf in A. rewrite A. eapply IH; exact B. }
      unfold optf in H4, G4. rewrite E4 in G6. rewrite (N s H4 H6), (N s' G4 G6). eapply tells_weaken; [apply tells_same | auto]. }
  intros E7. pose proof (map_pair _ _ E5 E6) as E8. clear E5 E6.
  assert (K : pwt_entries s = pwt_entries s').
  { apply map_pair.
    - eapply flat_cols; [|exact H6|exact G6|congruence|exact E8]. intros i a a' [A _] [B _]. eapply optf_presence; eassumption.
    - eapply flat_cols; [|exact H6|exact G6|congruence|exact E7]. intros i a a' [_ A] [_ B]. eapply optf_presence; eassumption. }
  destruct s, s'; cbn in *. congruence.
Qed.

(** * Long-term pictures *)
Lemma combine_S {A} k (a : A) l : combine (seq k (List.length (a :: l))) (a :: l) = (k, a) :: combine (seq (S k) (List.length l)) l.
Proof. reflexivity. Qed.
Definition lt_from (k : nat) (keep : nat -> lt_entry -> bool) (f : lt_entry -> Z) (l : list lt_entry) : list Z :=
  flat_map (fun e => if keep (fst e) (snd e) then [f (snd e)] else []) (combine (seq k (List.length l)) l).
Lemma lt_cols keep f : forall l l' k, List.length l = List.length l' ->
  (forall j a a', nth_error l j = Some a -> nth_error l' j = Some a' -> keep (k + j)%nat a = keep (k + j)%nat a') -> lt_from k keep f l = lt_from k keep f l' ->
  forall j a a', nth_error l j = Some a -> nth_error l' j = Some a' -> keep (k + j)%nat a = true -> f a = f a'.
Proof.
  induction l as [|x l IH]; intros [|x' l'] k L K E j a a' N N' T; try discriminate; [destruct j; discriminate|].
  unfold lt_from in E. rewrite !combine_S, !flat_cons in E. cbn [fst snd] in E. fold (lt_from (S k) keep f l) in E. fold (lt_from (S k) keep f l') in E.
  pose proof (K 0%nat x x' eq_refl eq_refl) as K0. rewrite Nat.add_0_r in K0. rewrite <- K0 in E. cbn [List.length] in L.
  assert (Ef : (keep k x = true -> f x = f x') /\ lt_from (S k) keep f l = lt_from (S k) keep f l').
  { destruct (keep k x); cbn [app] in E; [|split; [discriminate | exact E]].
    change (f x :: lt_from (S k) keep f l = f x' :: lt_from (S k) keep f l') in E. injection E as E1 E2. auto. }
  destruct Ef as [Ef Er]. destruct j as [|j].
  - cbn in N, N'. rewrite Nat.add_0_r in T. assert (x = a) by congruence. assert (x' = a') by congruence. subst. auto.
  - cbn [nth_error] in N, N'. rewrite <- plus_n_Sm in T. refine (IH l' (S k) _ _ Er j a a' N N' T); [lia|].
    intros j0 b b' M M'. specialize (K (S j0) b b' M M'). rewrite <- plus_n_Sm in K. exact K.
Qed.
Lemma F_lt keep f (P : Z -> lt_entry -> Prop) : (forall i e, P (Z.of_nat i) e -> keep i e = true -> P_u (f e)) -> forall l k, all_from (Z.of_nat k) P l -> Forall P_u (lt_from k keep f l).
Proof.
  intros H. induction l as [|e l IH]; intros k A; [constructor|]. unfold lt_from. rewrite combine_S, flat_cons. cbn [fst snd]. fold (lt_from (S k) keep f l).
  destruct A as [A1 A2]. assert (R : Forall P_u (lt_from (S k) keep f l)) by (apply IH; replace (Z.of_nat (S k)) with (Z.of_nat k + 1) by (clear; lia); exact A2).
  destruct (keep k e) eqn:K; [constructor; [exact (H _ _ A1 K) | exact R] | exact R].
Qed.
Lemma lt_col_from keep f l : lt_col keep f l = lt_from 0 keep f l.
Proof. reflexivity. Qed.
Lemma all_from_map (P : Z -> lt_entry -> Prop) (f : lt_entry -> Z) (R : Z -> Prop) : (forall i e, P i e -> R (f e)) -> forall l i, all_from i P l -> Forall R (map f l).
Proof. intros H. induction l as [|e l IH]; intros i A; [constructor|]. destruct A as [A1 A2]. constructor; [eapply H; exact A1 | eapply IH; exact A2]. Qed.

Lemma CeilLog2_32 n : 0 <= n <= 64 -> CeilLog2 n <= 32.
Proof. intros H. unfold CeilLog2. destruct (Z.le_gt_cases n 1); [rewrite Z.log2_up_eqn0 by lia; lia|]. transitivity (Z.log2_up 64); [apply Z.log2_up_le_mono; lia | discriminate]. Qed.

(** the two headers agree on the number of long-term pictures from the SPS *)
Lemma tells_lts s h h' N : 0 <= num_long_term_ref_pics_sps s <= 32 -> 0 <= log2_max_pic_order_cnt_lsb_minus4 s <= 12 ->
  num_long_term_sps h = num_long_term_sps h' ->
  veci N (lt_entry_ok s (num_long_term_sps h)) (sh_lt h) -> veci N (lt_entry_ok s (num_long_term_sps h')) (sh_lt h') ->
  tells (tupto (Z.to_nat N) (text_lt s h)) (tupto (Z.to_nat N) (text_lt s h')) (sh_lt h = sh_lt h').
Proof.
  intros Hn Hl En [L A] [L' A']. rewrite <- En in A'.
  set (from_sps := fun j : nat => Z.of_nat j <? num_long_term_sps h).
  set (R := fun i => (from_sps i && (1 <? num_long_term_ref_pics_sps s) = true ->
                      lt_from 0 (fun j _ => from_sps j && (1 <? num_long_term_ref_pics_sps s)) lt_idx_sps (sh_lt h) = lt_from 0 (fun j _ => from_sps j && (1 <? num_long_term_ref_pics_sps s)) lt_idx_sps (sh_lt h')) /\
                     (from_sps i = false -> lt_from 0 (fun j _ => negb (from_sps j)) poc_lsb_lt (sh_lt h) = lt_from 0 (fun j _ => negb (from_sps j)) poc_lsb_lt (sh_lt h') /\
                       lt_from 0 (fun j _ => negb (from_sps j)) used_by_curr_pic_lt_flag (sh_lt h) = lt_from 0 (fun j _ => negb (from_sps j)) used_by_curr_pic_lt_flag (sh_lt h')) /\
                     map delta_poc_msb_present_flag (sh_lt h) = map delta_poc_msb_present_flag (sh_lt h') /\
                     lt_from 0 (fun _ e => nz (delta_poc_msb_present_flag e)) delta_poc_msb_cycle_lt (sh_lt h) = lt_from 0 (fun _ e => nz (delta_poc_msb_present_flag e)) delta_poc_msb_cycle_lt (sh_lt h')).
  assert (Hc : CeilLog2 (num_long_term_ref_pics_sps s) <= 32) by (apply CeilLog2_32; clear - Hn; lia).
  eapply tells_weaken with (Q := forall i, (i < Z.to_nat N)%nat -> R i).
  - apply tells_tupto. intros i Hi. unfold text_lt. cbv zeta. rewrite <- En. fold from_sps. 
    change (fun j : nat => Z.of_nat j <? num_long_term_sps h) with from_sps. rewrite !lt_col_from.
    eapply tells_weaken; [apply tells_seq; [apply tells_if; [reflexivity | intros C | intros C] | intros _; apply tells_seq; [apply tells_vec, vdet_u | intros _; apply tells_vec, vdet_u]]|].
    + apply tells_tif; [reflexivity|]. intros C1. apply tells_vec, vdet_u; (eapply (F_lt _ _ (lt_entry_ok s (num_long_term_sps h))); [|eassumption]); intros j e (O & _) K; unfold from_sps in K; rewrite K in O; exact (Pu_u _ _ Hc O).
    + apply tells_seq; [|intros _]; apply tells_vec, vdet_u; (eapply (F_lt _ _ (lt_entry_ok s (num_long_term_sps h))); [|eassumption]); intros j e (_ & O1 & O2 & _) K; unfold from_sps in K; rewrite K in *;
        first [refine (Pu_u _ _ _ O1); clear - Hl; lia | refine (Pu_u _ _ _ O2); clear; lia].
    + eapply all_from_map; [|exact A]. intros j e (_ & _ & _ & O & _). refine (Pu_u _ _ _ O). clear; lia.
    + eapply all_from_map; [|exact A']. intros j e (_ & _ & _ & O & _). refine (Pu_u _ _ _ O). clear; lia.
    + eapply (F_lt _ _ (lt_entry_ok s (num_long_term_sps h))); [|exact A]. intros j e (_ & _ & _ & _ & O) K. rewrite K in O. exact (Pu_ue _ O).
    + eapply (F_lt _ _ (lt_entry_ok s (num_long_term_sps h))); [|exact A']. intros j e (_ & _ & _ & _ & O) K. rewrite K in O. exact (Pu_ue _ O).
    + cbv beta. intros ((T1 & T2) & T3 & T4). unfold R. split; [|split; [|split; assumption]].
      * intros C. apply andb_prop in C. destruct C as [C1 C2]. exact (T1 C1 C2).
      * intros C. exact (T2 C).
  - intros H. apply list_nth_ext. intros i.
    destruct (nth_error (sh_lt h) i) as [e|] eqn:N1.
    2:{ symmetry. apply nth_error_None. apply nth_error_None in N1. lia. }
    destruct (nth_error (sh_lt h') i) as [e'|] eqn:N2.
    2:{ apply nth_error_None in N2. assert ((i < List.length (sh_lt h))%nat) by (apply nth_error_Some; congruence). lia. }
    assert (Li : (i < Z.to_nat N)%nat) by (rewrite <- L; apply nth_error_Some; congruence).
    destruct (H i Li) as (R1 & R2 & R3 & R4). clear H.
    pose proof (all_from_nth _ _ _ A i e N1) as O. pose proof (all_from_nth _ _ _ A' i e' N2) as O'. cbv beta in O, O'. rewrite Z.add_0_l in O, O'.
    assert (LL : List.length (sh_lt h) = List.length (sh_lt h')) by congruence.
    assert (Fl : forall j a a', nth_error (sh_lt h) j = Some a -> nth_error (sh_lt h') j = Some a' -> delta_poc_msb_present_flag a = delta_poc_msb_present_flag a').
    { intros j a a' M M'. apply (map_nth_error delta_poc_msb_present_flag) in M. apply (map_nth_error delta_poc_msb_present_flag) in M'. congruence. }
    destruct O as (O1 & O2 & O3 & O4 & O5), O' as (O1' & O2' & O3' & O4' & O5'). fold (from_sps i) in *.
    assert (E1 : lt_idx_sps e = lt_idx_sps e').
    { apply (optf_eq _ _ _ _ _ _ O1 O1'). intros C. refine (lt_cols _ _ _ _ _ LL _ (R1 C) i e e' N1 N2 _); [reflexivity | exact C]. }
    assert (E2 : poc_lsb_lt e = poc_lsb_lt e').
    { apply (optf_eq _ _ _ _ _ _ O2 O2'). intros C. refine (lt_cols _ _ _ _ _ LL _ (proj1 (R2 _)) i e e' N1 N2 _); [reflexivity | now apply negb_true_iff | exact C]. }
    assert (E3 : used_by_curr_pic_lt_flag e = used_by_curr_pic_lt_flag e').
    { apply (optf_eq _ _ _ _ _ _ O3 O3'). intros C. refine (lt_cols _ _ _ _ _ LL _ (proj2 (R2 _)) i e e' N1 N2 _); [reflexivity | now apply negb_true_iff | exact C]. }
    pose proof (Fl _ _ _ N1 N2) as E4.
    assert (E5 : delta_poc_msb_cycle_lt e = delta_poc_msb_cycle_lt e').
    { rewrite <- E4 in O5'. apply (optf_eq _ _ _ _ _ _ O5 O5'). intros C. refine (lt_cols _ _ _ _ _ LL _ R4 i e e' N1 N2 _); [|exact C]. intros j a a' M M'. f_equal. exact (Fl _ _ _ M M'). }
    f_equal. destruct e, e'; cbn in *. congruence.
Qed.

(** * The header *)
Lemma tells_own_rps s r r' : own_rps s r -> own_rps s r' -> rps_run (num_short_term_ref_pic_sets s) (sps_st_ref_pic_set s) r -> rps_run (num_short_term_ref_pic_sets s) (sps_st_ref_pic_set s) r' ->
  tells (text_rps (num_short_term_ref_pic_sets s) (num_short_term_ref_pic_sets s) r) (text_rps (num_short_term_ref_pic_sets s) (num_short_term_ref_pic_sets s) r') (r = r').
Proof.
  intros O O' R R'. unfold own_rps in *. eapply tells_weaken; [eapply tells_rps; eassumption|]. intros [E1 E2]. unfold rps_run, rps_ok in *. rewrite <- E1 in *.
  destruct (nz (inter_ref_pic_set_prediction_flag r)) eqn:I; [|exact E2]. specialize (R eq_refl (mk_bb [])). specialize (R' eq_refl (mk_bb [])).
  destruct E2 as (E2 & E3 & E4 & E5). destruct O as ((S1 & S2 & _) & _), O' as ((S1' & S2' & _) & _).
  unfold ref_of, ref_idx in R, R'. rewrite <- E2, <- E3, <- E4, <- E5 in R'. rewrite R in R'. assert (A : rps_s0 r = rps_s0 r') by congruence. assert (B : rps_s1 r = rps_s1 r') by congruence.
  destruct r, r'; cbn in *. congruence.
Qed.

Ltac hfields := cbn [first_slice_segment_in_pic_flag no_output_of_prior_pics_flag slice_pic_parameter_set_id dependent_slice_segment_flag slice_segment_address slice_reserved_flag slice_type pic_output_flag colour_plane_id slice_pic_order_cnt_lsb short_term_ref_pic_set_sps_flag sh_st_ref_pic_set short_term_ref_pic_set_idx num_long_term_sps num_long_term_pics sh_lt slice_temporal_mvp_enabled_flag slice_sao_luma_flag slice_sao_chroma_flag num_ref_idx_active_override_flag num_ref_idx_l0_active_minus1 num_ref_idx_l1_active_minus1 mvd_l1_zero_flag cabac_init_flag collocated_from_l0_flag collocated_ref_idx sh_pred_weight_table five_minus_max_num_merge_cand use_integer_mv_flag slice_qp_delta slice_cb_qp_offset slice_cr_qp_offset slice_act_y_qp_offset slice_act_cb_qp_offset slice_act_cr_qp_offset deblocking_filter_override_flag slice_deblocking_filter_disabled_flag slice_beta_offset_div2 slice_tc_offset_div2 slice_loop_filter_across_slices_enabled_flag num_entry_point_offsets offset_len_minus1 entry_point_offset_minus1 slice_segment_header_extension_length slice_segment_header_extension_data_byte sh_weighted_pred_flag sh_weighted_bipred_flag] in *.
Definition own_run (s : sps) (h : slice_header) : Prop :=
  forall r, sh_st_ref_pic_set h = Some r -> rps_run (num_short_term_ref_pic_sets s) (sps_st_ref_pic_set s) r.
Ltac dnames h h' :=
  destruct h as [a_first_slice_segment_in_pic_flag a_no_output_of_prior_pics_flag a_slice_pic_parameter_set_id a_dependent_slice_segment_flag a_slice_segment_address a_slice_reserved_flag a_slice_type a_pic_output_flag a_colour_plane_id a_slice_pic_order_cnt_lsb a_short_term_ref_pic_set_sps_flag a_sh_st_ref_pic_set a_short_term_ref_pic_set_idx a_num_long_term_sps a_num_long_term_pics a_sh_lt a_slice_temporal_mvp_enabled_flag a_slice_sao_luma_flag a_slice_sao_chroma_flag a_num_ref_idx_active_override_flag a_num_ref_idx_l0_active_minus1 a_num_ref_idx_l1_active_minus1 a_mvd_l1_zero_flag a_cabac_init_flag a_collocated_from_l0_flag a_collocated_ref_idx a_sh_pred_weight_table a_five_minus_max_num_merge_cand a_use_integer_mv_flag a_slice_qp_delta a_slice_cb_qp_offset a_slice_cr_qp_offset a_slice_act_y_qp_offset a_slice_act_cb_qp_offset a_slice_act_cr_qp_offset a_deblocking_filter_override_flag a_slice_deblocking_filter_disabled_flag a_slice_beta_offset_div2 a_slice_tc_offset_div2 a_slice_loop_filter_across_slices_enabled_flag a_num_entry_point_offsets a_offset_len_minus1 a_entry_point_offset_minus1 a_slice_segment_header_extension_length a_slice_segment_header_extension_data_byte a_sh_weighted_pred_flag a_sh_weighted_bipred_flag],
    h' as [b_first_slice_segment_in_pic_flag b_no_output_of_prior_pics_flag b_slice_pic_parameter_set_id b_dependent_slice_segment_flag b_slice_segment_address b_slice_reserved_flag b_slice_type b_pic_output_flag b_colour_plane_id b_slice_pic_order_cnt_lsb b_short_term_ref_pic_set_sps_flag b_sh_st_ref_pic_set b_short_term_ref_pic_set_idx b_num_long_term_sps b_num_long_term_pics b_sh_lt b_slice_temporal_mvp_enabled_flag b_slice_sao_luma_flag b_slice_sao_chroma_flag b_num_ref_idx_active_override_flag b_num_ref_idx_l0_active_minus1 b_num_ref_idx_l1_active_minus1 b_mvd_l1_zero_flag b_cabac_init_flag b_collocated_from_l0_flag b_collocated_ref_idx b_sh_pred_weight_table b_five_minus_max_num_merge_cand b_use_integer_mv_flag b_slice_qp_delta b_slice_cb_qp_offset b_slice_cr_qp_offset b_slice_act_y_qp_offset b_slice_act_cb_qp_offset b_slice_act_cr_qp_offset b_deblocking_filter_override_flag b_slice_deblocking_filter_disabled_flag b_slice_beta_offset_div2 b_slice_tc_offset_div2 b_slice_loop_filter_across_slices_enabled_flag b_num_entry_point_offsets b_offset_len_minus1 b_entry_point_offset_minus1 b_slice_segment_header_extension_length b_slice_segment_header_extension_data_byte b_sh_weighted_pred_flag b_sh_weighted_bipred_flag].
Lemma Pu_o c n x : n <= 32 -> optf c (u_ok n) 0 x -> P_u x.
Proof. intros L H. eapply Pu_optf; [exact H|]. apply Pu_u, L. Qed.
Lemma Pu_oe c x : optf c ue_ok 0 x -> P_u x.
Proof. intros H. eapply Pu_optf; [exact H|]. apply Pu_ue. Qed.
Lemma Ps_o c x : optf c se_ok 0 x -> P_s x.
Proof. intros H. eapply Ps_optf; [exact H|]. apply Ps_se. Qed.
Lemma tells_fi_u c c' n k x x' : n <= 32 -> optf c (u_ok n) 0 x -> optf c' (u_ok n) 0 x' -> tells (fi k x) (fi k x') (x = x').
Proof. intros L H H'. apply tells_fi, det_pu; eapply Pu_o; eassumption. Qed.
Lemma tells_fi_e c c' k x x' : optf c ue_ok 0 x -> optf c' ue_ok 0 x' -> tells (fi k x) (fi k x') (x = x').
Proof. intros H H'. apply tells_fi, det_pu; eapply Pu_oe; eassumption. Qed.
Lemma tells_fi_s c c' k x x' : optf c se_ok 0 x -> optf c' se_ok 0 x' -> tells (fi k x) (fi k x') (x = x').
Proof. intros H H'. apply tells_fi, det_ps; eapply Ps_o; eassumption. Qed.
Lemma tells_tif_u c n k x x' d : n <= 32 -> optf c (u_ok n) d x -> optf c (u_ok n) d x' -> tells (tif c (fi k x)) (tif c (fi k x')) (x = x').
Proof. intros L H H'. eapply tells_ofi; [exact H | exact H' | apply det_un, L]. Qed.
Lemma tells_tif_e c k x x' d : optf c ue_ok d x -> optf c ue_ok d x' -> tells (tif c (fi k x)) (tif c (fi k x')) (x = x').
Proof. intros H H'. eapply tells_ofi; [exact H | exact H' | apply det_ue]. Qed.
Lemma tells_tif_s c k x x' d : optf c se_ok d x -> optf c se_ok d x' -> tells (tif c (fi k x)) (tif c (fi k x')) (x = x').
Proof. intros H H'. eapply tells_ofi; [exact H | exact H' | apply det_se]. Qed.
Lemma tells_none (Q : Prop) : Q -> tells tnop tnop Q.
Proof. intros H. eapply tells_weaken; [apply tells_same | auto]. Qed.
Lemma tseq_assoc a b c : (a +> b) +> c = a +> b +> c.
Proof. destruct a, b, c; cbn; try reflexivity. now rewrite <- app_assoc. Qed.
Lemma le_1_32 : 1 <= 32. Proof. lia. Qed.
Lemma le_2_32 : 2 <= 32. Proof. lia. Qed.
Lemma le_8_32 : 8 <= 32. Proof. lia. Qed.
Tactic Notation "nxt" tactic3(t) := eapply tells_then; [solve [t] | let E := fresh "E" in intros E; try subst].
Ltac bysimp C := rewrite C in *; cbn [andb negb orb] in *.
Ltac dflt := unfold optf in *; apply tells_none; repeat split; congruence.

Section Parts.
Variables (s : sps) (p : pps).
(** the entry points and the extension *)
Lemma tells_tail ep ext n n' o o' e e' x x' d d' :
  optf ep ue_ok 0 n -> optf ep ue_ok 0 n' ->
  optf (ep && (0 <? n)) (ue_le 31) 0 o -> optf (ep && (0 <? n')) (ue_le 31) 0 o' ->
  optf (ep && (0 <? n)) (Syntax.vec n (u_ok (o + 1))) [] e -> optf (ep && (0 <? n')) (Syntax.vec n' (u_ok (o' + 1))) [] e' ->
  optf ext ue_ok 0 x -> optf ext ue_ok 0 x' -> optf ext (Syntax.vec x (u_ok 8)) [] d -> optf ext (Syntax.vec x' (u_ok 8)) [] d' ->
  tells (tif ep (fi "num_entry_point_offsets" n +> tif (0 <? n) (fi "offset_len_minus1" o +> MText.vec "entry_point_offset_minus1" e)) +>
         tif ext (fi "slice_segment_header_extension_length" x +> MText.vec "slice_segment_header_extension_data_byte" d))
        (tif ep (fi "num_entry_point_offsets" n' +> tif (0 <? n') (fi "offset_len_minus1" o' +> MText.vec "entry_point_offset_minus1" e')) +>
         tif ext (fi "slice_segment_header_extension_length" x' +> MText.vec "slice_segment_header_extension_data_byte" d'))
        (n = n' /\ o = o' /\ e = e' /\ x = x' /\ d = d').
Proof.
  intros H1 G1 H2 G2 H3 G3 H4 G4 H5 G5.
  eapply tells_then with (Q := n = n' /\ o = o' /\ e = e').
  - destruct ep; cbn [andb tif] in *; [|unfold optf in *; apply tells_none; repeat split; congruence].
    nxt (apply tells_fi, det_ue; assumption). destruct (0 <? n'); cbn [tif]; [|unfold optf in *; apply tells_none; repeat split; congruence].
    unfold optf in *. assert (o <= 31 /\ o' <= 31) by (unfold ue_le in *; lia).
    nxt (apply tells_fi, det_pu; eapply Pu_ul; try eassumption; clear; lia).
    eapply tells_weaken; [apply tells_vec, vdet_u; (eapply Fu_vec0; [eassumption|]; intros a K; refine (Pu_u _ _ _ K); lia) | auto].
  - intros (-> & -> & ->). destruct ext; cbn [tif]; unfold optf in *; [|apply tells_none; repeat split; congruence].
    nxt (apply tells_fi, det_ue; assumption).
    eapply tells_weaken; [apply tells_vec, vdet_u; (eapply Fu_vec0; [eassumption|]; intros a K; refine (Pu_u _ _ _ K); clear; lia) | auto].
Qed.
End Parts.

Lemma tells_slice_header s p nut h h' : sps_facts s -> act_flag p = act_present p ->
  slice_ok false (own_rps s) nut s p h -> slice_ok false (own_rps s) nut s p h' -> own_run s h -> own_run s h' ->
  num_long_term_sps h + num_long_term_pics h < 2 ^ 32 -> num_long_term_sps h' + num_long_term_pics h' < 2 ^ 32 ->
  tells (text_slice_header s p nut h) (text_slice_header s p nut h') (h = h').
Proof.
  intros Fs Ea O O' Ru Ru' B B'. unfold slice_ok, inferred in O, O'. cbv zeta in O, O'. cbn [orb andb] in O, O'.
  unfold text_slice_header. rewrite (sf_cat _ Fs), (sf_mv _ Fs), Ea. unfold IDR_W_RADL, IDR_N_LP, SliceType_P, SliceType_B. rewrite <- negb_orb.
  apply tells_struct. unfold own_run in *. dnames h h'. hfields.
  destruct O as (O1 & O2 & O3 & O4 & O5 & O6 & O7 & O8 & O9 & O10 & O11 & O12 & O13 & O14 & O15 & O16 & O17 & O18 & O19 & O20 & O21 & O22 & O23 & O24 & O25 & O26 & O27 & O28 & O29 & O30 & O31 & O32 & O33 & O34 & O35 & O36 & O37 & O38 & O39 & O40 & O41 & O42 & O43 & O44 & O45 & O46 & O47 & O48 & O49).
  destruct O' as (Q1 & Q2 & Q3 & Q4 & Q5 & Q6 & Q7 & Q8 & Q9 & Q10 & Q11 & Q12 & Q13 & Q14 & Q15 & Q16 & Q17 & Q18 & Q19 & Q20 & Q21 & Q22 & Q23 & Q24 & Q25 & Q26 & Q27 & Q28 & Q29 & Q30 & Q31 & Q32 & Q33 & Q34 & Q35 & Q36 & Q37 & Q38 & Q39 & Q40 & Q41 & Q42 & Q43 & Q44 & Q45 & Q46 & Q47 & Q48 & Q49).
  nxt (apply tells_fi, (det_un 1); [clear; lia | exact O1 | exact Q1]).
  nxt (eapply tells_fi_u; [apply le_1_32 | exact O2 | exact Q2]).
  nxt (apply tells_fi, det_ue; assumption).
  nxt (eapply tells_fi_u; [apply le_1_32 | exact O4 | exact Q4]).
  nxt (pose proof (sf_len _ Fs); eapply tells_fi_u; [|exact O6 | exact Q6]; lia).
  assert (T := tells_tail _ _ _ _ _ _ _ _ _ _ _ _ O42 Q42 O44 Q44 O45 Q45 O46 Q46 O47 Q47).
  assert (LT : 0 <= num_long_term_ref_pics_sps s <= 32) by apply (sf_nlt _ Fs). assert (LSB : 0 <= log2_max_pic_order_cnt_lsb_minus4 s <= 12) by apply (sf_lsb _ Fs).
  assert (NST : CeilLog2 (num_short_term_ref_pic_sets s) <= 32) by (apply CeilLog2_32, (sf_nst _ Fs)).
  destruct (negb (nz b_dependent_slice_segment_flag)) eqn:ND; cbn [andb] in *.
  2:{ unfold optf in *. subst. change (nz 0) with false in *. cbn [andb] in *. subst.
      cbn [tif]. nxt (apply tells_none; exact I). eapply tells_weaken; [exact T|]. intros (-> & -> & -> & -> & ->). reflexivity. }
  cbn [tif]. rewrite !tseq_assoc.
  nxt (apply tells_vec, vdet_u; eapply Fu_vec0; [exact O7 | | exact Q7 |]; intros a K; exact (Pu_u _ _ le_1_32 K)).
  nxt (apply tells_fi, det_ue; [exact O8 | exact Q8]).
  nxt (eapply tells_fi_u; [apply le_1_32 | exact O9 | exact Q9]).
  nxt (eapply tells_fi_u; [apply le_2_32 | exact O10 | exact Q10]).
  (* the pictures *)
  eapply tells_then with (Q := a_slice_pic_order_cnt_lsb = b_slice_pic_order_cnt_lsb /\ a_short_term_ref_pic_set_sps_flag = b_short_term_ref_pic_set_sps_flag /\
    a_sh_st_ref_pic_set = b_sh_st_ref_pic_set /\ a_short_term_ref_pic_set_idx = b_short_term_ref_pic_set_idx /\ a_num_long_term_sps = b_num_long_term_sps /\
    a_num_long_term_pics = b_num_long_term_pics /\ a_sh_lt = b_sh_lt /\ a_slice_temporal_mvp_enabled_flag = b_slice_temporal_mvp_enabled_flag).
  { clear O19 O20 O21 O22 O23 O24 O25 O26 O27 O28 O29 O30 O31 O32 O33 O34 O35 O36 O37 O38 O39 O40 O41 O42 O43 O44 O45 O46 O47.
    clear Q19 Q20 Q21 Q22 Q23 Q24 Q25 Q26 Q27 Q28 Q29 Q30 Q31 Q32 Q33 Q34 Q35 Q36 Q37 Q38 Q39 Q40 Q41 Q42 Q43 Q44 Q45 Q46 Q47 T.
    destruct (negb ((nut =? 19) || (nut =? 20))); cbn [andb tif] in *; [|unfold optf in *; apply tells_none; repeat split; congruence].
    nxt (apply tells_fi, (det_un (log2_max_pic_order_cnt_lsb_minus4 s + 4)); [clear - LSB; lia | exact O11 | exact Q11]).
    nxt (apply tells_fi, (det_un 1); [clear; lia | exact O12 | exact Q12]).
    eapply tells_then with (Q := a_sh_st_ref_pic_set = b_sh_st_ref_pic_set /\ a_short_term_ref_pic_set_idx = b_short_term_ref_pic_set_idx).
    { destruct (nz b_short_term_ref_pic_set_sps_flag); cbn [negb andb] in *.
      - unfold optf in O13, Q13. eapply tells_weaken; [eapply tells_tif_u; [exact NST | exact O14 | exact Q14]|]. intros E0. split; congruence.
      - unfold optf in *. destruct a_sh_st_ref_pic_set as [r|]; [|destruct O13]. destruct b_sh_st_ref_pic_set as [r'|]; [|destruct Q13]. cbn [tchecked].
        nxt (apply tells_same). eapply tells_weaken; [apply tells_call, tells_own_rps; [exact O13 | exact Q13 | apply Ru; reflexivity | apply Ru'; reflexivity]|]. intros ->. split; congruence. }
    intros [-> ->].
    eapply tells_then with (Q := a_num_long_term_sps = b_num_long_term_sps /\ a_num_long_term_pics = b_num_long_term_pics /\ a_sh_lt = b_sh_lt).
    { destruct (nz (long_term_ref_pics_present_flag s)); cbn [andb tif] in *; [|unfold optf in *; apply tells_none; repeat split; congruence].
      nxt (eapply tells_tif_e; [exact O15 | exact Q15]).
      nxt (apply tells_fi, det_ue; [exact O16 | exact Q16]).
      assert (N0 : 0 <= b_num_long_term_sps /\ 0 <= b_num_long_term_pics).
      { clear - Q15 Q16. unfold optf, ue_ok in *. destruct (0 <? num_long_term_ref_pics_sps s); lia. }
      unfold u32. rewrite Z.mod_small by (clear - N0 B'; lia).
      unfold optf in O17, Q17. eapply tells_weaken; [eapply tells_lts; [exact LT | exact LSB | reflexivity | exact O17 | exact Q17]|]. hfields. auto. }
    intros (-> & -> & ->).
    eapply tells_weaken; [eapply tells_tif_u; [apply le_1_32 | exact O18 | exact Q18]|]. intros ->. repeat split. }
  intros (-> & -> & -> & -> & -> & -> & -> & ->).
  (* sample adaptive offset *)
  eapply tells_then with (Q := a_slice_sao_luma_flag = b_slice_sao_luma_flag /\ a_slice_sao_chroma_flag = b_slice_sao_chroma_flag).
  { destruct (nz (sample_adaptive_offset_enabled_flag s)); cbn [andb tif] in *; [|unfold optf in O19, O20, Q19, Q20; apply tells_none; split; congruence].
    nxt (apply tells_fi, (det_un 1); [clear; lia | exact O19 | exact Q19]).
    eapply tells_weaken; [eapply tells_tif_u; [apply le_1_32 | exact O20 | exact Q20]|]. intros ->. split; reflexivity. }
  intros (-> & ->).
  (* P and B slices *)
  eapply tells_then with (Q := a_num_ref_idx_active_override_flag = b_num_ref_idx_active_override_flag /\ a_num_ref_idx_l0_active_minus1 = b_num_ref_idx_l0_active_minus1 /\
    a_num_ref_idx_l1_active_minus1 = b_num_ref_idx_l1_active_minus1 /\ a_mvd_l1_zero_flag = b_mvd_l1_zero_flag /\ a_cabac_init_flag = b_cabac_init_flag /\
    a_collocated_from_l0_flag = b_collocated_from_l0_flag /\ a_collocated_ref_idx = b_collocated_ref_idx /\ a_sh_pred_weight_table = b_sh_pred_weight_table /\
    a_five_minus_max_num_merge_cand = b_five_minus_max_num_merge_cand /\ a_use_integer_mv_flag = b_use_integer_mv_flag).
  { clear O31 O32 O33 O34 O35 O36 O37 O38 O39 O40 O41 O42 O43 O44 O45 O46 O47.
    clear Q31 Q32 Q33 Q34 Q35 Q36 Q37 Q38 Q39 Q40 Q41 Q42 Q43 Q44 Q45 Q46 Q47 T.
    destruct ((b_slice_type =? 1) || (b_slice_type =? 0)); cbn [andb tif] in *; [|unfold optf in *; apply tells_none; repeat split; congruence].
    nxt (apply tells_fi, (det_un 1); [clear; lia | exact O21 | exact Q21]).
    eapply tells_then with (Q := a_num_ref_idx_l0_active_minus1 = b_num_ref_idx_l0_active_minus1 /\ a_num_ref_idx_l1_active_minus1 = b_num_ref_idx_l1_active_minus1).
    { destruct (nz b_num_ref_idx_active_override_flag); cbn [andb tif] in *; [|unfold optf in *; apply tells_none; split; congruence].
      nxt (apply tells_fi, det_ue; [exact O22 | exact Q22]).
      eapply tells_weaken; [eapply tells_tif_e; [exact O23 | exact Q23]|]. intros ->. split; reflexivity. }
    intros (-> & ->).
    nxt (eapply tells_tif_u; [apply le_1_32 | exact O24 | exact Q24]).
    nxt (eapply tells_tif_u; [apply le_1_32 | exact O25 | exact Q25]).
    eapply tells_then with (Q := a_collocated_from_l0_flag = b_collocated_from_l0_flag /\ a_collocated_ref_idx = b_collocated_ref_idx).
    { destruct (nz b_slice_temporal_mvp_enabled_flag); cbn [andb tif] in *; [|unfold optf in *; apply tells_none; split; congruence].
      nxt (eapply tells_tif_u; [apply le_1_32 | exact O26 | exact Q26]).
      eapply tells_weaken; [eapply tells_tif_e; [exact O27 | exact Q27]|]. intros ->. split; reflexivity. }
    intros (-> & ->).
    eapply tells_then with (Q := a_sh_pred_weight_table = b_sh_pred_weight_table).
    { destruct (nz (weighted_pred_flag p) && (b_slice_type =? 1) || nz (weighted_bipred_flag p) && (b_slice_type =? 0)); cbn [andb tif] in *;
        [|unfold optf in *; apply tells_none; congruence].
      apply tells_sub. unfold optf in O28, Q28. eapply tells_deref_eq; [exact O28 | exact Q28|]. cbv beta. intros a a' H H'. eapply tells_pwt; eassumption. }
    intros ->.
    nxt (apply tells_fi, det_ue; [exact O29 | exact Q29]).
    eapply tells_weaken; [eapply tells_tif_u; [apply le_1_32 | exact O30 | exact Q30]|]. intros ->. repeat split. }
  intros (-> & -> & -> & -> & -> & -> & -> & -> & -> & ->).
  nxt (apply tells_fi, det_se; [exact O31 | exact Q31]).
  eapply tells_then with (Q := a_slice_cb_qp_offset = b_slice_cb_qp_offset /\ a_slice_cr_qp_offset = b_slice_cr_qp_offset).
  { destruct (nz (pps_slice_chroma_qp_offsets_present_flag p)); cbn [andb tif] in *; [|unfold optf in O32, O33, Q32, Q33; apply tells_none; split; congruence].
    nxt (apply tells_fi, det_se; [exact O32 | exact Q32]).
    eapply tells_weaken; [apply tells_fi, det_se; [exact O33 | exact Q33]|]. intros ->. split; reflexivity. }
  intros (-> & ->).
  eapply tells_then with (Q := a_slice_act_y_qp_offset = b_slice_act_y_qp_offset /\ a_slice_act_cb_qp_offset = b_slice_act_cb_qp_offset /\ a_slice_act_cr_qp_offset = b_slice_act_cr_qp_offset).
  { destruct (nz (act_present p)); cbn [andb tif] in *; [|unfold optf in O34, O35, O36, Q34, Q35, Q36; apply tells_none; repeat split; congruence].
    nxt (apply tells_fi, det_se; [exact O34 | exact Q34]). nxt (apply tells_fi, det_se; [exact O35 | exact Q35]).
    eapply tells_weaken; [apply tells_fi, det_se; [exact O36 | exact Q36]|]. intros ->. repeat split. }
  intros (-> & -> & ->).
  nxt (eapply tells_tif_u; [apply le_1_32 | exact O37 | exact Q37]).
  eapply tells_then with (Q := a_slice_deblocking_filter_disabled_flag = b_slice_deblocking_filter_disabled_flag /\ a_slice_beta_offset_div2 = b_slice_beta_offset_div2 /\
    a_slice_tc_offset_div2 = b_slice_tc_offset_div2).
  { destruct (nz b_deblocking_filter_override_flag); cbn [andb tif] in *; [|unfold optf in O38, O39, O40, Q38, Q39, Q40; apply tells_none; repeat split; congruence].
    nxt (apply tells_fi, (det_un 1); [clear; lia | exact O38 | exact Q38]).
    destruct (negb (nz b_slice_deblocking_filter_disabled_flag)); cbn [tif] in *; [|unfold optf in O39, O40, Q39, Q40; apply tells_none; repeat split; congruence].
    nxt (apply tells_fi, det_se; [exact O39 | exact Q39]).
    eapply tells_weaken; [apply tells_fi, det_se; [exact O40 | exact Q40]|]. intros ->. repeat split. }
  intros (-> & -> & ->).
  nxt (eapply tells_tif_u; [apply le_1_32 | exact O41 | exact Q41]).
  eapply tells_weaken; [exact T|]. intros (-> & -> & -> & -> & ->). reflexivity.
Qed.

(** * From the parser *)
(** the texts start alike and agree on [Q] *)
Definition tellsp (d d' : txt) (Q : Prop) : Prop := forall c c' r r', d = Done c -> d' = Done c' -> (toks c ++ r = toks c' ++ r')%list -> Q.
Lemma tellsp_seq a b a' b' Q R : tells a a' Q -> (Q -> tellsp b b' R) -> tellsp (a +> b) (a' +> b') R.
Proof.
  intros Ha Hb c c' r r' E E' T. destruct (tseq_done _ _ _ E) as (ca & cb & Ea & Eb & ->), (tseq_done _ _ _ E') as (ca' & cb' & Ea' & Eb' & ->).
  rewrite !toks_app, <- !app_assoc in T. destruct (Ha _ _ _ _ Ea Ea' T) as [HQ T']. exact (Hb HQ _ _ _ _ Eb Eb' T').
Qed.
Lemma tellsp_left a b a' b' Q : tellsp a a' Q -> tellsp (a +> b) (a' +> b') Q.
Proof.
  intros Ha c c' r r' E E' T. destruct (tseq_done _ _ _ E) as (ca & cb & Ea & Eb & ->), (tseq_done _ _ _ E') as (ca' & cb' & Ea' & Eb' & ->).
  rewrite !toks_app, <- !app_assoc in T. exact (Ha _ _ _ _ Ea Ea' T).
Qed.
Lemma tellsp_struct n d d' Q : tellsp d d' Q -> tellsp (struct n d) (struct n d') Q.
Proof. intros H. unfold struct. eapply tellsp_seq; [apply tells_same|]. intros _. apply tellsp_left, H. Qed.
Lemma tellsp_sub d d' Q : tellsp d d' Q -> tellsp (sub d) (sub d') Q.
Proof. intros H. unfold sub, MText.call. eapply tellsp_seq; [apply tells_same|]. intros _. eapply tellsp_seq; [apply tells_same|]. intros _. apply tellsp_left, H. Qed.
Lemma tells_first d d' (P Q : Prop) : tellsp d d' P -> (P -> tells d d' Q) -> tells d d' Q.
Proof. intros H G c c' r r' E E' T. exact (G (H _ _ _ _ E E' T) _ _ _ _ E E' T). Qed.

Lemma slice_pid nut s p s' p' h h' RPS RPS' : slice_ok false RPS nut s p h -> slice_ok false RPS' nut s' p' h' ->
  tellsp (text_slice_header s p nut h) (text_slice_header s' p' nut h') (slice_pic_parameter_set_id h = slice_pic_parameter_set_id h').
Proof.
  intros O O'. unfold slice_ok in O, O'. cbv zeta in O, O'. destruct O as (O1 & O2 & O3 & _), O' as (Q1 & Q2 & Q3 & _). unfold text_slice_header. cbv zeta.
  apply tellsp_struct. eapply tellsp_seq; [apply tells_fi, (det_un 1); [clear; lia | exact O1 | exact Q1] | intros _].
  eapply tellsp_seq; [eapply tells_fi_u; [apply le_1_32 | exact O2 | exact Q2] | intros _].
  eapply tellsp_seq; [apply tells_fi, det_ue; assumption|]. intros E c c' r r' _ _ _. exact E.
Qed.
Lemma act_flag_present p SE ML : pps_ok false SE ML p -> act_flag p = act_present p.
Proof.
  intros O. unfold act_flag, act_present. assert (A : optf (nz (pps_scc_extension_flag p)) (is_some (pps_scc_ext_ok false)) None (pps_scc_extension p)) by (unfold pps_ok in O; cbv zeta in O; tauto).
  clear O. unfold optf in A. destruct (nz (pps_scc_extension_flag p)); [reflexivity|]. rewrite A. reflexivity.
Qed.

Lemma own_runs st nut s p b h b1 : sps_facts s -> refers_to st (slice_pic_parameter_set_id h) p s -> slice_ok false (own_rps s) nut s p h ->
  ParseSliceSegmentHeader nut st b = Ok h b1 -> own_run s h.
Proof.
  intros Fs [[xp Rp] [xs Rs]] O E. unfold ParseSliceSegmentHeader in E.
  do 3 (apply bind_ok in E; let r := fresh "r" in let c := fresh "c" in let X := fresh "X" in destruct E as (r & c & X & E)).
  destruct (st_pps st r1) as [[p' xp']|] eqn:Ep; [|discriminate E]. destruct (st_sps st (pps_seq_parameter_set_id p')) as [[s' xs']|] eqn:Es; [|discriminate E].
  unfold slice_rest in E. cbv zeta in E.
  do 11 (apply bind_ok in E; let r := fresh "r" in let c := fresh "c" in let X := fresh "X" in destruct E as (r & c & X & E)).
  match goal with X : when _ (some _) None _ = Ok ?r _ |- _ => rename X into Xr; rename r into st0 end.
  assert (K : sh_st_ref_pic_set h = st0 /\ slice_pic_parameter_set_id h = r1).
  { clear - E. repeat (apply bind_ok in E; let r := fresh "r" in let c := fresh "c" in let X := fresh "X" in destruct E as (r & c & X & E); clear X).
    unfold ret in E. match type of E with Ok ?v _ = _ => assert (S : v = h) by (injection E; auto) end. rewrite <- S. split; reflexivity. }
  destruct K as [K1 K2]. rewrite K2 in Rp. assert (p' = p) by congruence. subst p'. assert (s' = s) by congruence. subst s'.
  intros rr Hr. rewrite <- K1, Hr in Xr. clear K1. unfold when in Xr. 
  match type of Xr with (if ?c then _ else _) _ = _ => destruct c eqn:Ec; [|unfold ret in Xr; congruence] end.
  unfold some in Xr. apply bind_ok in Xr. destruct Xr as (r' & c' & Xr & Z). unfold ret in Z. assert (r' = rr) by congruence. subst r'.
  assert (Or : own_rps s rr).
  { unfold slice_ok in O. cbv zeta in O. destruct O as (_ & _ & _ & _ & _ & _ & _ & _ & _ & _ & _ & _ & O & _). rewrite Hr in O. unfold optf in O.
    match type of O with if ?c then _ else _ => destruct c; [exact O | discriminate O] end. }
  exact (rps_runs _ _ _ _ _ _ _ (sf_nst _ Fs) Or Xr).
Qed.
