(** What fdump prints determines the parsed structure: st_ref_pic_set, scaling_list_data, SPS *)
From Coq Require Import ZArith List Bool Lia ZifyBool ZifyNat String Ascii.
From Verif Require Import MBase MBitBuffer Spec Reader ReaderFacts Rules Syntax SyntaxSe MCommon MSyntaxA SpecA MProfile MSyntaxB SpecB MSps SpecSps FactsSps FactsLocal MText SpecText FactsText FactsTells FactsFaithA.
Import ListNotations.
Open Scope string_scope.
Open Scope Z_scope.

(** * st_ref_pic_set *)
(** The syntax elements of the set agree (what is derived is not printed). *)
Definition rps_syn (a b : rps) : Prop :=
  inter_ref_pic_set_prediction_flag a = inter_ref_pic_set_prediction_flag b /\
  (if nz (inter_ref_pic_set_prediction_flag a) then
     delta_idx_minus1 a = delta_idx_minus1 b /\ delta_rps_sign a = delta_rps_sign b /\ abs_delta_rps_minus1 a = abs_delta_rps_minus1 b /\ rps_flags a = rps_flags b
   else a = b).
Lemma F_fst (P : Z * Z -> Prop) l : Forall P l -> (forall e, P e -> P_u (fst e) /\ P_u (snd e)) -> Forall P_u (map fst l) /\ Forall P_u (map snd l).
Proof. intros F H. induction F as [|e l He F [I1 I2]]; [split; constructor|]. destruct (H e He). split; cbn [map]; constructor; assumption. Qed.
Lemma tells_rps idx num sets sets' m m' s s' : rps_ok idx num sets m s -> rps_ok idx num sets' m' s' -> tells (text_rps idx num s) (text_rps idx num s') (rps_syn s s').
Proof.
  intros H H'. unfold rps_ok in *. split_ok. unfold rps_shape in *. split_ok.
  assert (EI : (negb (idx =? 0) = true -> inter_ref_pic_set_prediction_flag s = inter_ref_pic_set_prediction_flag s') -> inter_ref_pic_set_prediction_flag s = inter_ref_pic_set_prediction_flag s')
    by (eapply optf_eq; eassumption).
  eapply tells_weaken.
  - unfold text_rps. tstep. tstep. { tgo. } apply EI in E. clear EI. rewrite <- E in *.
    apply tells_if; [reflexivity | intros C | intros C]; rewrite C in *; split_ok.
    + assert (Fl : forall n l, Syntax.vec n rps_flag_ok l -> Forall P_u (map fst l) /\ Forall P_u (map snd l)).
      { intros n l [_ F]. eapply F_fst; [exact F|]. intros [x y] [U O]. cbn [fst snd] in *. split; [prange|]. destruct (negb (nz x)); unfold optf in O; [prange | subst; unfold P_u; lia]. }
      tstep. { tgo. } tstep. { tgo. } tstep. { tgo. } 
      tstep. { apply tells_vec, vdet_u; eapply Fl; eassumption. } apply tells_vec, vdet_u; eapply Fl; eassumption.
    + assert (Fl : forall l, Forall (fun e : Z * Z => 0 <= fst e < 2 ^ 32 /\ u_ok 1 (snd e)) l -> Forall P_u (map fst l) /\ Forall P_u (map snd l)).
      { intros l F. eapply F_fst; [exact F|]. intros [x y] [U O]. cbn [fst snd] in *. split; prange. }
      tgo; apply tells_vec, vdet_u; eapply Fl; eassumption.
  - cbv beta. intros [E T]. apply EI in E. clear EI. unfold rps_syn. split; [exact E|]. rewrite <- E in *. destruct T as [T1 T2]. destruct (nz (inter_ref_pic_set_prediction_flag s)).
    + specialize (T1 eq_refl). split_ok. split; [eapply optf_eq; eassumption|]. split; [assumption|]. split; [assumption|]. apply ext_fst; assumption.
    + specialize (T2 eq_refl). split_ok. destruct s, s'; cbn in *. f_equal; try congruence; apply ext_fst; assumption.
Qed.

(** DeriveValues reads nothing, so the derived lists are a function of the reference set and the syntax elements. *)
Definition pure {A} (m : M A) : Prop := forall b a b', m b = Ok a b' -> b' = b /\ forall b2, m b2 = Ok a b2.
Lemma pure_ret {A} (a : A) : pure (ret a).
Proof. intros b x b' E. unfold ret in *. injection E as <- <-. auto. Qed.
Lemma pure_bind {A B} (m : M A) (f : A -> M B) : pure m -> (forall a, pure (f a)) -> pure (bind m f).
Proof.
  intros Hm Hf b c b' E. apply bind_ok in E. destruct E as (a & b1 & E1 & E2). destruct (Hm _ _ _ E1) as [-> M2]. destruct (Hf _ _ _ _ E2) as [-> F2].
  split; [reflexivity|]. intros b2. unfold bind. rewrite M2. apply F2.
Qed.
Lemma pure_chk x : pure (chk_i32 x).
Proof. unfold chk_i32. match goal with |- context[if ?c then _ else _] => destruct c end; [apply pure_ret|]. intros b a b' E. discriminate. Qed.
Lemma pure_at {A} (l : list A) i : pure (at_ l i).
Proof. unfold at_. match goal with |- context[match ?c with Some _ => _ | None => _ end] => destruct c end; [apply pure_ret|]. intros b a b' E. discriminate. Qed.
Lemma pure_guard c : pure (guard c).
Proof. unfold guard. destruct c; [apply pure_ret|]. intros b a b' E. discriminate. Qed.
Ltac ppure := repeat first [apply pure_guard | apply pure_ret | apply pure_chk | apply pure_at | apply pure_bind; [|intros ?] | match goal with |- pure (if ?c then _ else _) => destruct c end | assumption].
Lemma pure_cum sign l n : forall i prev, pure (cum_poc sign l n i prev).
Proof. induction n as [|n IH]; intros i prev; cbn [cum_poc]; ppure; apply IH. Qed.
Lemma pure_push sign fl d i c : pure (push_cand sign fl d i c).
Proof. unfold push_cand. ppure. Qed.
Lemma pure_cand sign fl d r off is : forall c, pure (cand_loop sign fl d r off is c).
Proof. induction is as [|i is IH]; intros c; cbn [cand_loop]; ppure; try apply IH; apply pure_push. Qed.
Lemma pure_minus1s sign l : forall prev, pure (minus1s sign prev l).
Proof. induction l as [|[d u] l IH]; intros prev; cbn [minus1s]; ppure; apply IH. Qed.
Lemma pure_derive ref sg ab fl : pure (DeriveValues ref sg ab fl).
Proof. unfold DeriveValues. cbv zeta. ppure; first [apply pure_cum | apply pure_cand | apply pure_push | apply pure_minus1s]. Qed.

Definition rps_run (idx : Z) (sets : list rps) (s : rps) : Prop := nz (inter_ref_pic_set_prediction_flag s) = true ->
  forall b, DeriveValues (ref_of idx sets s) (delta_rps_sign s) (abs_delta_rps_minus1 s) (rps_flags s) b = Ok (rps_s0 s, rps_s1 s) b.
Lemma at_run {A} (l : list A) i d b a b' : at_ l i b = Ok a b' -> a = znth l i d /\ b' = b.
Proof.
  unfold at_, znth. destruct (Z.ltb_spec i 0) as [L|L]; [discriminate|]. destruct (nth_error l (Z.to_nat i)) eqn:E; [|discriminate].
  unfold ret. intros H. injection H as <- <-. split; [|reflexivity]. symmetry. apply nth_error_nth, E.
Qed.
Lemma rps_runs idx num sets m b s b' : 0 <= idx <= 64 -> rps_ok idx num sets m s -> ParseStRefPicSet idx num sets m b = Ok s b' -> rps_run idx sets s.
Proof.
  intros Hi O E I. unfold ParseStRefPicSet in E. inv_ok E. destruct (nz r0) eqn:Er.
  - unfold read_rps_inter in E. inv_ok E. unfold ret in E. injection E as <- <-. unfold rps_ok in O. cbn in O |- *. 
    destruct O as (_ & _ & _ & O1 & O2 & _). unfold ref_idx in O2. cbn in O2.
    assert (D0 : 0 <= r1) by (destruct (idx =? num); unfold optf in O1; [destruct O1; lia | lia]).
    assert (EI : u32 (idx - u32 (r1 + 1)) = idx - (r1 + 1)) by (unfold u32; rewrite (Z.mod_small (r1 + 1)) by lia; apply Z.mod_small; lia).
    match goal with A : at_ sets _ _ = Ok _ _ |- _ => apply (at_run _ _ rps_dummy) in A; destruct A as [A _]; rewrite EI in A end.
    subst. match goal with D : DeriveValues _ _ _ _ _ = Ok ?r _ |- _ => apply pure_derive in D; destruct D as [_ D]; destruct r as [x y] end.
    unfold ref_of, ref_idx. cbn. assumption.
  - unfold read_rps_explicit in E. inv_ok E. unfold ret in E. injection E as <- <-. discriminate I.
Qed.
Lemma rps_loop_runs num k : forall sets b l b', rps_loop k num sets b = Ok l b' ->
  (exists suf, l = sets ++ suf)%list /\ forall i s, (List.length sets <= i)%nat -> nth_error l i = Some s -> exists b1 b2, ParseStRefPicSet (Z.of_nat i) num (firstn i l) 15 b1 = Ok s b2.
Proof.
  induction k as [|k IH]; intros sets b l b' E; cbn [rps_loop] in E.
  - unfold ret in E. injection E as <- <-. split; [exists []; now rewrite app_nil_r|]. intros i s L N. apply nth_error_None in L. congruence.
  - apply bind_ok in E. destruct E as (s0 & b1 & E0 & E). destruct (IH _ _ _ _ E) as [[suf ->] H]. rewrite <- app_assoc in *. cbn [app] in *. split; [eauto|].
    intros i s L N. destruct (Nat.eq_dec i (List.length sets)) as [->|].
    + rewrite nth_error_app2, Nat.sub_diag in N by lia. injection N as <-. rewrite firstn_app, Nat.sub_diag, firstn_all, app_nil_r. eauto.
    + apply H; [rewrite app_length; cbn; lia | exact N].
Qed.
Lemma all_from_nth {A} (P : Z -> A -> Prop) l : forall k, all_from k P l -> forall i a, nth_error l i = Some a -> P (k + Z.of_nat i) a.
Proof.
  induction l as [|x l IH]; intros k H i a N; [destruct i; discriminate|]. destruct H as [H1 H2]. destruct i; cbn in N.
  - injection N as <-. now rewrite Z.add_0_r.
  - replace (k + Z.of_nat (S i)) with (k + 1 + Z.of_nat i) by lia. eapply IH; eassumption.
Qed.
Lemma list_nth_ext {A} (l : list A) : forall l', (forall i, nth_error l i = nth_error l' i) -> l = l'.
Proof.
  induction l as [|x l IH]; intros [|y l'] H; [reflexivity | discriminate (H 0%nat) | discriminate (H 0%nat)|].
  pose proof (H 0%nat) as H0. cbn in H0. injection H0 as ->. f_equal. apply IH. intros i. exact (H (S i)).
Qed.
Definition sets_run (l : list rps) : Prop := forall i s, nth_error l i = Some s -> rps_run (Z.of_nat i) l s.
Lemma ref_firstn i l s : 0 <= ref_idx (Z.of_nat i) s < Z.of_nat i -> ref_of (Z.of_nat i) (firstn i l) s = ref_of (Z.of_nat i) l s.
Proof.
  intros H. unfold ref_of, znth. rewrite <- (firstn_skipn i l) at 2. destruct (Nat.lt_ge_cases (Z.to_nat (ref_idx (Z.of_nat i) s)) (List.length (firstn i l))) as [L|L].
  - now rewrite app_nth1.
  - rewrite firstn_length in L. rewrite firstn_all2, skipn_all2, app_nil_r by lia. reflexivity.
Qed.
Lemma rps_ok_firstn i num l m s : rps_ok (Z.of_nat i) num l m s -> rps_ok (Z.of_nat i) num (firstn i l) m s.
Proof.
  unfold rps_ok. destruct (nz (inter_ref_pic_set_prediction_flag s)); [|auto]. intros (H1 & H2 & H3 & H4 & H5 & H6 & H7 & H8). cbv zeta in *.
  rewrite ref_firstn by exact H5. auto 10.
Qed.
Lemma sets_runs num b l b' : rps_sets_ok num l -> read_rps_sets num b = Ok l b' -> 0 <= num <= 64 -> sets_run l.
Proof.
  intros [L O] E Hn i s N I. destruct (rps_loop_runs _ _ _ _ _ _ E) as [_ H]. destruct (H i s ltac:(cbn; lia) N) as (b1 & b2 & E1).
  pose proof (all_from_nth _ _ _ O i s N) as Oi. cbv beta in Oi. rewrite Z.add_0_l in Oi.
  assert (Li : (i < List.length l)%nat) by (apply nth_error_Some; congruence).
  intros b0. rewrite <- ref_firstn; [|unfold rps_ok in Oi; rewrite I in Oi; tauto].
  eapply rps_runs; [| eapply rps_ok_firstn, Oi | exact E1 | exact I]. lia.
Qed.
(** The printed elements determine the whole list. *)
Lemma sets_eq num num' l l' : rps_sets_ok num l -> rps_sets_ok num' l' -> sets_run l -> sets_run l' -> List.length l = List.length l' ->
  (forall i s s', nth_error l i = Some s -> nth_error l' i = Some s' -> rps_syn s s') -> l = l'.
Proof.
  intros [_ O] [_ O'] R R' L H.
  assert (G : forall n i, (i < n)%nat -> nth_error l i = nth_error l' i).
  { induction n as [|n IH]; intros i Hi; [lia|]. destruct (nth_error l i) as [s|] eqn:N.
    2:{ symmetry. apply nth_error_None. apply nth_error_None in N. lia. }
    destruct (nth_error l' i) as [s'|] eqn:N'.
    2:{ apply nth_error_None in N'. assert ((i < List.length l)%nat) by (apply nth_error_Some; congruence). lia. }
    f_equal. destruct (H i s s' N N') as [E1 E2]. pose proof (all_from_nth _ _ _ O i s N) as Oi. pose proof (all_from_nth _ _ _ O' i s' N') as Oi'. cbv beta in Oi, Oi'. rewrite Z.add_0_l in *.
    specialize (R i s N). specialize (R' i s' N'). unfold rps_run in *. rewrite <- E1 in *.
    destruct (nz (inter_ref_pic_set_prediction_flag s)) eqn:I; [|exact E2]. specialize (R eq_refl (mk_bb [])). specialize (R' eq_refl (mk_bb [])).
    destruct E2 as (E2 & E3 & E4 & E5). unfold rps_ok in Oi, Oi'. rewrite <- E1, I in *.
    destruct Oi as ((S1 & S2 & _) & _ & _ & _ & Q & _), Oi' as ((S1' & S2' & _) & _ & _ & _ & Q' & _).
    assert (ER : ref_of (Z.of_nat i) l s = ref_of (Z.of_nat i) l' s').
    { unfold ref_of, ref_idx in *. rewrite <- E2 in *. unfold znth. set (k := Z.to_nat (Z.of_nat i - (delta_idx_minus1 s + 1))).
      assert (K : nth_error l k = nth_error l' k) by (apply IH; subst k; lia).
      destruct (nth_error l k) eqn:Nk; [rewrite (nth_error_nth _ _ _ Nk); symmetry; apply nth_error_nth; congruence|].
      apply nth_error_None in Nk. assert ((i < List.length l)%nat) by (apply nth_error_Some; congruence). lia. }
    rewrite <- ER, <- E3, <- E4, <- E5 in R'. rewrite R in R'. assert (A : rps_s0 s = rps_s0 s') by congruence. assert (B : rps_s1 s = rps_s1 s') by congruence.
    destruct s, s'; cbn in *. congruence. }
  apply list_nth_ext. intros i. apply (G (S i)). lia.
Qed.

(** * scaling_list_data *)
(** What the object of the C++ code has: everything but the deltas. *)
Definition sl_stored (s : scaling_list) : scaling_list := mkSL (sl_pred_mode_flag s) (sl_pred_matrix_id_delta s) (sl_dc s) [] (sl_coefs s).
Definition sld_stored : list (list scaling_list) -> list (list scaling_list) := map (map sl_stored).
Lemma coefs_range ds : forall c, Forall P_u (scaling_coefs c ds).
Proof. induction ds as [|d ds IH]; intros c; cbn [scaling_coefs]; constructor; [|apply IH]. unfold P_u. pose proof (Z.mod_pos_bound (c + d + 256) 256). lia. Qed.
Lemma sld_shape P s : scaling_list_data_ok P s -> exists r0 r1 r2 r3, s = [r0; r1; r2; r3] /\
  Syntax.vec 6 (scaling_list_ok P 0) r0 /\ Syntax.vec 6 (scaling_list_ok P 1) r1 /\ Syntax.vec 6 (scaling_list_ok P 2) r2 /\ Syntax.vec 2 (scaling_list_ok P 3) r3.
Proof.
  intros [L H]. destruct s as [|r0 [|r1 [|r2 [|r3 [|]]]]]; try discriminate. destruct H as (H0 & H1 & H2 & H3 & _). exists r0, r1, r2, r3. 
  split; [reflexivity|]. split; [exact H0|]. split; [exact H1|]. split; [exact H2 | exact H3].
Qed.
Lemma vec6 {A} (P : A -> Prop) l : Syntax.vec 6 P l -> exists a b c d e f, l = [a; b; c; d; e; f] /\ (P a /\ P b /\ P c) /\ P d /\ P e /\ P f.
Proof. intros [L F]. destruct l as [|a [|b [|c [|d [|e [|f [|]]]]]]]; try discriminate. exists a, b, c, d, e, f. rewrite !Forall_cons_iff in F. tauto. Qed.
Lemma vec2_ {A} (P : A -> Prop) l : Syntax.vec 2 P l -> exists a b, l = [a; b] /\ P a /\ P b.
Proof. intros [L F]. destruct l as [|a [|b [|]]]; try discriminate. exists a, b. rewrite !Forall_cons_iff in F. tauto. Qed.
Lemma sl_ranges k s : scaling_list_ok se_ok k s -> P_u (sl_pred_mode_flag s) /\ P_u (sl_pred_matrix_id_delta s) /\ P_s (sl_dc s) /\ Forall P_u (sl_coefs s) /\ (k < 2 -> sl_dc s = 0).
Proof.
  unfold scaling_list_ok. cbv zeta. intros (H1 & H2 & H3 & H4 & H5). split; [prange|]. split; [prange|]. split; [prange|]. split; [rewrite H5; apply coefs_range|].
  intros K. destruct (Z.ltb_spec 1 k) as [Q|Q]; [lia|]. rewrite andb_false_r in H3. exact H3.
Qed.
Lemma tells_sld s s' : scaling_list_data_ok se_ok s -> scaling_list_data_ok se_ok s' -> tells (text_scaling_list_data s) (text_scaling_list_data s') (sld_stored s = sld_stored s').
Proof.
  assert (Z0 : P_u 0) by (unfold P_u; lia). assert (Z1 : P_s 0) by (unfold P_s; lia).
  assert (F6 : forall k (l : list scaling_list), Syntax.vec 6 (scaling_list_ok se_ok k) l ->
     Forall P_u (map sl_pred_mode_flag l) /\ Forall P_u (map sl_pred_matrix_id_delta l) /\ Forall P_s (map sl_dc l) /\ Forall (Forall P_u) (map sl_coefs l) /\ (k < 2 -> map sl_dc l = [0;0;0;0;0;0])).
  { intros k l V. apply vec6 in V. destruct V as (a & b & c & d & e & f & -> & (A & B & C) & D & E & F). apply sl_ranges in A, B, C, D, E, F. cbn [map]. split_ok.
    split; [auto 10|]. split; [auto 10|]. split; [auto 10|]. split; [auto 10|]. intros K. repeat match goal with X : k < 2 -> _ |- _ => rewrite (X K); clear X end. reflexivity. }
  assert (F2 : forall (l : list scaling_list), Syntax.vec 2 (scaling_list_ok se_ok 3) l ->
     Forall P_u (spread 0 3 (map sl_pred_mode_flag l)) /\ Forall P_u (spread 0 3 (map sl_pred_matrix_id_delta l)) /\ Forall P_s (spread 0 3 (map sl_dc l)) /\ Forall (Forall P_u) (spread [] 3 (map sl_coefs l))).
  { intros l V. apply vec2_ in V. destruct V as (a & b & -> & A & B). apply sl_ranges in A, B. cbn [map spread]. split_ok. auto 20. }
  assert (S2 : forall A (f : scaling_list -> A) d l l', Syntax.vec 2 (scaling_list_ok se_ok 3) l -> Syntax.vec 2 (scaling_list_ok se_ok 3) l' -> spread d 3 (map f l) = spread d 3 (map f l') -> map f l = map f l').
  { intros A f d l l' V V'. apply vec2_ in V, V'. destruct V as (a & b & -> & _), V' as (a' & b' & -> & _). cbn [map spread]. intros E. assert (f a = f a') by congruence. assert (f b = f b') by congruence. congruence. }
  assert (ES : forall l l', map sl_pred_mode_flag l = map sl_pred_mode_flag l' -> map sl_pred_matrix_id_delta l = map sl_pred_matrix_id_delta l' -> map sl_dc l = map sl_dc l' ->
     map sl_coefs l = map sl_coefs l' -> map sl_stored l = map sl_stored l').
  { induction l as [|x l IH]; intros [|y l'] H1 H2 H3 H4; try discriminate; [reflexivity|]. cbn [map] in *. injection H1 as E1 H1. injection H2 as E2 H2. injection H3 as E3 H3. injection H4 as E4 H4.
    f_equal; [unfold sl_stored; congruence | apply IH; assumption]. }
  assert (SP : forall A (d : A) l, spread d 0 l = l /\ spread d 1 l = l /\ spread d 2 l = l) by (intros; cbn; auto).
  intros H H'. apply sld_shape in H, H'. destruct H as (r0 & r1 & r2 & r3 & -> & V0 & V1 & V2 & V3), H' as (r0' & r1' & r2' & r3' & -> & V0' & V1' & V2' & V3').
  pose proof (F6 _ _ V0) as G0. pose proof (F6 _ _ V1) as G1. pose proof (F6 _ _ V2) as G2. pose proof (F2 _ V3) as G3.
  pose proof (F6 _ _ V0') as G0'. pose proof (F6 _ _ V1') as G1'. pose proof (F6 _ _ V2') as G2'. pose proof (F2 _ V3') as G3'. clear F6 F2. split_ok.
  assert (R : forall A (f : scaling_list -> A) d a b c e, rows f d [a; b; c; e] = [map f a; map f b; map f c; spread d 3 (map f e)]) by reflexivity.
  eapply tells_weaken.
  - unfold text_scaling_list_data. rewrite !R. cbn [skipn app]. tstep.
    tstep; [apply tells_vec2; auto 10|]. tstep; [apply tells_vec2; auto 10|]. tstep; [apply tells_vec2s; cbn [repeat]; auto 20|]. apply tells_vec3; auto 10.
  - cbv beta. intros (T1 & T2 & T3 & T4). injection T1 as A1 A2 A3 A4. injection T2 as B1 B2 B3 B4. injection T3 as C1 C2. injection T4 as D1 D2 D3 D4.
    unfold sld_stored. cbn [map]. repeat apply (f_equal2 cons); try reflexivity; apply ES; try assumption; try (apply S2 in A4, B4, C2, D4; assumption); match goal with |- map sl_dc _ = _ => idtac end.
    all: repeat match goal with X : ?k < 2 -> map sl_dc _ = _ |- _ => first [rewrite (X ltac:(lia)); clear X | clear X] end; reflexivity.
Qed.

(** * SPS extensions *)
Lemma tells_sps_range s s' : sps_range_ext_ok s -> sps_range_ext_ok s' -> tells (text_sps_range s) (text_sps_range s') (s = s').
Proof.
  intros H H'. unfold sps_range_ext_ok in *. split_ok. eapply tells_weaken; [unfold text_sps_range; tgo|]. intros T. tuse. destruct s, s'; cbn in *. subst. reflexivity.
Qed.
Lemma tells_sps_multilayer s s' : u_ok 1 s -> u_ok 1 s' -> tells (text_sps_multilayer s) (text_sps_multilayer s') (s = s').
Proof. intros H H'. unfold text_sps_multilayer; tgo. Qed.
Lemma tells_sps_3d s s' : sps_3d_ext_ok s -> sps_3d_ext_ok s' -> tells (text_sps_3d s) (text_sps_3d s') (s = s').
Proof.
  intros H H'. unfold sps_3d_ext_ok in *. split_ok. assert (F2 : forall a b, u_ok 1 a -> u_ok 1 b -> Forall P_u [a; b]) by (intros; apply Forall_cons; [prange|]; apply Forall_cons; [prange | constructor]).
  eapply tells_weaken; [unfold text_sps_3d; tstep; (tstep; [apply tells_vec, vdet_u; auto|]); (tstep; [apply tells_vec, vdet_u; auto|]); tgo|].
  intros T. tuse. destruct s, s'; cbn in *. subst. congruence.
Qed.
Lemma comp_depth_le a b i : ue_le 8 a -> ue_le 8 b -> comp_depth a b i <= 32.
Proof. unfold comp_depth, ue_le. destruct (i =? 0); lia. Qed.
Lemma palette_range n a b m l : ue_le 8 a -> ue_le 8 b -> veci n (fun comp => Syntax.vec m (u_ok (comp_depth a b comp))) l -> Forall (Forall P_u) l.
Proof.
  intros A B [_ H]. revert H. generalize 0. induction l as [|x l IH]; intros k H; constructor; destruct H as [[_ F] H].
  - eapply Forall_impl; [|exact F]. intros e. apply Pu_u, comp_depth_le; assumption.
  - eapply IH, H.
Qed.
Lemma tells_sps_scc c c' l l' b b' s s' : ue_le 8 l -> ue_le 8 l' -> ue_le 8 b -> ue_le 8 b' -> sps_scc_ext_ok c l b s -> sps_scc_ext_ok c' l' b' s' -> tells (text_sps_scc s) (text_sps_scc s') (s = s').
Proof.
  intros L L' B B' H H'. unfold sps_scc_ext_ok in *. cbv zeta in *. split_ok.
  assert (F : Forall (Forall P_u) (sps_palette_predictor_initializers s)) by (eapply F_optf; [eassumption|]; intros K; apply palette_range in K; assumption).
  assert (F' : Forall (Forall P_u) (sps_palette_predictor_initializers s')) by (eapply F_optf; [eassumption|]; intros K; apply palette_range in K; assumption).
  eapply tells_weaken; [unfold text_sps_scc; tgo; apply tells_vec2; assumption|]. intros T. tuse. destruct s, s'; cbn in *. subst. tfields. reflexivity.
Qed.
#[global] Hint Resolve tells_sps_range tells_sps_multilayer tells_sps_3d tells_sps_scc : tdb.

(** * SPS *)
Lemma tells_fi_any n x x' : tells (fi n x) (fi n x') True.
Proof. apply tells_line. intros r r'. rewrite !words_colon, !pr_i_word, <- !app_assoc. intros H. apply app_inv_head in H. injection H as _ H. auto. Qed.
Lemma tells_resolution s s' : tells (text_resolution s) (text_resolution s') True.
Proof.
  assert (G : forall w h w' h', tells (fi "width" w +> fi "height" h) (fi "width" w' +> fi "height" h') True).
  { intros. eapply tells_weaken; [apply tells_seq; [apply tells_fi_any | intros _; apply tells_fi_any] | auto]. }
  unfold text_resolution. destruct (getResolution s _) as [[w h] ?| |?], (getResolution s' _) as [[w' h'] ?| |?]; try apply G; intros c c' r r' E E'; discriminate.
Qed.
Definition sps_stored (s : sps) : sps := mkSPS (sps_video_parameter_set_id s) (sps_max_sub_layers_minus1 s) (sps_temporal_id_nesting_flag s) (sps_profile_tier_level s) (sps_seq_parameter_set_id s) (chroma_format_idc s) (separate_colour_plane_flag s) (pic_width_in_luma_samples s) (pic_height_in_luma_samples s) (conformance_window_flag s) (conf_win_left_offset s) (conf_win_right_offset s) (conf_win_top_offset s) (conf_win_bottom_offset s) (bit_depth_luma_minus8 s) (bit_depth_chroma_minus8 s) (log2_max_pic_order_cnt_lsb_minus4 s) (sps_sub_layer_ordering_info_present_flag s) (sps_ordering s) (log2_min_luma_coding_block_size_minus3 s) (log2_diff_max_min_luma_coding_block_size s) (log2_min_luma_transform_block_size_minus2 s) (log2_diff_max_min_luma_transform_block_size s) (max_transform_hierarchy_depth_inter s) (max_transform_hierarchy_depth_intra s) (scaling_list_enabled_flag s) (sps_scaling_list_data_present_flag s) (option_map sld_stored (sps_scaling_list_data s)) (amp_enabled_flag s) (sample_adaptive_offset_enabled_flag s) (pcm_enabled_flag s) (pcm_sample_bit_depth_luma_minus1 s) (pcm_sample_bit_depth_chroma_minus1 s) (log2_min_pcm_luma_coding_block_size_minus3 s) (log2_diff_max_min_pcm_luma_coding_block_size s) (pcm_loop_filter_disabled_flag s) (num_short_term_ref_pic_sets s) (sps_st_ref_pic_set s) (long_term_ref_pics_present_flag s) (num_long_term_ref_pics_sps s) (sps_lt s) (sps_temporal_mvp_enabled_flag s) (strong_intra_smoothing_enabled_flag s) (vui_parameters_present_flag s) (sps_vui_parameters s) (sps_extension_present_flag s) (sps_range_extension_flag s) (sps_multilayer_extension_flag s) (sps_3d_extension_flag s) (sps_scc_extension_flag s) (sps_extension_4bits s) (sps_range_extension s) (sps_multilayer_extension s) (sps_3d_extension s) (sps_scc_extension s).
Lemma tells_deref_map {A B} (g : A -> B) (p p' : option A) d d' (P P' : A -> Prop) : is_some P p -> is_some P' p' ->
  (forall a a', P a -> P' a' -> tells (d a) (d' a') (g a = g a')) -> tells (tderef p d) (tderef p' d') (option_map g p = option_map g p').
Proof.
  intros H H' D. eapply tells_weaken; [apply (tells_tderef _ _ _ _ _ _ (fun a a' => g a = g a') H H' D)|]. destruct p, p'; cbn in *; try tauto. congruence.
Qed.
Lemma tells_sets num num' l l' : num = num' -> rps_sets_ok num l -> rps_sets_ok num' l' ->
  tells (tupto (Z.to_nat num) (fun i => sub (telem l i (text_rps (Z.of_nat i) num)))) (tupto (Z.to_nat num') (fun i => sub (telem l' i (text_rps (Z.of_nat i) num'))))
    (forall i s s', nth_error l i = Some s -> nth_error l' i = Some s' -> rps_syn s s').
Proof.
  intros <- [L O] [L' O']. eapply tells_weaken; [apply (tells_tupto _ _ _ (fun i => forall s s', nth_error l i = Some s -> nth_error l' i = Some s' -> rps_syn s s'))|].
  - intros i Hi. apply tells_sub. unfold telem. destruct (nth_error l i) as [s|] eqn:E, (nth_error l' i) as [s'|] eqn:E'; try (intros c c' r r' X X'; discriminate).
    eapply tells_weaken; [eapply tells_rps; [apply (all_from_nth _ _ _ O _ _ E) | apply (all_from_nth _ _ _ O' _ _ E')]|]. cbv beta. intros R x y Hx Hy. injection Hx as <-. injection Hy as <-. exact R.
  - intros H i s s' E E'. apply (H i); [|assumption|assumption]. assert ((i < List.length l)%nat) by (apply nth_error_Some; congruence). lia.
Qed.
Lemma sps_ord_ext l : forall l', map max_dec_pic_buffering_minus1 l = map max_dec_pic_buffering_minus1 l' -> map max_num_reorder_pics l = map max_num_reorder_pics l' ->
  map max_latency_increase_plus1 l = map max_latency_increase_plus1 l' -> l = l'.
Proof. induction l as [|[] l IH]; intros [|[] l'] H1 H2 H3; try discriminate; [reflexivity|]. cbn in *. f_equal; [congruence | apply IH; congruence]. Qed.
Lemma tells_tif2 (b b' : bool) d d' Q : b = b' -> (b = true -> b' = true -> tells d d' Q) -> tells (tif b d) (tif b' d') (b = true -> Q).
Proof. intros <- H. apply tells_tif; [reflexivity|]. intros C. apply H; exact C. Qed.
Lemma optf_eq2 {A} (c c' : bool) (P P' : A -> Prop) d x x' : optf c P d x -> optf c' P' d x' -> c = c' -> (c = true -> x = x') -> x = x'.
Proof. intros H H' <-. revert H H'. apply optf_eq. Qed.
Ltac tcond ::= first [solve [apply f_equal; tfeq] | reflexivity | assumption | solve [apply f_equal; assumption] |
  solve [apply f_equal; match goal with H : optf ?c _ _ ?x, H' : optf ?c' _ _ ?y |- ?x = ?y => apply (optf_eq2 _ _ _ _ _ _ _ H H'); [apply f_equal; assumption | let C := fresh "C" in intros C; tchain] end] |
  solve [do 2 apply f_equal; assumption] | solve [apply f_equal2; do 2 (try apply f_equal); assumption] | congruence].
Ltac tspecial ::= lazymatch goal with
  | |- tells (line ("profile: " ++ _) +> _) _ _ => apply tells_free; [reflexivity | apply profile_words | apply profile_words |]
  | |- tells (tderef _ text_scaling_list_data) _ _ => eapply (tells_deref_map sld_stored); [isome | isome | cbv beta; intros ? ? ? ?; apply tells_sld; assumption]
  | |- tells (text_resolution _) _ _ => apply tells_resolution
  | |- tells (tif _ _) _ _ => apply tells_tif2; [tcond | let C := fresh "C" in intros C; let C' := fresh "C" in intros C']
  | |- tells (text_ptl _ _ _) _ _ => eapply tells_ptl; [assumption | eassumption | eassumption]
  | |- tells (MText.vec _ (map _ (sps_lt _))) _ _ => apply tells_vec, vdet_u; assumption
  | |- tells (tupto _ _) _ _ => apply tells_sets; assumption
  end.
Lemma pic_size_u k v : k = kMaxWidth \/ k = kMaxHeight -> pic_size_ok k v -> ue_le 16888 v.
Proof. intros K H. pose proof (pic_size_le _ _ H K). unfold ue_le, ue_ok. lia. Qed.
Lemma lt_range n l : ue_le 12 n -> forall k, Syntax.vec k (lt_ok n) l -> Forall P_u (map fst l) /\ Forall P_u (map snd l).
Proof.
  intros N k [_ F]. eapply F_fst; [exact F|]. intros [x y] [U O]. cbn [fst snd] in *. unfold ue_le in N. split; [refine (Pu_u _ _ _ U); lia | prange].
Qed.
Lemma tells_sps r s s' : sps_ok_out s -> sps_ok_out s' -> sets_run (sps_st_ref_pic_set s) -> sets_run (sps_st_ref_pic_set s') -> tells (text_sps r s) (text_sps r s') (sps_stored s = sps_stored s').
Proof.
  intros H H' R R'. unfold sps_ok_out, sps_ok in *. cbv zeta in *. split_ok. unfold rps_sets_out in *. split_ok.
  repeat match goal with P : pic_size_ok _ _ |- _ => apply pic_size_u in P; [|tauto] end.
  assert (CW : forall c n x, ue_le 16888 n -> optf c (ue_le n) 0 x -> optf c ue_ok 0 x) by (clear; intros c n x; destruct c; unfold optf, ue_le, ue_ok; lia).
  repeat match goal with X : optf _ (ue_le (_ _)) 0 _, Y : ue_le 16888 _ |- _ => apply (CW _ _ _ Y) in X end. clear CW.
  assert (FL : forall s0, ue_le 12 (log2_max_pic_order_cnt_lsb_minus4 s0) -> optf (nz (long_term_ref_pics_present_flag s0)) (Syntax.vec (num_long_term_ref_pics_sps s0) (lt_ok (log2_max_pic_order_cnt_lsb_minus4 s0))) [] (sps_lt s0) ->
    Forall P_u (map fst (sps_lt s0)) /\ Forall P_u (map snd (sps_lt s0))).
  { intros s0 A B. destruct (nz (long_term_ref_pics_present_flag s0)); unfold optf in B; [exact (lt_range _ _ A _ B) | rewrite B; split; constructor]. }
  destruct (FL s ltac:(assumption) ltac:(assumption)) as [FL1 FL2], (FL s' ltac:(assumption) ltac:(assumption)) as [FL1' FL2']. clear FL.
  eapply tells_weaken; [unfold text_sps; tgo|].
  cbv beta. intros T. tuse.
  assert (ES : sps_st_ref_pic_set s = sps_st_ref_pic_set s').
  { match goal with A : rps_sets_ok _ (sps_st_ref_pic_set s), B : rps_sets_ok _ (sps_st_ref_pic_set s'), N : num_short_term_ref_pic_sets s = _ |- _ =>
      apply (sets_eq _ _ _ _ A B R R'); [destruct A as [A _], B as [B _]; rewrite N in A; congruence | assumption] end. }
  assert (EO : sps_ordering s = sps_ordering s') by (apply sps_ord_ext; assumption).
  assert (EL : long_term_ref_pics_present_flag s = long_term_ref_pics_present_flag s' -> sps_lt s = sps_lt s').
  { intros E. match goal with A : optf _ _ [] (sps_lt s), B : optf _ _ [] (sps_lt s') |- _ => apply (optf_eq2 _ _ _ _ _ _ _ A B); [apply f_equal; exact E|] end. intros C. tuse. apply ext_fst; assumption. }
  match type of EL with ?a -> _ => assert (EL1 : a) by assumption; specialize (EL EL1); clear EL1 end.
  assert (ED : option_map sld_stored (sps_scaling_list_data s) = option_map sld_stored (sps_scaling_list_data s')).
  { match goal with A : optf _ _ None (sps_scaling_list_data s), B : optf _ _ None (sps_scaling_list_data s'), P : optf _ _ 0 (sps_scaling_list_data_present_flag s), P' : optf _ _ 0 (sps_scaling_list_data_present_flag s'),
      N : scaling_list_enabled_flag s = _ |- _ =>
      assert (EP : sps_scaling_list_data_present_flag s = sps_scaling_list_data_present_flag s') by (apply (optf_eq2 _ _ _ _ _ _ _ P P'); [apply f_equal; exact N | intros C; tuse; assumption]);
      rewrite <- N, <- EP in B; destruct (nz (scaling_list_enabled_flag s) && nz (sps_scaling_list_data_present_flag s))%bool eqn:C; unfold optf in A, B; [|rewrite A, B; reflexivity] end.
    apply andb_prop in C. tuse. assumption. }
  clear R R'. unfold sps_stored. destruct s, s'; cbn in *. rewrite ED. clear ED. subst. tfields. reflexivity.
Qed.
