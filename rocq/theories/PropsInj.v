(** C78: equal results come from equal bits. *)
From Coq Require Import ZArith List Bool Lia ZifyBool ZifyNat.
From Verif Require MText SpecText PropsText PropsFaithful.
From Verif Require Import MBase MBitBuffer Spec BitsFacts Reader ReaderFacts Rules Syntax SyntaxSe MCommon CommonFacts PropsBits PropsCommon
  MSyntaxA SpecA FactsA Api PropsA MSyntaxB SpecB FactsB FactsRps PropsB MSps SpecSps FactsSps PropsSps MPps SpecPps FactsPps PropsPps MSlice SpecSlice FactsSlice PropsSlice
  MSei SpecSei PropsSei MNal MRtp FactsLocal PropsLocal FactsFaithB FactsFaithD.
Import ListNotations.
Open Scope Z_scope.
Ltac Zify.zify_post_hook ::= Z.div_mod_to_equations.

(** The bits between the positions of two states of a reader. *)
Definition consumed (b b' : bb) : list bool := firstn (Z.to_nat (pos b' - pos b)) (rem b).
Lemma consumed_steps b b' bs : steps b b' bs -> consumed b b' = bs.
Proof.
  intros [R ->]. unfold consumed. rewrite pos_adv, R. replace (Z.to_nat (pos b + Z.of_nat (length bs) - pos b)) with (length bs) by lia.
  apply firstn_app_exact. reflexivity.
Qed.

(** Two successful calls whose results are the [same] have consumed the same bits. *)
Definition same_bits {A} (m : M A) (same : A -> A -> Prop) : Prop :=
  forall b1 b2 a1 a2 b1' b2', wf b1 -> wf b2 -> m b1 = Ok a1 b1' -> m b2 = Ok a2 b2' -> same a1 a2 -> consumed b1 b1' = consumed b2 b2'.
(** The same up to the se(v) codewords that ReadSignedExponentialGolomb takes for others (C03). *)
Definition aliases (l1 l2 : list bool) : Prop := exists e, agree l1 e /\ agree l2 e.
Definition same_bits_upto_aliases {A} (m : M A) (same : A -> A -> Prop) : Prop :=
  forall b1 b2 a1 a2 b1' b2', wf b1 -> wf b2 -> m b1 = Ok a1 b1' -> m b2 = Ok a2 b2' -> same a1 a2 -> aliases (consumed b1 b1') (consumed b2 b2').
(** Such codewords begin with 31 zeros. *)
Theorem C78_aliases : forall l1 l2, aliases l1 l2 -> l1 = l2 \/ zrun 31 l1 \/ zrun 31 l2.
Proof. intros l1 l2 (e & A1 & A2). apply agree_eq in A1, A2. destruct A1 as [->|A1]; [|auto]. destruct A2 as [->|A2]; auto. Qed.
(** Parameter sets: the bits before the extension data and the trailing bits, which are the bits of the structure: any buffer that continues with
    them is parsed to the same structure. *)
Definition same_structure_bits {A} (R : list bool -> list bool -> Prop) (m : M (A * Z)) (same : A -> A -> Prop) : Prop :=
  forall b1 b2 s1 s2 x1 x2 b1' b2', wf b1 -> wf b2 -> m b1 = Ok (s1, x1) b1' -> m b2 = Ok (s2, x2) b2' -> same s1 s2 ->
    exists bs1 bs2 tail1 tail2, consumed b1 b1' = bs1 ++ tail1 /\ consumed b2 b2' = bs2 ++ tail2 /\ R bs1 bs2 /\
      forall b3 rest, wf b3 -> rem b3 = bs1 ++ rest \/ rem b3 = bs2 ++ rest -> exists x3 b3', m b3 = Ok (s1, x3) b3'.

Lemma exact_same_bits {A} (m : M A) ok enc : reads_exactly m ok enc -> same_bits m eq.
Proof.
  intros H b1 b2 a1 a2 b1' b2' W1 W2 E1 E2 <-. destruct (H b1 W1) as [_ H1]. destruct (H b2 W2) as [_ H2].
  apply H1 in E1. apply H2 in E2. destruct E1 as (_ & (r1 & R1) & ->), E2 as (_ & (r2 & R2) & ->).
  rewrite (consumed_steps _ _ (enc a1)), (consumed_steps _ _ (enc a1)); [reflexivity| |].
  - split; [rewrite (rem_adv_app _ _ _ W2 R2); exact R2|reflexivity].
  - split; [rewrite (rem_adv_app _ _ _ W1 R1); exact R1|reflexivity].
Qed.
Lemma layout_same_bits {A} E (m : M A) ok1 ok2 enc : reads_layout E m ok1 ok2 enc -> same_bits_upto_aliases m eq.
Proof.
  intros H b1 b2 a1 a2 b1' b2' W1 W2 E1 E2 <-. destruct (H b1 W1) as [H1 _]. destruct (H b2 W2) as [H2 _]. rewrite E1 in H1. rewrite E2 in H2.
  destruct H1 as (_ & bs1 & R1 & V1 & A1), H2 as (_ & bs2 & R2 & V2 & A2). rewrite (consumed_steps _ _ bs1), (consumed_steps _ _ bs2); [|split; assumption|split; assumption].
  exists (enc a1). auto.
Qed.
Lemma finish_inv {A} (has : A -> bool) (body : M A) b s x b' : finish has body b = Ok (s, x) b' -> exists b1, body b = Ok s b1 /\ (wf b1 -> exists t, steps b1 b' t).
Proof.
  unfold finish. intros E. apply bind_ok in E. destruct E as (s0 & b1 & E1 & E). 
  assert (Eq : s0 = s) by (pose proof E as E'; inv_ok E'; unfold ret in E'; congruence). subst s0. exists b1. split; [exact E1|]. intros W.
  destruct (finish_tail has s b1 W) as (x2 & b2 & bs2 & E2 & S2 & _). rewrite E2 in E. injection E as _ <-. eauto.
Qed.
Lemma prefix_same_bits {A} E (Rel : list bool -> list bool -> Prop) (has : A -> bool) (body : M A) (P : A -> Prop) (Q : A -> Prop) enc (same : A -> A -> Prop) :
  same_on P body -> wp E body (fun s bs => Q s /\ (P s -> Rel bs (enc s))) -> (forall s1 s2, Q s1 -> Q s2 -> same s1 s2 -> s1 = s2 /\ P s1) ->
  same_structure_bits (fun l1 l2 => exists e, Rel l1 e /\ Rel l2 e) (finish has body) same.
Proof.
  intros L H J b1 b2 s1 s2 x1 x2 b1' b2' W1 W2 E1 E2 Sm. apply finish_inv in E1, E2. destruct E1 as (c1 & E1 & T1), E2 as (c2 & E2 & T2).
  pose proof (H b1 W1) as H1. pose proof (H b2 W2) as H2. rewrite E1 in H1. rewrite E2 in H2. destruct H1 as (bs1 & S1 & Q1 & A1), H2 as (bs2 & S2 & Q2 & A2).
  destruct (J s1 s2 Q1 Q2 Sm) as [<- P1]. destruct (T1 (steps_wf _ _ _ W1 S1)) as [t1 V1]. destruct (T2 (steps_wf _ _ _ W2 S2)) as [t2 V2].
  exists bs1, bs2, t1, t2. split; [apply consumed_steps, (steps_trans _ _ _ _ _ S1 V1)|]. split; [apply consumed_steps, (steps_trans _ _ _ _ _ S2 V2)|].
  split; [exists (enc s1); auto|]. 
  destruct (L b1 s1 c1 W1 E1 P1) as (u1 & U1 & C1). destruct (L b2 s1 c2 W2 E2 P1) as (u2 & U2 & C2).
  pose proof (consumed_steps _ _ _ U1) as X1. rewrite (consumed_steps _ _ _ S1) in X1. pose proof (consumed_steps _ _ _ U2) as X2. rewrite (consumed_steps _ _ _ S2) in X2. subst u1 u2.
  assert (G : forall b3 bs rest, wf b3 -> rem b3 = bs ++ rest -> body b3 = Ok s1 (adv b3 (length bs)) -> exists x3 b3', finish has body b3 = Ok (s1, x3) b3').
  { intros b3 bs rest W3 R3 B3. unfold finish, bind at 1. rewrite B3. destruct (finish_tail has s1 _ (wf_adv_app _ _ _ W3 R3)) as (x3 & b4 & bs3 & E3 & _). rewrite E3. eauto. }
  intros b3 rest W3 [R3|R3]; [apply (G b3 bs1 rest W3 R3), (C1 _ _ W3 R3) | apply (G b3 bs2 rest W3 R3), (C2 _ _ W3 R3)].
Qed.
Lemma structure_eq {A} (m : M (A * Z)) same : same_structure_bits (fun l1 l2 => exists e, l1 = e /\ l2 = e) m same -> same_structure_bits eq m same.
Proof.
  intros H b1 b2 s1 s2 x1 x2 b1' b2' W1 W2 E1 E2 Sm. destruct (H b1 b2 s1 s2 x1 x2 b1' b2' W1 W2 E1 E2 Sm) as (l1 & l2 & t1 & t2 & C1 & C2 & (e & -> & ->) & G).
  exists e, e, t1, t2. auto.
Qed.

(** * The structures that are kept completely *)
Theorem C78_exact_structures :
  same_bits ParseNalUnitHeader eq /\ (forall present n, same_bits (ParseProfileTierLevel present n) eq) /\ (forall common n, same_bits (ParseHrdParameters common n) eq) /\
  (forall n, same_bits (ParseVuiParameters n) eq) /\ same_bits ParseSpsRangeExtension eq /\ same_bits ParseSpsMultilayerExtension eq /\ same_bits ParseSps3dExtension eq.
Proof.
  split; [eapply exact_same_bits, C20_exact|]. split; [intros; eapply exact_same_bits, C25_layout_of_the_code|]. split; [intros; eapply exact_same_bits, C27_layout_of_the_code|].
  split; [intros; eapply exact_same_bits, C28_layout_of_the_code|]. split; [eapply exact_same_bits, C52_sps_range_extension|].
  split; [eapply exact_same_bits, C52_sps_multilayer_extension|]. eapply exact_same_bits, C52_sps_3d_extension.
Qed.
(** ... and those with se(v) elements *)
Theorem C78_structures_upto_aliases :
  (forall cat n, same_bits_upto_aliases (ParsePredWeightTable cat n) eq) /\ same_bits_upto_aliases ParsePpsMultilayerExtension eq /\ same_bits_upto_aliases ParsePpsSccExtension eq.
Proof.
  split; [intros; eapply layout_same_bits, C39_layout|]. split; [eapply layout_same_bits, C52_pps_multilayer_layout_of_the_code|].
  eapply layout_same_bits, C52_pps_scc_layout_of_the_code.
Qed.
(** Slice segment headers, for a given store of parameter sets and a given type. *)
Theorem C78_slice : forall st nut, state_ok st -> same_bits_upto_aliases (ParseSliceSegmentHeader nut st) eq.
Proof.
  intros st nut So b1 b2 h1 h2 b1' b2' W1 W2 E1 E2 <-.
  destruct (C37_accepted st nut b1 h1 b1' W1 So E1) as (p & s & Rf & _ & _ & bs1 & R1 & V1 & A1). 
  destruct (C37_accepted st nut b2 h1 b2' W2 So E2) as (p' & s' & Rf' & _ & _ & bs2 & R2 & V2 & A2).
  assert (Eq : p' = p /\ s' = s). { unfold refers_to in *. destruct Rf as ((x & F1) & (y & F2)), Rf' as ((x' & F1') & (y' & F2')). rewrite F1 in F1'. assert (p' = p) by congruence. subst p'. split; [reflexivity|]. congruence. }
  destruct Eq as [-> ->]. rewrite (consumed_steps _ _ bs1), (consumed_steps _ _ bs2); [|split; assumption|split; assumption]. exists (enc_slice false nut s p h1). auto.
Qed.
(** SEI messages with a payload. *)
Theorem C78_sei : same_bits_upto_aliases ParseSei (fun m1 m2 => m1 = m2 /\ sei_payload_state m1 <> None).
Proof.
  intros b1 b2 m1 m2 b1' b2' W1 W2 E1 E2 [<- N]. 
  pose proof (C40_message_of_the_code b1 W1) as H1. pose proof (C40_message_of_the_code b2 W2) as H2. rewrite E1 in H1. rewrite E2 in H2.
  destruct H1 as (_ & _ & _ & _ & r1 & R1 & H1), H2 as (_ & _ & _ & _ & r2 & R2 & H2). destruct (sei_payload_state m1) as [p|] eqn:Ep; [|congruence].
  destruct H1 as (_ & bs1 & -> & A1), H2 as (_ & bs2 & -> & A2).
  destruct (C49_sei_same b1 m1 b1' W1 E1) as (u1 & U1 & V1 & _); [congruence|]. destruct (C49_sei_same b2 m1 b2' W2 E2) as (u2 & U2 & V2 & _); [congruence|].
  rewrite (consumed_steps _ _ u1), (consumed_steps _ _ u2); [|split; assumption|split; assumption].
  rewrite !app_assoc in R1, R2. rewrite U1 in R1. rewrite U2 in R2. apply app_inv_tail in R1, R2. subst u1 u2.
  eexists. split; apply agree_app; [apply agree_refl|exact A1|apply agree_refl|exact A2].
Qed.

(** * VPS *)
(** The C++ object keeps one hrd_parameters only ([vps_stored], see C69), so two of them must not be there. *)
Definition one_hrd (s : vps_body) : Prop := (length (vps_hrds s) <= 1)%nat.
Lemma vps_stored_inj s1 s2 : one_hrd s1 -> vps_stored s1 = vps_stored s2 -> s1 = s2.
Proof.
  intros L E. assert (Eh : vps_hrds s1 = vps_hrds s2).
  { pose proof (f_equal vps_hrds E) as Eh. unfold vps_stored in Eh. cbn [vps_hrds] in Eh. unfold one_hrd in L. clear E. revert L Eh. generalize (vps_hrds s1) (vps_hrds s2).
    intros h1 h2 L Eh. assert (Ll : length (vps_hrds_stored h1) = length (vps_hrds_stored h2)) by (rewrite Eh; reflexivity). unfold vps_hrds_stored in *. rewrite !map_length in Ll.
    destruct h1 as [|e1 [|]]; [destruct h2; [reflexivity|discriminate]| |cbn in L; lia]. destruct h2 as [|e2 [|]]; [discriminate| |discriminate].
    destruct e1, e2. cbn in Eh. congruence. }
  clear L. unfold vps_stored in E. rewrite Eh in E. destruct s1, s2. cbn -[vps_hrds_stored] in E, Eh. subst. injection E. intros. subst. reflexivity.
Qed.
Theorem C78_vps_one_hrd : same_structure_bits eq ParseVps (fun s1 s2 => vps_stored s1 = vps_stored s2 /\ one_hrd s1).
Proof.
  apply structure_eq. apply (prefix_same_bits no_err eq _ _ (fun _ => True) (fun _ => True) (enc_vps false)).
  - apply same_local, local_vps.
  - eapply wp_weaken; [apply wp_vps|]. cbv beta. intros s bs [_ ->]. auto.
  - intros s1 s2 _ _ [E L]. split; [apply vps_stored_inj; assumption|exact I].
Qed.

(** * SPS *)
(** Without scaling lists nothing is lost. *)
Ltac xstep :=
  cbv beta zeta;
  lazymatch goal with
  | |- wp _ (bind (guard _) _) _ => apply wp_guard; intros ?
  | |- wp _ (bind (ret _) _) _ => apply wp_bind_ret
  | |- wp _ (bind _ _) _ => first [eapply wp_bind_eq; [solve [wfield]|intros ? ?] | eapply wpa_bind; [afield|intros ? ? ? ?]]
  end.
Lemma agree_nil_inv l : agree l [] -> l = [].
Proof.
  intros A. remember (@nil bool) as e eqn:Ee. destruct A as [|x a b A|v a b V A]; [reflexivity|discriminate|].
  exfalso. assert (L : length (enc_se (v - 2 ^ 31) ++ b) = O) by (rewrite Ee; reflexivity). rewrite app_length in L. unfold enc_se in L. rewrite length_enc_ue in L. lia.
Qed.
Lemma wpx_sps : wp ovf_only ParseSpsBody (fun s bs => True /\ (sps_scaling_list_data s = None -> bs = enc_sps false s)).
Proof.
  unfold ParseSpsBody, wpa. do 10 xstep. pic_sizes. repeat xstep; cbv beta; try apply wp_ret. cbn [sps_scaling_list_data]. split; [exact I|]. intros E. subst.
  match goal with H : optf ?c (is_some _) None None, A : agree _ _ |- _ => destruct c eqn:Ec; [destruct H|apply agree_nil_inv in A; subst] end.
  unfold enc_sps. cbn. rewrite Ec. cbn. reflexivity.
Qed.

(** What the C++ object keeps of a scaling list is everything but the coded differences ([sld_stored]), which it determines modulo 256: they are
    determined within the standard's range. *)
Definition differences_in_range (d : list (list scaling_list)) : Prop := Forall (Forall (fun s => Forall (fun v => -128 <= v <= 127) (sl_deltas s))) d.
Lemma coefs_inj ds : forall ds' c, Forall (fun v => -128 <= v <= 127) ds -> Forall (fun v => -128 <= v <= 127) ds' -> scaling_coefs c ds = scaling_coefs c ds' -> ds = ds'.
Proof.
  induction ds as [|d ds IH]; intros [|d' ds'] c F F' E; try discriminate; [reflexivity|]. cbn [scaling_coefs] in E. injection E as E1 E2. inversion F; subst. inversion F'; subst.
  assert (d = d') by lia. subst d'. f_equal. eapply IH; eassumption.
Qed.
Lemma sl_inj k s s' : scaling_list_ok se_ok k s -> scaling_list_ok se_ok k s' -> Forall (fun v => -128 <= v <= 127) (sl_deltas s) -> Forall (fun v => -128 <= v <= 127) (sl_deltas s') ->
  sl_stored s = sl_stored s' -> s = s'.
Proof.
  unfold scaling_list_ok. cbv zeta. intros (_ & _ & _ & _ & C) (_ & _ & _ & _ & C') F F'. destruct s as [m p dc ds cs], s' as [m' p' dc' ds' cs']. unfold sl_stored. cbn in *.
  intros E. injection E as <- <- <- <-. f_equal. rewrite C in C'. revert C'. apply coefs_inj; assumption.
Qed.
Lemma vec_inj k n : forall l l', vec n (scaling_list_ok se_ok k) l -> vec n (scaling_list_ok se_ok k) l' ->
  Forall (fun s => Forall (fun v => -128 <= v <= 127) (sl_deltas s)) l -> Forall (fun s => Forall (fun v => -128 <= v <= 127) (sl_deltas s)) l' -> map sl_stored l = map sl_stored l' -> l = l'.
Proof.
  intros l l' [_ V] [_ V']. revert l' V'. induction V as [|x l Hx V IH]; intros [|y l'] V' F F' E; try discriminate; [reflexivity|]. cbn [map] in E.
  assert (E1 : sl_stored x = sl_stored y) by congruence. assert (E2 : map sl_stored l = map sl_stored l') by congruence.
  inversion V'; subst. inversion F; subst. inversion F'; subst. f_equal; [eapply sl_inj; eassumption|apply IH; assumption].
Qed.
Lemma sld_inj d d' : scaling_list_data_ok se_ok d -> scaling_list_data_ok se_ok d' -> differences_in_range d -> differences_in_range d' -> sld_stored d = sld_stored d' -> d = d'.
Proof.
  intros O O' F F' E. apply sld_shape in O, O'. destruct O as (r0 & r1 & r2 & r3 & -> & V0 & V1 & V2 & V3), O' as (r0' & r1' & r2' & r3' & -> & V0' & V1' & V2' & V3').
  unfold differences_in_range in *. rewrite !Forall_cons_iff in F, F'. unfold sld_stored in E. cbn [map] in E.
  assert (E0 : map sl_stored r0 = map sl_stored r0') by congruence. assert (E1 : map sl_stored r1 = map sl_stored r1') by congruence.
  assert (E2 : map sl_stored r2 = map sl_stored r2') by congruence. assert (E3 : map sl_stored r3 = map sl_stored r3') by congruence.
  apply (vec_inj _ _ _ _ V0 V0') in E0; [|tauto|tauto]. apply (vec_inj _ _ _ _ V1 V1') in E1; [|tauto|tauto].
  apply (vec_inj _ _ _ _ V2 V2') in E2; [|tauto|tauto]. apply (vec_inj _ _ _ _ V3 V3') in E3; [|tauto|tauto]. congruence.
Qed.
Theorem C78_scaling_list_data_in_range : same_bits_upto_aliases ParseScalingListData (fun d1 d2 => sld_stored d1 = sld_stored d2 /\ differences_in_range d1 /\ differences_in_range d2).
Proof.
  intros b1 b2 d1 d2 b1' b2' W1 W2 E1 E2 (Es & F1 & F2). destruct (C35_layout b1 W1) as [H1 _]. destruct (C35_layout b2 W2) as [H2 _]. rewrite E1 in H1. rewrite E2 in H2.
  destruct H1 as (O1 & _), H2 as (O2 & _). pose proof (sld_inj _ _ O1 O2 F1 F2 Es) as <-. exact (layout_same_bits _ _ _ _ _ C35_layout _ _ _ _ _ _ W1 W2 E1 E2 eq_refl).
Qed.
Lemma sps_stored_inj s1 s2 : sps_stored s1 = sps_stored s2 -> sps_scaling_list_data s1 = sps_scaling_list_data s2 -> s1 = s2.
Proof. unfold sps_stored. destruct s1, s2. cbn. intros E D. injection E. intros. subst. reflexivity. Qed.
Theorem C78_sps : same_structure_bits eq ParseSps (fun s1 s2 => sps_stored s1 = sps_stored s2 /\ sps_scaling_list_data s1 = None).
Proof.
  apply structure_eq. apply (prefix_same_bits ovf_only eq _ _ (fun s => sps_scaling_list_data s = None) (fun _ => True) (enc_sps false)).
  - apply same_local, local_weaken, local_sps.
  - exact wpx_sps.
  - intros s1 s2 _ _ [E L]. split; [|exact L]. apply sps_stored_inj; [exact E|]. apply (f_equal sps_scaling_list_data) in E. unfold sps_stored in E. cbn in E. rewrite L in *. cbn in E. destruct (sps_scaling_list_data s2); [discriminate|reflexivity].
Qed.
Definition lists_in_range (o : option (list (list scaling_list))) : Prop := forall d, o = Some d -> differences_in_range d.
Lemma lists_inj c c' o o' : optf c (is_some (scaling_list_data_ok se_ok)) None o -> optf c' (is_some (scaling_list_data_ok se_ok)) None o' -> lists_in_range o -> lists_in_range o' ->
  option_map sld_stored o = option_map sld_stored o' -> o = o'.
Proof.
  assert (G : forall c o d, optf c (is_some (scaling_list_data_ok se_ok)) None o -> o = Some d -> scaling_list_data_ok se_ok d).
  { intros c0 o0 d H ->. unfold optf in H. destruct c0; [exact H|discriminate]. }
  intros O O' R R' E. destruct o as [d|], o' as [d'|]; cbn in E; try discriminate; [|reflexivity]. f_equal.
  assert (Es : sld_stored d = sld_stored d') by congruence. eapply sld_inj; eauto.
Qed.
(** With scaling lists. *)
Theorem C78_sps_scaling : same_structure_bits aliases ParseSps (fun s1 s2 => sps_stored s1 = sps_stored s2 /\ lists_in_range (sps_scaling_list_data s1) /\ lists_in_range (sps_scaling_list_data s2)).
Proof.
  apply (prefix_same_bits ovf_only agree _ _ (fun _ => True) sps_ok_out (enc_sps false)).
  - apply same_local, local_sps.
  - eapply wp_weaken; [apply wpa_sps|]. cbv beta. tauto.
  - intros s1 s2 O1 O2 (E & R1 & R2). split; [|exact I]. apply sps_stored_inj; [exact E|]. unfold sps_ok_out, sps_ok in O1, O2. cbv zeta in *.
    eapply lists_inj; [| |exact R1|exact R2|]; [| |exact (f_equal sps_scaling_list_data E)].
    + repeat match goal with H : _ /\ _ |- _ => destruct H end; eassumption.
    + repeat match goal with H : _ /\ _ |- _ => destruct H end; eassumption.
Qed.

(** * PPS *)
Definition pps_stored (s : pps) : pps := mkPPS (pps_pic_parameter_set_id s) (pps_seq_parameter_set_id s) (dependent_slice_segments_enabled_flag s) (output_flag_present_flag s) (num_extra_slice_header_bits s) (sign_data_hiding_enabled_flag s) (cabac_init_present_flag s) (num_ref_idx_l0_default_active_minus1 s) (num_ref_idx_l1_default_active_minus1 s) (init_qp_minus26 s) (constrained_intra_pred_flag s) (transform_skip_enabled_flag s) (cu_qp_delta_enabled_flag s) (diff_cu_qp_delta_depth s) (pps_cb_qp_offset s) (pps_cr_qp_offset s) (pps_slice_chroma_qp_offsets_present_flag s) (weighted_pred_flag s) (weighted_bipred_flag s) (transquant_bypass_enabled_flag s) (tiles_enabled_flag s) (entropy_coding_sync_enabled_flag s) (num_tile_columns_minus1 s) (num_tile_rows_minus1 s) (uniform_spacing_flag s) (column_width_minus1 s) (row_height_minus1 s) (loop_filter_across_tiles_enabled_flag s) (pps_loop_filter_across_slices_enabled_flag s) (deblocking_filter_control_present_flag s) (deblocking_filter_override_enabled_flag s) (pps_deblocking_filter_disabled_flag s) (pps_beta_offset_div2 s) (pps_tc_offset_div2 s) (pps_scaling_list_data_present_flag s) (option_map sld_stored (pps_scaling_list_data s)) (lists_modification_present_flag s) (log2_parallel_merge_level_minus2 s) (slice_segment_header_extension_present_flag s) (pps_extension_present_flag s) (pps_range_extension_flag s) (pps_multilayer_extension_flag s) (pps_3d_extension_flag s) (pps_scc_extension_flag s) (pps_extension_4bits s) (pps_multilayer_extension s) (pps_scc_extension s).
Lemma pps_stored_inj s1 s2 : pps_stored s1 = pps_stored s2 -> pps_scaling_list_data s1 = pps_scaling_list_data s2 -> s1 = s2.
Proof. unfold pps_stored. destruct s1, s2. cbn. intros E D. injection E. intros. subst. reflexivity. Qed.
(** Not for a PPS whose multilayer extension was announced but could not be parsed (it is returned without it, see C36), and coded differences outside
    their range. *)
Theorem C78_pps_complete : same_structure_bits aliases ParsePps
  (fun s1 s2 => pps_stored s1 = pps_stored s2 /\ ml_parsed s1 /\ lists_in_range (pps_scaling_list_data s1) /\ lists_in_range (pps_scaling_list_data s2)).
Proof.
  apply (prefix_same_bits ovf_only agree _ _ (fun s => pps_multilayer_extension_flag s = 0 \/ pps_multilayer_extension s <> None) pps_ok_out (enc_pps false)).
  - exact same_pps.
  - eapply wp_weaken; [apply wp_pps|]. cbv beta. intros s bs [O A]. split; [exact O|]. intros P. apply A. unfold ml_parsed. intros N. destruct P as [P|P]; [rewrite P in N; discriminate|exact P].
  - intros s1 s2 O1 O2 (E & M1 & R1 & R2). assert (Eq : s1 = s2).
    { apply pps_stored_inj; [exact E|]. unfold pps_ok_out, pps_ok in O1, O2. cbv zeta in *.
      eapply lists_inj; [| |exact R1|exact R2|]; [| |exact (f_equal pps_scaling_list_data E)].
      + repeat match goal with H : _ /\ _ |- _ => destruct H end; eassumption.
      + repeat match goal with H : _ /\ _ |- _ => destruct H end; eassumption. }
    split; [exact Eq|]. unfold ml_parsed in M1. destruct (nz (pps_multilayer_extension_flag s1)) eqn:N; [right; auto|left]. unfold nz in N. lia.
Qed.

(** * With C69: an SPS printed without scaling lists tells the bits it was read from, whatever the buffers and the indentation. *)
Theorem C78_printed_sps : forall o b1 b2 s1 s2 x1 x2 b1' b2' level1 level2 t1 t2, wf b1 -> wf b2 -> ParseSps b1 = Ok (s1, x1) b1' -> ParseSps b2 = Ok (s2, x2) b2' ->
  -1 <= level1 -> -1 <= level2 -> PropsText.fdump (MText.text_sps (add_resolution o) s1) level1 = Done t1 -> PropsText.fdump (MText.text_sps (add_resolution o) s2) level2 = Done t2 ->
  SpecText.words t1 = SpecText.words t2 -> sps_scaling_list_data s1 = None ->
  exists bs tail1 tail2, consumed b1 b1' = bs ++ tail1 /\ consumed b2 b2' = bs ++ tail2 /\
    forall b3 rest, wf b3 -> rem b3 = bs ++ rest -> exists x3 b3', ParseSps b3 = Ok (s1, x3) b3'.
Proof.
  intros o b1 b2 s1 s2 x1 x2 b1' b2' level1 level2 t1 t2 W1 W2 E1 E2 L1 L2 F1 F2 Ws N.
  pose proof (PropsFaithful.C69_sps_printed o b1 b2 (s1, x1) (s2, x2) b1' b2' level1 level2 t1 t2 W1 W2 E1 E2 L1 L2 F1 F2 Ws) as Es. cbn [fst] in Es.
  destruct (C78_sps b1 b2 s1 s2 x1 x2 b1' b2' W1 W2 E1 E2 (conj Es N)) as (bs1 & bs2 & u1 & u2 & C1 & C2 & <- & G). exists bs1, u1, u2. split; [exact C1|]. split; [exact C2|]. eauto.
Qed.

(** * Where it fails: the same object from different bits *)
(** Two VPS whose first of two hrd_parameters differ. *)
Definition C78_vps (duration : Z) : list Z :=
  let h v := mkHRD 0 0 0 0 0 0 0 0 0 0 0 0 0 [mkHS 0 1 v 0 0 None None] in
  pack (enc_vps false (C29_vps 2 [mkVH 0 0 (h duration); mkVH 1 1 (mkHRD 1 0 0 0 0 0 0 0 0 0 0 0 0 [mkHS 0 1 2 0 0 (Some [mkCPB 0 0 0 0 0]) None])]) ++ [true]).
Theorem C78_vps_refuted : exists s1 s2 x b1 b2, ParseVps (mk_bb (C78_vps 0)) = Ok (s1, x) b1 /\ ParseVps (mk_bb (C78_vps 1)) = Ok (s2, x) b2 /\ vps_stored s1 = vps_stored s2 /\
  consumed (mk_bb (C78_vps 0)) b1 <> consumed (mk_bb (C78_vps 1)) b2.
Proof. do 5 eexists. repeat (apply conj; [vm_compute; reflexivity|]). vm_compute. discriminate. Qed.
(** Two scaling lists with a coded difference of 0 and of 256. *)
Definition C78_lists (first : Z) : list Z :=
  let z := mkSL 0 0 0 [] [] in
  pack (enc_scaling_list_data [mkSL 1 0 0 (first :: repeat 0 15) [] :: repeat z 5; repeat z 6; repeat z 6; repeat z 2] ++ [true]).
Theorem C78_scaling_list_data_refuted : exists d1 d2 b1 b2, ParseScalingListData (mk_bb (C78_lists 0)) = Ok d1 b1 /\ ParseScalingListData (mk_bb (C78_lists 256)) = Ok d2 b2 /\
  sld_stored d1 = sld_stored d2 /\ consumed (mk_bb (C78_lists 0)) b1 <> consumed (mk_bb (C78_lists 256)) b2.
Proof. do 4 eexists. repeat (apply conj; [vm_compute; reflexivity|]). vm_compute. discriminate. Qed.
(** Two PPS with init_qp_minus26 = -1, the second with the codeword of 2^31 - 1. *)
Definition C78_pps (init_qp : Z) : list bool :=
  [true; true; false; false; false; false; false; false; false; true; true] ++ enc_se init_qp ++
  [false; false; false; true; true; false; false; false; false; false; false; false; false; false; false; true; false; false; true].
Theorem C78_pps_refuted : exists s x b1 b2, ParsePps (mk_bb (pack (C78_pps (-1)))) = Ok (s, x) b1 /\ ParsePps (mk_bb (pack (C78_pps (2 ^ 31 - 1)))) = Ok (s, x) b2 /\
  init_qp_minus26 s = -1 /\ consumed (mk_bb (pack (C78_pps (-1)))) b1 <> consumed (mk_bb (pack (C78_pps (2 ^ 31 - 1)))) b2.
Proof. do 4 eexists. repeat (apply conj; [vm_compute; reflexivity|]). vm_compute. discriminate. Qed.

(** The hypotheses are met by rich parameter sets; the same bits at different places in different buffers. *)
Definition C78_plain_sps : sps :=
  mkSPS 0 0 1 C29_ptl 0 1 0 64 64 0 0 0 0 0 0 0 4 1 [mkOI 4 2 5] 0 3 0 3 0 0 0 0 None 0 0 0 0 0 0 0 0 0 [] 0 0 [] 0 0 0 None 0 0 0 0 0 0 None None None None.
Example C78_case :
  (exists s x b, ParseSps (mk_bb (pack (enc_sps false C78_plain_sps ++ [true]))) = Ok (s, x) b /\ sps_scaling_list_data s = None /\ 100 < Z.of_nat (length (consumed (mk_bb (pack (enc_sps false C78_plain_sps ++ [true]))) b))) /\
  (exists s x b, ParseSps (mk_bb (pack (enc_sps false C31_sps ++ [true]))) = Ok (s, x) b /\ lists_in_range (sps_scaling_list_data s) /\ sps_scaling_list_data s <> None) /\
  (exists s x b, ParsePps (mk_bb (pack (enc_pps false C36_pps ++ [true]))) = Ok (s, x) b /\ ml_parsed s /\ lists_in_range (pps_scaling_list_data s)) /\
  (exists s x b, ParseVps (mk_bb (pack (enc_vps false (C29_vps 0 []) ++ [true]))) = Ok (s, x) b /\ one_hrd s).
Proof.
  assert (R : lists_in_range (Some C35_data)).
  { intros d E. injection E as <-. unfold differences_in_range, C35_data, C35_list, C35_zero. cbn. repeat constructor; lia. }
  split; [|split; [|split]].
  - do 3 eexists. split; [vm_compute; reflexivity|]. split; [reflexivity|]. vm_compute. reflexivity.
  - exists C31_sps. do 2 eexists. split; [vm_compute; reflexivity|]. split; [exact R|discriminate].
  - exists C36_pps. do 2 eexists. split; [vm_compute; reflexivity|]. split; [intros _; discriminate|exact R].
  - exists (C29_vps 0 []). do 2 eexists. split; [vm_compute; reflexivity|]. unfold one_hrd. cbn. lia.
Qed.
