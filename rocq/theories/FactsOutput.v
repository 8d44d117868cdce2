(** The text of a NAL unit tells its header and what is shown of its payload, when the unit was parsed in states that look the same. *)
From Coq Require Import ZArith List Bool Lia String Ascii.
From Verif Require Import MBase MBitBuffer Spec BitsFacts Reader ReaderFacts Rules Syntax SyntaxSe MCommon CommonFacts PropsCommon MSyntaxA SpecA FactsA MProfile SpecProfile MSyntaxB SpecB FactsB PropsB MSps SpecSps FactsSps MPps SpecPps FactsPps
  FactsLocal MNal FactsNal Api MText SpecText FactsText PropsText FactsTells FactsFaithA FactsFaithB FactsFaithC FactsFaithD MSei SpecSei FactsFaithE PropsSps
  MSlice SpecSlice FactsSlice PropsSlice SpecSize PropsSafe PropsGrow FactsFaithF PropsFaithful.
Import ListNotations.
Open Scope string_scope.
Open Scope Z_scope.

(** What is shown of a payload: a VPS keeps only its last hrd_parameters (C69), a PPS is without diff_cu_qp_delta_depth and chroma_bit_depth_entry_minus8,
    the extension data flags of the SPS and PPS are not printed, nor are the coded differences of scaling lists. *)
Definition seen (p : nal_payload) : nal_payload :=
  mkNP (option_map (fun v => (vps_stored (fst v), snd v)) (np_vps p)) (option_map (fun v => (sps_stored (fst v), 0)) (np_sps p)) (option_map (fun v => (pps_shown (fst v), 0)) (np_pps p))
    (np_aud p) (np_slice p) (np_sei p).
(** The two states show the same parameter sets. *)
Definition related (st st' : state) : Prop := forall k,
  option_map (fun v => sps_stored (fst v)) (st_sps st k) = option_map (fun v => sps_stored (fst v)) (st_sps st' k) /\
  option_map (fun v => pps_shown (fst v)) (st_pps st k) = option_map (fun v => pps_shown (fst v)) (st_pps st' k).

(** * Slice headers only use what is shown of their parameter sets *)
Lemma text_slice_shown s p nut h : text_slice s p nut h = text_slice (sps_stored s) (pps_shown p) nut h.
Proof. destruct s, p as [? ? ? ? ? ? ? ? ? ? ? ? ? ? ? ? ? ? ? ? ? ? ? ? ? ? ? ? ? ? ? ? ? ? ? ? ? ? ? ? ? ? ? ? ? ? [e|]]; reflexivity. Qed.
Lemma slice_ok_shown s p nut h : slice_ok false (own_rps s) nut s p h -> slice_ok false (own_rps (sps_stored s)) nut (sps_stored s) (pps_shown p) h.
Proof. destruct s, p as [? ? ? ? ? ? ? ? ? ? ? ? ? ? ? ? ? ? ? ? ? ? ? ? ? ? ? ? ? ? ? ? ? ? ? ? ? ? ? ? ? ? ? ? ? ? [e|]]; intros H; exact H. Qed.
Lemma facts_shown s : sps_facts s -> sps_facts (sps_stored s).
Proof. intros [F1 F2 F3 F4 F5 F6 F7 F8 F9 F10 F11]. destruct s. constructor; [exact F1 | exact F2 | exact F3 | exact F4 | exact F5 | exact F6 | exact F7 | exact F8 | exact F9 | exact F10 | exact F11]. Qed.
Lemma act_shown p : act_flag p = act_present p -> act_flag (pps_shown p) = act_present (pps_shown p).
Proof. destruct p as [? ? ? ? ? ? ? ? ? ? ? ? ? ? ? ? ? ? ? ? ? ? ? ? ? ? ? ? ? ? ? ? ? ? ? ? ? ? ? ? ? ? ? ? ? ? [e|]]; intros H; exact H. Qed.
Lemma own_shown s h : own_run s h -> own_run (sps_stored s) h.
Proof. destruct s. intros H. exact H. Qed.
Lemma shown_same st st' k p p' s s' : related st st' -> refers_to st k p s -> refers_to st' k p' s' -> sps_stored s = sps_stored s' /\ pps_shown p = pps_shown p'.
Proof.
  intros R [[xp Rp] [xs Rs]] [[xp' Rp'] [xs' Rs']].
  assert (Ep : pps_shown p = pps_shown p') by (pose proof (proj2 (R k)) as E; rewrite Rp, Rp' in E; cbn [option_map fst] in E; congruence).
  split; [|exact Ep]. pose proof (f_equal pps_seq_parameter_set_id Ep) as I. cbn [pps_shown pps_seq_parameter_set_id] in I. rewrite <- I in Rs'.
  pose proof (proj1 (R (pps_seq_parameter_set_id p))) as E. rewrite Rs, Rs' in E. cbn [option_map fst] in E. congruence.
Qed.
Lemma tells_slices st st' nut b b' h h' b1 b1' p s p' s' : reached call_ok st -> reached call_ok st' -> related st st' -> wf b -> wf b' -> bb_count b < 2 ^ 28 -> bb_count b' < 2 ^ 28 ->
  ParseSliceSegmentHeader nut st b = Ok h b1 -> ParseSliceSegmentHeader nut st' b' = Ok h' b1' ->
  refers_to st (slice_pic_parameter_set_id h) p s -> refers_to st' (slice_pic_parameter_set_id h') p' s' -> tells (text_slice s p nut h) (text_slice s' p' nut h') (h = h').
Proof.
  intros R R' Re W W' C C' E E' X X'.
  destruct (slice_parsed _ _ _ _ _ R W C E) as (p0 & s0 & Y & O & Fs & Ac & Ru & B), (slice_parsed _ _ _ _ _ R' W' C' E') as (p0' & s0' & Y' & O' & Fs' & Ac' & Ru' & B').
  assert (U : forall st k p s p0 s0, refers_to st k p s -> refers_to st k p0 s0 -> p0 = p /\ s0 = s).
  { clear. intros st k p s p0 s0 [[xp Rp] [xs Rs]] [[xp' Rp'] [xs' Rs']]. assert (p0 = p) by congruence. subst p0. split; [reflexivity | congruence]. }
  destruct (U _ _ _ _ _ _ X Y) as [-> ->]. destruct (U _ _ _ _ _ _ X' Y') as [-> ->]. clear Y Y' U.
  eapply tells_first with (P := slice_pic_parameter_set_id h = slice_pic_parameter_set_id h').
  { unfold text_slice. apply tellsp_struct, tellsp_sub. exact (slice_pid _ _ _ _ _ _ _ _ _ O O'). }
  intros Pid. rewrite <- Pid in X'. destruct (shown_same _ _ _ _ _ _ _ Re X X') as [Es Ep].
  rewrite (text_slice_shown s), (text_slice_shown s'). apply slice_ok_shown in O, O'. apply facts_shown in Fs. apply act_shown in Ac. apply own_shown in Ru, Ru'.
  rewrite <- Es, <- Ep in *. apply tells_slice, tells_slice_header; assumption.
Qed.

(** * Payloads *)
(** The text starts with the word [w]. *)
Definition opens (d : txt) (w : string) : Prop := forall c, d = Done c -> exists r, toks c = w :: r.
Lemma toks_put s l : toks (Put s :: l) = (words s ++ toks l)%list.
Proof. reflexivity. Qed.
Lemma opens_struct n d w r : words (n ++ " {") = w :: r -> opens (struct n d) w.
Proof.
  intros H c E. unfold struct in E. destruct (tseq_done _ _ _ E) as (c1 & c2 & E1 & _ & ->). assert (c1 = [Put (n ++ " {"); Incr]) as -> by congruence.
  change ([Put (n ++ " {"); Incr] ++ c2)%list with (Put (n ++ " {") :: Incr :: c2). rewrite toks_put, H. cbn [app]. eauto.
Qed.
(** A structure that is there or not, in front of the "}" of the payload *)
Lemma tells_opt {A} n (p p' : option A) (d d' : A -> txt) w w' (Q : A -> A -> Prop) : (forall a, opens (d a) w) -> (forall a, opens (d' a) w') -> w <> "}" -> w' <> "}" ->
  (forall a a', p = Some a -> p' = Some a' -> tells (d a) (d' a') (Q a a')) ->
  tells (struct n (Done [Ind] +> tchecked p (fun a => MText.call (d a)))) (struct n (Done [Ind] +> tchecked p' (fun a => MText.call (d' a))))
    (match p, p' with Some a, Some a' => Q a a' | None, None => True | _, _ => False end).
Proof.
  intros O O' N N' T. destruct p as [a|], p' as [a'|]; cbn [tchecked].
  - apply tells_struct. eapply tells_then; [apply tells_same|]. intros _. apply tells_call, T; reflexivity.
  - intros c c' r r' E E' X. exfalso. unfold struct in E, E'. destruct (tseq_done _ _ _ E) as (c1 & c2 & E1 & E2 & ->). assert (c1 = [Put (n ++ " {"); Incr]) as -> by congruence.
    destruct (tseq_done _ _ _ E2) as (c3 & c4 & E3 & E4 & ->). destruct (tseq_done _ _ _ E3) as (c5 & c6 & E5 & E6 & ->). assert (c5 = [Ind]) as -> by congruence. clear E1 E2 E3 E4 E5 E.
    unfold MText.call in E6. destruct (tseq_done _ _ _ E6) as (c1 & c2 & E1 & E2 & ->). destruct (tseq_done _ _ _ E2) as (c3 & c5 & E3 & E5 & ->). assert (c1 = [Save]) as -> by congruence. destruct (O a c3 E3) as (t & Et).
    unfold tseq, close, tnop in E'. assert (c' = [Put (n ++ " {"); Incr; Ind; Decr; Ind; Put "}"]) as -> by (cbn [app] in E'; congruence). rewrite !toks_app, Et in X.
    change (toks [Put (n ++ " {"); Incr]) with (words (n ++ " {") ++ [])%list in X. change (toks [Put (n ++ " {"); Incr; Ind; Decr; Ind; Put "}"]) with (words (n ++ " {") ++ ["}"])%list in X.
    change (toks [Ind]) with (@nil string) in X. change (toks [Save]) with (@nil string) in X. rewrite app_nil_r in X. rewrite <- !app_assoc in X. apply app_inv_head in X. cbn [app] in X. apply N. congruence.
  - intros c c' r r' E' E X. exfalso. unfold struct in E, E'. destruct (tseq_done _ _ _ E) as (c1 & c2 & E1 & E2 & ->). assert (c1 = [Put (n ++ " {"); Incr]) as -> by congruence.
    destruct (tseq_done _ _ _ E2) as (c3 & c4 & E3 & E4 & ->). destruct (tseq_done _ _ _ E3) as (c5 & c6 & E5 & E6 & ->). assert (c5 = [Ind]) as -> by congruence. clear E1 E2 E3 E4 E5 E.
    unfold MText.call in E6. destruct (tseq_done _ _ _ E6) as (c1 & c2 & E1 & E2 & ->). destruct (tseq_done _ _ _ E2) as (c3 & c5 & E3 & E5 & ->). assert (c1 = [Save]) as -> by congruence. destruct (O' a' c3 E3) as (t & Et).
    unfold tseq, close, tnop in E'. assert (c = [Put (n ++ " {"); Incr; Ind; Decr; Ind; Put "}"]) as -> by (cbn [app] in E'; congruence). rewrite !toks_app, Et in X.
    change (toks [Put (n ++ " {"); Incr]) with (words (n ++ " {") ++ [])%list in X. change (toks [Put (n ++ " {"); Incr; Ind; Decr; Ind; Put "}"]) with (words (n ++ " {") ++ ["}"])%list in X.
    change (toks [Ind]) with (@nil string) in X. change (toks [Save]) with (@nil string) in X. rewrite app_nil_r in X. rewrite <- !app_assoc in X. apply app_inv_head in X. cbn [app] in X. apply N'. congruence.
  - eapply tells_weaken; [apply tells_same | auto].
Qed.
Lemma result_ok {A} (m : M A) b a : result m b = Some a -> exists b1, m b = Ok a b1.
Proof. unfold result. destruct (m b) as [x b1|b1|e]; try discriminate. intros E. assert (x = a) by congruence. subst x. eauto. Qed.

(** [sp] is right for the slice header of [p], parsed in [st]. *)
Definition right (st : state) (sp : sps * pps) (p : nal_payload) : Prop :=
  forall h q s, np_slice p = Some h -> refers_to st (slice_pic_parameter_set_id h) q s -> sp = (s, q).
Lemma sps_result b s x : wf b -> result ParseSps b = Some (s, x) -> sps_ok_out s /\ sets_run (sps_st_ref_pic_set s).
Proof.
  intros W E. apply result_ok in E. destruct E as (b1 & E). assert (K : sps_ok_out s) by (revert W E; apply (of_wp ovf_only _ (fun r => sps_ok_out (fst r)) _ wp_Sps); tauto).
  split; [exact K | exact (sps_sets_run _ _ _ _ W E K)].
Qed.
Lemma tells_payloads o ty st st' sp sp' b b' : reached call_ok st -> reached call_ok st' -> related st st' -> wf b -> wf b' -> bb_count b < 2 ^ 28 -> bb_count b' < 2 ^ 28 ->
  right st sp (payload_of ty st b) -> right st' sp' (payload_of ty st' b') ->
  tells (text_payload sp o ty (payload_of ty st b)) (text_payload sp' o ty (payload_of ty st' b')) (seen (payload_of ty st b) = seen (payload_of ty st' b')).
Proof.
  intros R R' Re W W' C C' X X'. unfold text_payload. rewrite case_slice. unfold VPS_NUT, SPS_NUT, PPS_NUT, AUD_NUT, case_of, PREFIX_SEI_NUT, SUFFIX_SEI_NUT, existsb. rewrite orb_false_r.
  unfold right in *. unfold payload_of in *. cbn [np_vps np_sps np_pps np_aud np_slice np_sei seen] in *. unfold seen. cbn [np_vps np_sps np_pps np_aud np_slice np_sei] in *. 
  destruct (slice_nut ty) eqn:Sl.
  { unfold slice_nut in Sl. assert (Ts : (ty =? 32) = false /\ (ty =? 33) = false /\ (ty =? 34) = false /\ (ty =? 35) = false /\ (ty =? 39) || (ty =? 40) = false).
    { repeat split; apply not_true_iff_false; intros N; revert Sl; try (apply orb_prop in N; destruct N as [N|N]); apply Z.eqb_eq in N; subst ty; discriminate. }
    destruct Ts as (-> & -> & -> & -> & ->). cbn [option_map].
    eapply tells_weaken; [eapply (tells_opt _ _ _ _ _ "slice_segment_layer" "slice_segment_layer" (fun h h' => h = h')); try discriminate; try (intros; eapply opens_struct; reflexivity)|].
    - intros h h' E E'. destruct (result_ok _ _ _ E) as (b1 & P), (result_ok _ _ _ E') as (b1' & P').
      destruct (slice_parsed _ _ _ _ _ R W C P) as (p & s & Y & _), (slice_parsed _ _ _ _ _ R' W' C' P') as (p' & s' & Y' & _).
      rewrite (X _ _ _ E Y), (X' _ _ _ E' Y'). cbn [fst snd]. exact (tells_slices _ _ _ _ _ _ _ _ _ _ _ _ _ R R' Re W W' C C' P P' Y Y').
    - destruct (result (ParseSliceSegmentHeader ty st) b), (result (ParseSliceSegmentHeader ty st') b'); try contradiction; try (intros _; reflexivity). intros ->. reflexivity. }
  clear X X' Sl. destruct (Z.eqb_spec ty 32) as [->|N1].
  { cbn [Z.eqb Pos.eqb orb option_map].
    eapply tells_weaken; [eapply (tells_opt _ _ _ _ _ "vps" "vps" (fun v v' => (vps_stored (fst v), snd v) = (vps_stored (fst v'), snd v'))); try discriminate; try (intros; eapply opens_struct; reflexivity)|].
    - intros [v x] [v' x'] E E'. cbn [fst snd]. destruct (result_wp _ _ _ _ _ W wp_Vps E) as (bs & _ & Q1 & Q2), (result_wp _ _ _ _ _ W' wp_Vps E') as (bs' & _ & Q3 & Q4). cbn [fst snd] in *.
      eapply tells_weaken; [apply tells_vps; assumption|]. intros [-> ->]. reflexivity.
    - destruct (result ParseVps b), (result ParseVps b'); try contradiction; try (intros _; reflexivity). intros E. cbn [option_map]. rewrite E. reflexivity. }
  destruct (Z.eqb_spec ty 33) as [->|N2].
  { cbn [Z.eqb Pos.eqb orb option_map].
    eapply tells_weaken; [eapply (tells_opt _ _ _ _ _ "sps" "sps" (fun v v' => sps_stored (fst v) = sps_stored (fst v'))); try discriminate; try (intros; eapply opens_struct; reflexivity)|].
    - intros [v x] [v' x'] E E'. cbn [fst snd]. destruct (sps_result _ _ _ W E), (sps_result _ _ _ W' E'). apply tells_sps; assumption.
    - destruct (result ParseSps b), (result ParseSps b'); try contradiction; try (intros _; reflexivity). intros E. cbn [option_map]. rewrite E. reflexivity. }
  destruct (Z.eqb_spec ty 34) as [->|N3].
  { cbn [Z.eqb Pos.eqb orb option_map].
    eapply tells_weaken; [eapply (tells_opt _ _ _ _ _ "pps" "pps" (fun v v' => pps_shown (fst v) = pps_shown (fst v'))); try discriminate; try (intros; eapply opens_struct; reflexivity)|].
    - intros [v x] [v' x'] E E'. cbn [fst snd]. destruct (result_wp _ _ _ _ _ W wp_Pps E) as (bs & _ & Q1 & Q2), (result_wp _ _ _ _ _ W' wp_Pps E') as (bs' & _ & Q3 & Q4). cbn [fst snd] in *.
      apply tells_pps; assumption.
    - destruct (result ParsePps b), (result ParsePps b'); try contradiction; try (intros _; reflexivity). intros E. cbn [option_map]. rewrite E. reflexivity. }
  destruct (Z.eqb_spec ty 35) as [->|N4].
  { cbn [Z.eqb Pos.eqb orb option_map]. destruct (result ParseAud b) as [v|] eqn:E; [|intros c c' r r' D; discriminate D]. destruct (result ParseAud b') as [v'|] eqn:E'; [|intros c c' r r' _ D; discriminate D].
    destruct (result_wp _ _ _ _ _ W wp_Aud E) as (bs & _ & Q1), (result_wp _ _ _ _ _ W' wp_Aud E') as (bs' & _ & Q2).
    apply tells_struct. eapply tells_then; [apply tells_same|]. intros _. apply tells_call. cbn [tderef]. eapply tells_weaken; [apply tells_aud; assumption|]. intros ->. reflexivity. }
  destruct ((ty =? 39) || (ty =? 40)) eqn:S6.
  { cbn [option_map].
    eapply tells_weaken; [eapply (tells_opt _ _ _ _ _ "sei" "sei" (fun v v' => v = v')); try discriminate; try (intros; eapply opens_struct; reflexivity)|].
    - intros v v' E E'. destruct (result_wp _ _ _ _ _ W wp_Sei E) as (bs & _ & Q1 & Q2 & Q3), (result_wp _ _ _ _ _ W' wp_Sei E') as (bs' & _ & Q4 & Q5 & Q6). apply tells_sei; assumption.
    - destruct (result ParseSei b), (result ParseSei b'); try contradiction; try (intros _; reflexivity). intros ->. reflexivity. }
  eapply tells_weaken; [apply tells_same | intros _; reflexivity].
Qed.
