(** C69: the printed text determines the parsed structure.  Two structures that were parsed, from whatever buffers, and printed, at whatever
    indentation levels, with the same words are the same structure.  This is what makes a textual comparison of two dumps a comparison of the
    parsed headers.  It fails for the PPS, whose fdump leaves out two parsed fields; it holds up to these two. *)
From Coq Require Import ZArith List Bool Lia String Ascii.
From Verif Require Import MBase MBitBuffer Spec Reader ReaderFacts Rules Syntax SyntaxSe MCommon MSyntaxA SpecA FactsA MProfile SpecProfile MSyntaxB SpecB FactsB PropsB MSps SpecSps FactsSps MPps SpecPps FactsPps
  FactsLocal MNal FactsNal Api MText SpecText FactsText PropsText FactsTells FactsFaithA FactsFaithB FactsFaithC FactsFaithD MSei SpecSei FactsFaithE PropsSps
  MSlice SpecSlice FactsSlice PropsSlice SpecSize PropsSafe PropsGrow FactsFaithF.
Import ListNotations.
Open Scope string_scope.
Open Scope Z_scope.

(** [shows parse text seen]: two values parsed from any two buffers and printed at any two levels with the same words look the same. *)
Definition shows {A B} (parse : M A) (txt : A -> txt) (seen : A -> B) : Prop :=
  forall b b' v v' b1 b1' level level' t t', wf b -> wf b' -> parse b = Ok v b1 -> parse b' = Ok v' b1' ->
  -1 <= level -> -1 <= level' -> fdump (txt v) level = Done t -> fdump (txt v') level' = Done t' -> words t = words t' -> seen v = seen v'.

Lemma tells_fdump d d' Q level level' t t' : gs d -> gs d' -> tells d d' Q -> -1 <= level -> -1 <= level' ->
  fdump d level = Done t -> fdump d' level' = Done t' -> words t = words t' -> Q.
Proof.
  intros G G' T L L' E E' W. unfold fdump in *. destruct d as [c|], d' as [c'|]; try discriminate. injection E as <-. injection E' as <-.
  destruct (struct_text c (G c eq_refl) level L) as (Wc & _), (struct_text c' (G' c' eq_refl) level' L') as (Wc' & _).
  destruct (T c c' [] [] eq_refl eq_refl) as [H _]; [|exact H]. rewrite !app_nil_r. congruence.
Qed.
Lemma shows_intro {A B} (parse : M A) (txt : A -> txt) (seen : A -> B) (P : A -> Prop) : (forall v, gs (txt v)) -> (forall b v b1, wf b -> parse b = Ok v b1 -> P v) ->
  (forall v v', P v -> P v' -> tells (txt v) (txt v') (seen v = seen v')) -> shows parse txt seen.
Proof.
  intros G Wp T b b' v v' b1 b1' level level' t t' W W' E E' L L' F F' Ws.
  exact (tells_fdump _ _ _ _ _ _ _ (G v) (G v') (T v v' (Wp _ _ _ W E) (Wp _ _ _ W' E')) L L' F F' Ws).
Qed.
Lemma of_wp {A} E (parse : M A) (P : A -> Prop) Q : wp E parse Q -> (forall v bs, Q v bs -> P v) -> forall b v b1, wf b -> parse b = Ok v b1 -> P v.
Proof. intros Wp H b v b1 W E1. pose proof (Wp b W) as K. rewrite E1 in K. destruct K as (bs & _ & K). exact (H _ _ K). Qed.

(** The structures without a loss *)
Theorem C69_nal_unit_header : shows ParseNalUnitHeader text_header (fun s => s).
Proof.
  eapply shows_intro with (P := nal_header_ok); [intros; apply gs_text with (x := T_header v) | | exact tells_header].
  eapply of_wp; [apply wp_nal_header | cbv beta; tauto].
Qed.
Theorem C69_aud : shows ParseAud text_aud (fun v => v).
Proof.
  eapply shows_intro with (P := u_ok 3); [intros; apply gs_text with (x := T_aud v) | | exact tells_aud].
  eapply of_wp; [exact wp_Aud | cbv beta; tauto].
Qed.
Theorem C69_profile_tier_level : forall present n, shows (ParseProfileTierLevel present n) (text_ptl present n) (fun s => s).
Proof.
  intros present n. eapply shows_intro with (P := ptl_ok false present n); [intros; apply gs_ptl | | intros v v'; apply (tells_ptl _ _ _ _ _ eq_refl)].
  eapply of_wp; [apply wp_ptl | cbv beta; tauto].
Qed.
Theorem C69_hrd_parameters : forall common n, shows (ParseHrdParameters common n) (text_hrd (nz common)) (fun s => s).
Proof.
  intros common n. eapply shows_intro with (P := hrd_ok 0 common n); [intros; apply gs_hrd | | intros v v'; apply (tells_hrd _ _ _ _ _ eq_refl)].
  eapply of_wp; [apply wp_hrd | cbv beta; tauto].
Qed.
Theorem C69_vui_parameters : forall n, shows (ParseVuiParameters n) text_vui (fun s => s).
Proof.
  intros n. eapply shows_intro with (P := vui_ok 0 n); [intros; apply gs_vui | | intros v v'; apply (tells_vui _ _ _ _ eq_refl)].
  eapply of_wp; [apply wp_vui | cbv beta; tauto].
Qed.
(** Scaling lists: [sld_stored] leaves out the coded differences, which the C++ object does not keep. *)
Theorem C69_scaling_list_data : shows ParseScalingListData text_scaling_list_data sld_stored.
Proof.
  eapply shows_intro with (P := scaling_list_data_ok se_ok); [intros; apply gs_scaling | | exact tells_sld].
  eapply of_wp; [apply (wpa_scaling_list_data ovf_only), ovf_in_only | cbv beta; tauto].
Qed.

(** VPS: [vps_stored] keeps, as the C++ object does, only the last of the hrd_parameters. *)
Theorem C69_vps : shows ParseVps (fun r => text_vps (fst r) (snd r)) (fun r => (vps_stored (fst r), snd r)).
Proof.
  eapply shows_intro with (P := fun r => vps_ok false (fst r) /\ u_ok 1 (snd r)); [intros; apply gs_vps | eapply of_wp; [exact wp_Vps | cbv beta; tauto] |].
  intros [s x] [s' x'] [H1 H2] [H3 H4]. cbn [fst snd] in *. eapply tells_weaken; [apply tells_vps; assumption|]. intros [-> ->]. reflexivity.
Qed.

(** SEI message, with its payload *)
Theorem C69_sei : shows ParseSei text_sei (fun s => s).
Proof.
  eapply shows_intro with (P := fun r => ff_ok (payload_type r) /\ forall p, sei_payload_state r = Some p -> payload_ok false (payload_type r) (MSei.payload_size r) p);
    [intros; apply gs_text with (x := T_sei v) | eapply of_wp; [exact wp_Sei | cbv beta; tauto] |].
  intros s s' [H1 H2] [H3 H4]. apply tells_sei; assumption.
Qed.

(** SPS: sps_extension_data_flag is not printed; [sps_stored] leaves out the coded differences of the scaling lists. *)
Lemma sps_sets_run b s x b1 : wf b -> ParseSps b = Ok (s, x) b1 -> sps_ok_out s -> sets_run (sps_st_ref_pic_set s).
Proof.
  intros W E K. unfold ParseSps, finish in E. apply bind_ok in E. destruct E as (s0 & b0 & E & F). inv_ok F. unfold ret in F.
  assert (s0 = s) by congruence. subst s0. clear F. unfold ParseSpsBody in E.
  do 37 (apply bind_ok in E; let r := fresh "r" in let c := fresh "c" in let X := fresh "X" in destruct E as (r & c & X & E)).
  inv_ok E. unfold ret in E.
  match type of E with Ok ?v _ = _ => assert (S : v = s) by (injection E; auto) end. clear E. rewrite <- S. cbn [sps_st_ref_pic_set].
  unfold sps_ok_out, sps_ok in K. cbv zeta in K. rewrite <- S in K. cbn [sps_st_ref_pic_set num_short_term_ref_pic_sets] in K. clear S. split_ok. unfold rps_sets_out in *. split_ok.
  match goal with X : read_rps_sets _ _ = Ok _ _, A : rps_sets_ok _ _ |- _ => apply (sets_runs _ _ _ _ A X) end. match goal with X : ue_le 64 _ |- _ => revert X end. clear. unfold ue_le, ue_ok. lia.
Qed.
Theorem C69_sps_printed : forall o, shows ParseSps (fun r => text_sps (add_resolution o) (fst r)) (fun r => sps_stored (fst r)).
Proof.
  intros o. eapply shows_intro with (P := fun r => sps_ok_out (fst r) /\ sets_run (sps_st_ref_pic_set (fst r))); [intros; apply gs_sps | |].
  - intros b [s x] b1 W E. assert (K : sps_ok_out s) by (revert W E; apply (of_wp ovf_only _ (fun r => sps_ok_out (fst r)) _ wp_Sps); tauto).
    split; [exact K | exact (sps_sets_run _ _ _ _ W E K)].
  - intros [s x] [s' x'] [H1 H2] [H3 H4]. apply tells_sps; assumption.
Qed.
(** PPS: pps_extension_data_flag, diff_cu_qp_delta_depth and chroma_bit_depth_entry_minus8 are not printed. *)
Theorem C69_pps_printed : shows ParsePps (fun r => text_pps (fst r)) (fun r => pps_shown (fst r)).
Proof.
  eapply shows_intro with (P := fun r => pps_ok_out (fst r)); [intros; apply gs_pps | eapply of_wp; [exact wp_Pps | cbv beta; tauto] |].
  intros [s x] [s' x']. apply tells_pps.
Qed.

(** Slice segment header: the text is that of the header with the parameter sets it was parsed with. *)
Definition text_of_slice (st : state) (nut : Z) (h : slice_header) : txt :=
  match st_pps st (slice_pic_parameter_set_id h) with
  | Some (p, _) => match st_sps st (pps_seq_parameter_set_id p) with Some (s, _) => text_slice s p nut h | None => Bad NullDeref end
  | None => Bad NullDeref end.
Lemma tells_slice s p nut h h' Q : tells (text_slice_header s p nut h) (text_slice_header s p nut h') Q -> tells (text_slice s p nut h) (text_slice s p nut h') Q.
Proof. intros H. unfold text_slice. apply tells_struct, tells_sub, H. Qed.
Lemma slice_parsed st nut b h b1 : reached call_ok st -> wf b -> bb_count b < 2 ^ 28 -> ParseSliceSegmentHeader nut st b = Ok h b1 ->
  exists p s, refers_to st (slice_pic_parameter_set_id h) p s /\ slice_ok false (own_rps s) nut s p h /\ sps_facts s /\ act_flag p = act_present p /\ own_run s h /\
    num_long_term_sps h + num_long_term_pics h < 2 ^ 32.
Proof.
  intros R W C E. pose proof (store_state_ok _ (reached_store _ R)) as [Hs Hp].
  pose proof (wp_slice ovf_any st nut (conj Hs Hp) ovf_in_any (or_intror (fun _ => eq_refl)) b W) as K. rewrite E in K. destruct K as (bs & St & p & s & Ref & O & _).
  exists p, s. split; [exact Ref|]. split; [exact O|]. pose proof Ref as [[xp Rp] [xs Rs]]. pose proof (sps_facts_of _ _ _ (Hs _ _ _ Rs)) as Fs. split; [exact Fs|].
  split; [exact (act_flag_present _ _ _ (Hp _ _ _ Rp))|]. split; [exact (own_runs _ _ _ _ _ _ _ Fs Ref O E)|].
  pose proof (C50_slice st nut R b h b1 W E) as G. pose proof (steps_wf _ _ _ W St) as W1. destruct St as [_ St].
  assert (L : Z.of_nat (List.length (sh_lt h)) < 2 ^ 32).
  { unfold slice_size, len in G. destruct W as (_ & _ & _ & P1 & P2 & _), W1 as (_ & _ & _ & _ & _ & P3). subst b1. unfold pos in *. cbn [bb_count adv] in P3.
    assert (0 <= osize rps_size (sh_st_ref_pic_set h)) by (destruct (sh_st_ref_pic_set h); cbn [osize]; [unfold rps_size, len|]; lia).
    assert (0 <= osize pwt_size (sh_pred_weight_table h)) by (destruct (sh_pred_weight_table h); cbn [osize]; [unfold pwt_size, len|]; lia). lia. }
  unfold slice_ok in O. cbv zeta in O. 
  match type of O with context [optf ?l (veci _ _) [] (sh_lt h)] => assert (A : optf l (veci (num_long_term_sps h + num_long_term_pics h) (lt_entry_ok s (num_long_term_sps h))) [] (sh_lt h)) by tauto;
    assert (B : optf l ue_ok 0 (num_long_term_pics h)) by tauto; assert (D : optf (l && (0 <? num_long_term_ref_pics_sps s)) ue_ok 0 (num_long_term_sps h)) by tauto;
    clear - A B D L; destruct l end; unfold optf in A, B, D; cbn [andb] in D.
  - destruct A as [A _]. rewrite A in L. lia.
  - rewrite B, D. reflexivity.
Qed.
Theorem C69_slice : forall st nut b b' h h' b1 b1' level level' t t', reached call_ok st -> wf b -> wf b' -> bb_count b < 2 ^ 28 -> bb_count b' < 2 ^ 28 ->
  ParseSliceSegmentHeader nut st b = Ok h b1 -> ParseSliceSegmentHeader nut st b' = Ok h' b1' -> -1 <= level -> -1 <= level' ->
  fdump (text_of_slice st nut h) level = Done t -> fdump (text_of_slice st nut h') level' = Done t' -> words t = words t' -> h = h'.
Proof.
  intros st nut b b' h h' b1 b1' level level' t t' R W W' C C' E E' L L' F F' Ws.
  destruct (slice_parsed _ _ _ _ _ R W C E) as (p & s & [[xp Rp] [xs Rs]] & O & Fs & Ac & Ru & B), (slice_parsed _ _ _ _ _ R W' C' E') as (p' & s' & [[xp' Rp'] [xs' Rs']] & O' & Fs' & Ac' & Ru' & B').
  unfold text_of_slice in F, F'. rewrite Rp, Rs in F. rewrite Rp', Rs' in F'.
  assert (Pid : slice_pic_parameter_set_id h = slice_pic_parameter_set_id h').
  { unfold fdump in F, F'. destruct (text_slice s p nut h) as [c|] eqn:Ec; [|discriminate F]. destruct (text_slice s' p' nut h') as [c'|] eqn:Ec'; [|discriminate F'].
    injection F as <-. injection F' as <-. destruct (struct_text c (gs_slice _ _ _ _ c Ec) level L) as (Wc & _), (struct_text c' (gs_slice _ _ _ _ c' Ec') level' L') as (Wc' & _).
    assert (T : tellsp (text_slice s p nut h) (text_slice s' p' nut h') (slice_pic_parameter_set_id h = slice_pic_parameter_set_id h')).
    { unfold text_slice. apply tellsp_struct, tellsp_sub. exact (slice_pid _ _ _ _ _ _ _ _ _ O O'). }
    apply (T c c' [] [] Ec Ec'). rewrite !app_nil_r. congruence. }
  rewrite <- Pid in Rp'. assert (p' = p) by congruence. subst p'. assert (s' = s) by congruence. subst s'.
  refine (tells_fdump _ _ _ _ _ _ _ (gs_slice s p nut h) (gs_slice s p nut h') _ L L' F F' Ws). apply tells_slice, tells_slice_header; assumption.
Qed.

(** Two PPS that differ in diff_cu_qp_delta_depth only are printed alike: the bits of the two and the parameters of the PPS *)
Definition C69_pps (depth : list bool) : list bool :=
  ([true; true; false; false; false; false; false; false; false; true; true; true; false; false; true] ++ depth ++
   [true; true; false; false; false; false; false; false; false; false; false; false; true; false; false; true])%list.
Theorem C69_pps_refuted : exists s s' x b b' t, ParsePps (mk_bb (pack (C69_pps [true]))) = Ok (s, x) b /\ ParsePps (mk_bb (pack (C69_pps [false; true; false]))) = Ok (s', x) b' /\ 
  fdump (text_pps s) 0 = Done t /\ fdump (text_pps s') 0 = Done t /\ diff_cu_qp_delta_depth s = 0 /\ diff_cu_qp_delta_depth s' = 1.
Proof. do 6 eexists. repeat (apply conj; [vm_compute; reflexivity|]). vm_compute. reflexivity. Qed.

(** Two SPS that differ in sps_extension_data_flag only are printed alike. *)
Definition C69_sps (flag : bool) : list bool :=
  (enc_sps false (mkSPS 0 0 1 C29_ptl 0 1 0 64 64 0 0 0 0 0 0 0 4 1 [mkOI 4 2 5] 0 3 0 3 0 0 0 0 None 0 0 0 0 0 0 0 0 0 [] 0 0 [] 0 0 0 None 1 0 0 0 0 1 None None None None) ++ [flag; true])%list.
Theorem C69_sps_refuted : exists s b b' t, ParseSps (mk_bb (pack (C69_sps false))) = Ok (s, 0) b /\ ParseSps (mk_bb (pack (C69_sps true))) = Ok (s, 1) b' /\ 
  fdump (text_sps false s) 0 = Done t.
Proof. do 4 eexists. repeat (apply conj; [vm_compute; reflexivity|]). vm_compute. reflexivity. Qed.

(** A rich SPS is parsed and printed; on one line and indented it has the same words. *)
Example C69_case : match ParseSps (mk_bb (pack (enc_sps true C31_sps ++ [true]))) with
  | Ok (s, _) _ => match fdump (text_sps true s) (-1), fdump (text_sps true s) 3 with
                   | Done t, Done t' => (100 <? Z.of_nat (List.length (words t))) && forallb (fun p => String.eqb (fst p) (snd p)) (combine (words t) (words t')) && negb (String.eqb t t') | _, _ => false end
  | _ => false end = true.
Proof. vm_compute. reflexivity. Qed.
(** A slice header is parsed and printed with the parameter sets of a stream that was parsed before. *)
Example C69_slice_case : exists st, reached call_ok st /\
  match ParseSliceSegmentHeader 1 st (mk_bb (pack (enc_slice true 1 C31_sps C37_pps C37_header ++ [true]))) with
  | Ok h _ => match fdump (text_of_slice st 1 h) 0 with Done t => (100 <? Z.of_nat (List.length (words t))) = true | Bad _ => False end
  | _ => False end.
Proof.
  destruct (perform (CallAnnexB default_options (FramingFacts.annexb_stream (firstn 3 PropsNal.C24_nals))) empty_state) as [st|e] eqn:E; [|vm_compute in E; discriminate E].
  exists st. split; [eapply reached_call; [apply reached_new| |exact E]; apply bytesb_ok; vm_compute; reflexivity|].
  assert (G : match perform (CallAnnexB default_options (FramingFacts.annexb_stream (firstn 3 PropsNal.C24_nals))) empty_state with
    | Done st => match ParseSliceSegmentHeader 1 st (mk_bb (pack (enc_slice true 1 C31_sps C37_pps C37_header ++ [true]))) with
      | Ok h _ => match fdump (text_of_slice st 1 h) 0 with Done t => (100 <? Z.of_nat (List.length (words t))) | Bad _ => false end
      | _ => false end
    | Bad _ => false end = true) by (vm_compute; reflexivity).
  rewrite E in G. destruct (ParseSliceSegmentHeader _ _ _) as [h b|b|e]; try discriminate G. destruct (fdump _ _) as [t|e]; [exact G|discriminate G].
Qed.
