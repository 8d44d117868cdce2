(** C37, C38, C39: slice segment headers and pred_weight_table(). *)
From Coq Require Import ZArith List Bool Lia ZifyBool ZifyNat.
From Verif Require Import MBase MBitBuffer Spec BitsFacts Reader ReaderFacts Rules Syntax SyntaxSe MCommon CommonFacts PropsBits PropsCommon
  MSyntaxA SpecA FactsA Api PropsA MSyntaxB SpecB FactsB FactsRps PropsB MSps SpecSps FactsSps PropsSps MPps SpecPps FactsPps PropsPps
  MSlice SpecSlice FactsSlice.
Import ListNotations.
Open Scope Z_scope.

(** * C39 *)
Theorem C39_layout : forall cat n, reads_layout ovf_only (ParsePredWeightTable cat n) (pwt_ok cat n) (pwt_ok cat n) (enc_pwt cat n).
Proof. intros. apply reads_layout_intro; [apply parses_pwt|apply wpa_pwt, ovf_in_only]. Qed.

(** Number of non-zero flags. *)
Definition set_flags (l : list Z) : nat := length (filter nz l).

(** One entry of a vector per set flag. *)
Lemma flags_entries {A B} (f : B -> option A) (P : A -> Prop) : forall (flags : list Z) (l : list B) pre, length l = length flags ->
  all_from (Z.of_nat (length pre)) (fun j e => optf (nz (znth (pre ++ flags) j 0)) (is_some P) None (f e)) l ->
  length (flat_map (fun e => match f e with Some p => [p] | None => [] end) l) = set_flags flags.
Proof.
  induction flags as [|a flags IH]; intros [|e l] pre L H; try discriminate; [reflexivity|]. destruct H as [H1 H2].
  assert (Z1 : znth (pre ++ a :: flags) (Z.of_nat (length pre)) 0 = a) by (unfold znth; rewrite Nat2Z.id, app_nth2, Nat.sub_diag by lia; reflexivity).
  rewrite Z1 in H1. specialize (IH l (pre ++ [a]) ltac:(cbn in L; lia)). rewrite app_length, <- app_assoc in IH. cbn [length app] in IH.
  replace (Z.of_nat (length pre + 1)) with (Z.of_nat (length pre) + 1) in IH by lia. specialize (IH H2).
  change (length ((match f e with Some p => [p] | None => [] end) ++ flat_map (fun e => match f e with Some p => [p] | None => [] end) l) = set_flags (a :: flags)).
  rewrite app_length, IH. unfold set_flags. cbn [filter]. unfold optf, is_some in H1. destruct (nz a).
  - destruct (f e); [reflexivity|contradiction].
  - rewrite H1. reflexivity.
Qed.
(** One luma flag per active reference, one chroma flag if ChromaArrayType is not 0 (none otherwise), one pair per set flag. *)
Theorem C39_counts : forall cat n b t b', wf b -> 0 <= n -> ParsePredWeightTable cat n b = Ok t b' ->
  Z.of_nat (length (luma_weight_l0_flag t)) = n + 1 /\
  Z.of_nat (length (chroma_weight_l0_flag t)) = (if cat =? 0 then 0 else n + 1) /\
  length (pwt_luma t) = set_flags (luma_weight_l0_flag t) /\
  length (pwt_chroma t) = set_flags (chroma_weight_l0_flag t) /\
  Forall (u_ok 1) (luma_weight_l0_flag t) /\ Forall (u_ok 1) (chroma_weight_l0_flag t).
Proof.
  intros cat n b t b' W Hn E. destruct (C39_layout cat n b W) as [H _]. rewrite E in H. destruct H as [(_ & _ & [Ll Fl] & Hc & [Le Fe]) _].
  assert (Hc' : length (chroma_weight_l0_flag t) = (if (cat =? 0)%Z then O else Z.to_nat (n + 1)) /\ Forall (u_ok 1) (chroma_weight_l0_flag t)).
  { unfold optf, vec in Hc. destruct (cat =? 0); cbn [negb] in Hc; [rewrite Hc; split; [reflexivity|constructor]|tauto]. }
  destruct Hc' as [Lc Fc]. split; [lia|]. split; [destruct (cat =? 0); lia|]. split; [|split; [|split; assumption]].
  - apply (flags_entries fst luma_weight_ok (luma_weight_l0_flag t) (pwt_entries t) []); [congruence|]. cbn [length app Z.of_nat].
    eapply all_from_impl; [|exact Fe]. intros j e _ [H _]. exact H.
  - destruct (cat =? 0).
    + apply length_zero_iff_nil in Lc. rewrite Lc in *. change (set_flags []) with O.
      assert (G : forall l i, all_from i (pwt_entry_ok (luma_weight_l0_flag t) []) l ->
        length (flat_map (fun e : option (Z * Z) * option quad => match snd e with Some p => [p] | None => [] end) l) = O).
      { induction l as [|e l IH]; intros i H; [reflexivity|]. destruct H as [[_ H1] H2]. rewrite znth_nil in H1. unfold optf, nz in H1. cbn in H1.
        change (length ((match snd e with Some p => [p] | None => [] end) ++ flat_map (fun e : option (Z * Z) * option quad => match snd e with Some p => [p] | None => [] end) l) = O).
        rewrite H1. cbn [app]. apply (IH (i + 1) H2). }
      apply (G _ 0 Fe).
    + apply (flags_entries snd (quad_ok se_ok) (chroma_weight_l0_flag t) (pwt_entries t) []); [congruence|]. cbn [length app Z.of_nat].
      eapply all_from_impl; [|exact Fe]. intros j e _ [_ H]. exact H.
Qed.
Definition C39_table : pwt := mkPWT 5 (-1) [1; 0] [0; 1] [(Some (3, -4), None); (None, Some (mkQ 1 2 3 (-4)))].
Example C39_case : pwt_ok 1 1 C39_table /\ on_buffer (ParsePredWeightTable 1 1) (pack (enc_pwt 1 1 C39_table)) = Done (Some C39_table).
Proof. split; [unfold C39_table; solve_ok|vm_compute; reflexivity]. Qed.

(** * C37 *)
(** Whatever is returned refers to stored parameter sets, has all its fields in the ranges these parameter sets give and is encoded, in the
    layout they determine, by the consumed bits (up to the aliases of se(v) codewords, see [agree] and C03). *)
Theorem C37_accepted : forall st nut b h b', wf b -> state_ok st -> ParseSliceSegmentHeader nut st b = Ok h b' ->
  exists p s, refers_to st (slice_pic_parameter_set_id h) p s /\ slice_ok false (own_rps s) nut s p h /\ wf b' /\
  exists bs, rem b = bs ++ rem b' /\ b' = adv b (length bs) /\ agree bs (enc_slice false nut s p h).
Proof.
  intros st nut b h b' W Hs E. pose proof (wp_slice ovf_any st nut Hs ovf_in_any (or_intror (fun _ => eq_refl)) b W) as H. rewrite E in H. destruct H as (bs & S & p & s & R & O & A).
  exists p, s. split; [exact R|]. split; [exact O|]. split; [eapply steps_wf; eassumption|]. destruct S as [S1 S2]. exists bs. auto.
Qed.
(** The only undefined behaviour is signed overflow, and if the stored reference picture sets are within limits it needs 24 consecutive zero
    bits in the header. *)
Theorem C37_safe : forall st nut b, wf b -> state_ok st ->
  match ParseSliceSegmentHeader nut st b with
  | Ok _ b' | Fail b' => wf b' /\ bb_bytes b' = bb_bytes b /\ pos b <= pos b'
  | Err e => e = SignedOverflow /\ (pocs_ok st -> zrun 24 (rem b))
  end.
Proof.
  intros st nut b W Hs. pose proof (wp_slice ovf_any st nut Hs ovf_in_any (or_intror (fun _ => eq_refl)) b W) as H.
  assert (H2 : pocs_ok st -> _) by (intros P; exact (wp_slice ovf_only st nut Hs ovf_in_only (or_introl P) b W)).
  destruct (ParseSliceSegmentHeader nut st b) as [h b'|b'|e].
  - destruct H as (bs & S & _). eapply steps_facts; eassumption.
  - destruct H as (bs & S). eapply steps_facts; eassumption.
  - split; [exact H|]. intros P. apply H2, P.
Qed.
(** Every header is returned from its encoding. *)
Theorem C37_layout_of_the_code : forall st nut b s p h rest, wf b -> sps_ok_in s -> pps_ok_out p -> refers_to st (slice_pic_parameter_set_id h) p s ->
  slice_ok false (own_rps_std s) nut s p h -> rem b = enc_slice false nut s p h ++ rest ->
  ParseSliceSegmentHeader nut st b = Ok h (adv b (length (enc_slice false nut s p h))).
Proof.
  intros st nut b s p h rest W Os Op R O Eb. eapply (parses_slice st nut s p h); try eassumption.
  - apply sps_in_out, Os.
  - intros r. apply parses_own_rps, Os.
Qed.
(** Slices that refer to a parameter set that is not stored are rejected. *)
Theorem C37_missing_parameter_sets : forall st nut b h b', wf b -> state_ok st -> ParseSliceSegmentHeader nut st b = Ok h b' ->
  exists p x s y, st_pps st (slice_pic_parameter_set_id h) = Some (p, x) /\ st_sps st (pps_seq_parameter_set_id p) = Some (s, y).
Proof.
  intros st nut b h b' W Hs E. destruct (C37_accepted st nut b h b' W Hs E) as (p & s & [[x Hp] [y Hy]] & _). eauto 8.
Qed.

(** Where the code does something else than the standard with the fields it has (the full comparison is in PropsSliceStd.v). *)
Definition slice_no_deviation (s : sps) (p : pps) (h : slice_header) : Prop :=
  (sample_adaptive_offset_enabled_flag s <> 0 \/ CAT true s = 0 \/ sh_pred_weight_table h = None) /\
  (dependent_slice_segment_flag h = 0 -> slice_type h = 0 \/ slice_type h = 1 -> num_ref_idx_active_override_flag h = 0 ->
     num_ref_idx_l0_default_active_minus1 p = 0 /\ (slice_type h = 0 -> num_ref_idx_l1_default_active_minus1 p = 0)) /\
  (dependent_slice_segment_flag h = 0 -> deblocking_filter_override_flag h = 0 -> pps_deblocking_filter_disabled_flag p = 0) /\
  (first_slice_segment_in_pic_flag h <> 0 \/ 1 < PicSizeInCtbs s) /\
  (num_entry_point_offsets h <= ep_limit false s p).
Lemma std_slice RPS nut s p h : slice_no_deviation s p h -> slice_ok true RPS nut s p h ->
  slice_ok false RPS nut s p h /\ enc_slice true nut s p h = enc_slice false nut s p h.
Proof.
  intros (D1 & D2 & D3 & D4 & D5) O.
  assert (C : CAT true s = CAT false s \/ (nz (sample_adaptive_offset_enabled_flag s) = false /\ sh_pred_weight_table h = None)).
  { unfold CAT. cbn [orb]. destruct (nz (sample_adaptive_offset_enabled_flag s)) eqn:Es; [auto|]. destruct D1 as [D1|[D1|D1]]; [unfold nz in Es; lia| |auto].
    left. unfold CAT in D1. cbn [orb] in D1. rewrite D1. reflexivity. }
  split.
  - unfold slice_ok in *. cbv zeta in *. repeat lazymatch type of O with _ /\ _ => destruct O as [?H O] end.
    repeat lazymatch goal with |- _ /\ _ => split; [try assumption|] end; try assumption.
    + cbn [orb]. destruct D4 as [D4|D4]; [unfold nz; lia|]. rewrite orb_comm. replace (CeilLog2 (PicSizeInCtbs s) =? 0) with false; [reflexivity|].
      pose proof (Z.log2_up_pos (PicSizeInCtbs s) D4). unfold CeilLog2. lia.
    + destruct C as [C|[C _]]; [rewrite <- C; assumption|]. rewrite C in *. rewrite andb_false_r in *. assumption.
    + clear - D2 H20 O H19. unfold inferred in *. cbn [andb] in *.
      destruct (negb (nz (dependent_slice_segment_flag h)) && ((slice_type h =? 1) || (slice_type h =? 0))) eqn:Epb; cbn [andb] in *; [|assumption].
      destruct (nz (num_ref_idx_active_override_flag h)) eqn:En; [assumption|]. unfold nz in En, Epb. unfold optf in *. destruct D2 as [D2 _]; [lia|lia|lia|]. congruence.
    + clear - D2 H21. unfold inferred in *. cbn [andb] in *.
      destruct (negb (nz (dependent_slice_segment_flag h)) && ((slice_type h =? 1) || (slice_type h =? 0))) eqn:Epb; cbn [andb] in *; [|assumption].
      destruct (nz (num_ref_idx_active_override_flag h)) eqn:En; cbn [andb] in *; [destruct (slice_type h =? 0); assumption|].
      unfold nz in En, Epb. unfold optf in *. destruct D2 as [_ D2]; [lia|lia|lia|]. destruct (Z.eqb_spec (slice_type h) 0); [rewrite H21; auto|assumption].
    + destruct C as [C|[_ C]]; [rewrite <- C; assumption|]. rewrite C in *. unfold optf, is_some in *.
      match goal with H : if ?c then False else None = None |- _ => destruct c; [contradiction|reflexivity] end.
    + unfold inferred in *. cbn [andb]. destruct (nz (deblocking_filter_override_flag h)) eqn:En; [assumption|].
      unfold optf in *. cbn [andb] in *. destruct (nz (dependent_slice_segment_flag h)) eqn:Ed; cbn [negb] in *; [assumption|].
      unfold nz in En, Ed. rewrite D3 in * by lia. assumption.
    + destruct (negb (nz (tiles_enabled_flag p) || nz (entropy_coding_sync_enabled_flag p))); [reflexivity|]. cbn [orb]. lia.
  - unfold enc_slice. cbv zeta. destruct C as [C|[C1 C2]]; [rewrite C; reflexivity|]. rewrite C1, C2. rewrite andb_false_r. reflexivity.
Qed.
(** * C38 *)
(** 7.4.7.1, in the three modes; wrap-around of the code's limit only makes it smaller. *)
Theorem C38_limit : forall st nut b h b', wf b -> state_ok st -> ParseSliceSegmentHeader nut st b = Ok h b' ->
  exists p s, refers_to st (slice_pic_parameter_set_id h) p s /\
  let tiles := nz (tiles_enabled_flag p) in
  let sync := nz (entropy_coding_sync_enabled_flag p) in
  0 <= num_entry_point_offsets h /\
  (tiles = false -> sync = false -> num_entry_point_offsets h = 0) /\
  (tiles = false -> sync = true -> num_entry_point_offsets h <= PicHeightInCtbs s - 1) /\
  (tiles = true -> sync = false -> num_entry_point_offsets h <= (num_tile_columns_minus1 p + 1) * (num_tile_rows_minus1 p + 1) - 1) /\
  (tiles = true -> sync = true -> num_entry_point_offsets h <= (num_tile_columns_minus1 p + 1) * PicHeightInCtbs s - 1).
Proof.
  intros st nut b h b' W Hs E. destruct (C37_accepted st nut b h b' W Hs E) as (p & s & R & O & _). exists p, s. split; [exact R|]. cbv zeta.
  assert (A : optf (nz (tiles_enabled_flag p) || nz (entropy_coding_sync_enabled_flag p)) ue_ok 0 (num_entry_point_offsets h) /\
    (negb (nz (tiles_enabled_flag p) || nz (entropy_coding_sync_enabled_flag p)) || (num_entry_point_offsets h <=? ep_limit false s p)) = true)
    by (unfold slice_ok in O; cbv zeta in O; tauto). clear O. destruct A as [A1 A2].
  destruct Hs as [Hs Hp]. destruct R as [[xp Rp] [xs Rs]].
  pose proof (sps_facts_of _ _ _ (Hs _ _ _ Rs)) as Fs. pose proof (pps_facts_of _ _ _ (Hp _ _ _ Rp)) as Fp. destruct Fs, Fp. clear - A1 A2 sf_hr pf_cols pf_rows.
  unfold ep_limit in A2. cbv zeta in A2. unfold optf, ue_ok in A1.
  destruct (nz (tiles_enabled_flag p)), (nz (entropy_coding_sync_enabled_flag p)); cbn [orb negb] in *;
    (split; [lia|]); (split; [intros; first [discriminate|lia]|]); (split; [intros; first [discriminate|lia]|]); (split; [intros; try discriminate|intros; try discriminate]).
  - pose proof (Z.mod_le ((num_tile_columns_minus1 p + 1) * (PicHeightInCtbs s - 1)) (2 ^ 32) ltac:(nia) ltac:(lia)). nia.
  - pose proof (Z.mod_le ((num_tile_columns_minus1 p + 1) * (num_tile_rows_minus1 p + 1) - 1) (2 ^ 32) ltac:(nia) ltac:(lia)). nia.
Qed.
(** Exactly that many offsets, each of offset_len_minus1 + 1 <= 32 bits. *)
Theorem C38_count : forall st nut b h b', wf b -> state_ok st -> ParseSliceSegmentHeader nut st b = Ok h b' ->
  Z.of_nat (length (entry_point_offset_minus1 h)) = num_entry_point_offsets h /\
  0 <= offset_len_minus1 h <= 31 /\ Forall (fun v => 0 <= v < 2 ^ (offset_len_minus1 h + 1)) (entry_point_offset_minus1 h).
Proof.
  intros st nut b h b' W Hs E. destruct (C37_accepted st nut b h b' W Hs E) as (p & s & R & O & _).
  remember (nz (tiles_enabled_flag p) || nz (entropy_coding_sync_enabled_flag p)) as ep.
  assert (A : optf ep ue_ok 0 (num_entry_point_offsets h) /\ optf (ep && (0 <? num_entry_point_offsets h)) (ue_le 31) 0 (offset_len_minus1 h) /\
    optf (ep && (0 <? num_entry_point_offsets h)) (vec (num_entry_point_offsets h) (u_ok (offset_len_minus1 h + 1))) [] (entry_point_offset_minus1 h))
    by (unfold slice_ok in O; cbv zeta in O; rewrite <- Heqep in O; tauto).
  destruct A as (A1 & A2 & A3). clear - A1 A2 A3. unfold optf, ue_ok, ue_le, vec in *. destruct ep; cbn [andb] in *.
  - destruct (0 <? num_entry_point_offsets h) eqn:E.
    + split; [lia|]. split; [lia|]. apply A3.
    + rewrite A3. split; [cbn; lia|]. split; [lia|constructor].
  - rewrite A3. split; [cbn; lia|]. split; [lia|constructor].
Qed.

(** * Concrete cases *)
(** C31_sps (30 x 17 CTBs, 8-bit POC lsb, two short-term sets, two long-term pictures, SAO, temporal MVs, screen content) and a PPS
    that enables everything the header depends on. *)
Definition C37_pps : pps :=
  mkPPS 3 0 1 1 2 1 1 0 0 (-11) 1 1 1 2 (-12) 12 1 1 0 1 1 1 2 1 0 [4; 5] [3] 1 1 1 1 0 6 (-6) 0 None 0 3 1 1 0 0 0 1 0 None
    (Some (mkPSC 0 1 1 (-7) 12 3 0 0 0 0 0 [])).
Definition C37_state : state :=
  mkState (fun _ => None) (fun k => if k =? 0 then Some (C31_sps, 0) else None) (fun k => if k =? 3 then Some (C37_pps, 0) else None).
Definition C37_header : slice_header :=
  mkSH 0 0 3 0 100 [1; 0] 1 1 0 200 0 (Some (mkRPS 1 1 1 0 [(1,1);(1,1);(1,1);(1,1)] 3 1 [(0,1);(0,1);(2,1)] [(0,1)])) 0 1 1
    [mkLT 1 0 0 1 5; mkLT 0 77 1 0 0] 1 1 1 1 1 0 0 1 1 1 (Some C39_table) 2 1 (-5) 3 (-3) 1 2 (-1) 1 0 2 (-2) 1 2 7 [10;255] 2 [1;2] 1 0.
Lemma C37_own : own_rps_std C31_sps (mkRPS 1 1 1 0 [(1,1);(1,1);(1,1);(1,1)] 3 1 [(0,1);(0,1);(2,1)] [(0,1)]).
Proof.
  split; [|intros _; vm_compute; auto]. unfold own_rps, rps_ok. split; [solve_ok|]. split; [vm_compute; discriminate|]. split; [solve_ok|].
  change (nz (inter_ref_pic_set_prediction_flag (mkRPS 1 1 1 0 [(1,1);(1,1);(1,1);(1,1)] 3 1 [(0,1);(0,1);(2,1)] [(0,1)]))) with true. cbv iota. solve_ok.
Qed.
Lemma C37_pps_ok : pps_ok_out C37_pps.
Proof. unfold pps_ok_out, pps_ok. cbv zeta. unfold C37_pps. solve_ok. Qed.
Lemma C31_sps_ok : sps_ok_in C31_sps.
Proof.
  destruct C31_case as (O & [D1 D2] & _). exact (proj1 (sps_std_in C31_sps (conj D1 D2) O)).
Qed.
(** From bytes, with emulation prevention. *)
Theorem C37_data_entry_point : forall st nut data rbsp s p h rest, byte_string data -> UnescapeRbsp data = Done rbsp -> sps_ok_in s -> pps_ok_out p ->
  refers_to st (slice_pic_parameter_set_id h) p s -> slice_ok false (own_rps_std s) nut s p h -> bits_of rbsp = enc_slice false nut s p h ++ rest ->
  on_data (ParseSliceSegmentHeader nut st) data = Done (Some h).
Proof.
  intros st nut data rbsp s p h rest D E Os Op R O Eb. destruct (Unescape_byte_string data D) as (rbsp' & E' & [F L]). rewrite E in E'. injection E' as <-.
  unfold on_data, on_buffer, init_ok. rewrite E. replace (Z.of_nat (length rbsp) <=? u32_max) with true by (unfold u32_max; lia).
  rewrite (C37_layout_of_the_code st nut _ s p h rest (wf_mk rbsp F L) Os Op R O Eb). reflexivity.
Qed.

(** More PPSs and headers *)
Definition C37_pps1 : pps :=
  mkPPS 3 0 0 0 0 0 0 1 0 0 0 0 0 0 0 0 0 0 0 0 0 0 0 0 0 [] [] 0 0 0 0 0 0 0 0 None 0 0 0 0 0 0 0 0 0 None None.
Definition C37_state1 (p : pps) : state := mkState (fun _ => None) (fun k => if k =? 0 then Some (C31_sps, 0) else None) (fun k => if k =? 3 then Some (p, 0) else None).
Definition C37_header1 : slice_header :=
  mkSH 1 0 3 0 0 [] 1 0 0 200 1 None 0 0 0 [] 1 0 0 0 1 0 0 0 1 1 None 2 0 5 0 0 0 0 0 0 0 0 0 0 0 0 [] 0 [] 0 0.
Definition C37_pps2 : pps :=
  mkPPS 3 0 0 0 0 0 0 0 0 0 0 0 0 0 0 0 0 0 0 0 1 1 1 0 1 [] [] 0 0 0 0 0 0 0 0 None 0 0 0 0 0 0 0 0 0 None None.
Definition C37_header2 : slice_header :=
  mkSH 1 0 3 0 0 [] 2 0 0 200 1 None 0 0 0 [] 0 0 0 0 0 0 0 0 1 0 None 0 0 5 0 0 0 0 0 0 0 0 0 0 33 7 (repeat 1 33) 0 [] 0 0.
Definition C37_pps3 : pps :=
  mkPPS 3 0 0 0 0 0 0 0 0 0 0 0 0 0 0 0 0 0 0 0 0 0 0 0 0 [] [] 0 1 1 0 1 0 0 0 None 0 0 1 0 0 0 0 0 0 None None.
Definition C37_header3 : slice_header :=
  mkSH 1 0 3 0 0 [] 2 0 0 200 1 None 0 0 0 [] 0 0 0 0 0 0 0 0 1 0 None 0 0 5 0 0 0 0 0 0 1 0 0 0 0 0 [] 1 [7] 0 0.

(** * C38: both hypotheses (an accepted slice with entry points) are met *)
Example C38_case : exists h, on_data (ParseSliceSegmentHeader 1 C37_state) (pack (enc_slice false 1 C31_sps C37_pps C37_header ++ [true])) = Done (Some h) /\
  num_entry_point_offsets h = 2 /\ entry_point_offset_minus1 h = [10; 255] /\ state_ok C37_state.
Proof.
  exists C37_header. split; [vm_compute; reflexivity|]. split; [reflexivity|]. split; [reflexivity|]. split; intros k x y E.
  - cbn in E. destruct (k =? 0); [|discriminate]. injection E as <- _. apply sps_in_out, C31_sps_ok.
  - cbn in E. destruct (k =? 3); [|discriminate]. injection E as <- _. apply C37_pps_ok.
Qed.
(** One more entry point than allowed is rejected. *)
Example C38_rejected : on_data (ParseSliceSegmentHeader 1 (C37_state1 C37_pps2))
  (pack (enc_slice false 1 C31_sps C37_pps2 (mkSH 1 0 3 0 0 [] 2 0 0 200 1 None 0 0 0 [] 0 0 0 0 0 0 0 0 1 0 None 0 0 5 0 0 0 0 0 0 0 0 0 0 34 7 (repeat 1 34) 0 [] 0 0))) = Done None.
Proof. vm_compute. reflexivity. Qed.
