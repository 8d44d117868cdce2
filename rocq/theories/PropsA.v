(** C20, C25-C28, C41: NAL unit header, profile_tier_level, profile type, hrd_parameters, vui_parameters, access unit delimiter. *)
From Coq Require Import ZArith List Bool Lia ZifyBool ZifyNat.
From Verif Require Import MBase MBitBuffer Spec BitsFacts Reader ReaderFacts Rules Syntax MCommon CommonFacts PropsBits PropsCommon
  MSyntaxA SpecA FactsA MProfile SpecProfile Api.
Import ListNotations.
Open Scope Z_scope.

(** * C20 *)
Theorem C20_exact : reads_exactly ParseNalUnitHeader nal_header_ok enc_nal_header.
Proof. apply reads_exactly_intro; [apply parses_nal_header|apply wp_nal_header]. Qed.

Lemma enc_u_bval_n n : forall l, length l = n -> enc_u n (bval l) = l.
Proof. intros l <-. apply enc_u_bval. Qed.

Theorem C20_succeeds_iff_16_bits : forall b, wf b ->
  (exists h b', ParseNalUnitHeader b = Ok h b') <-> 16 <= remaining b.
Proof.
  intros b W. rewrite remaining_spec by assumption. destruct (C20_exact b W) as [_ H]. split.
  - intros (h & b' & E). apply H in E. destruct E as (_ & (rest & E) & _). rewrite E, app_length.
    change (length (enc_nal_header h)) with 16%nat. lia.
  - intros L. set (l := rem b) in *.
    assert (E : l = firstn 1 l ++ firstn 6 (skipn 1 l) ++ firstn 6 (skipn 7 l) ++ firstn 3 (skipn 13 l) ++ skipn 16 l).
    { rewrite <- (firstn_skipn 1 l) at 1. f_equal.
      rewrite <- (firstn_skipn 6 (skipn 1 l)) at 1. rewrite skipn_skipn'. cbn [Nat.add]. f_equal.
      rewrite <- (firstn_skipn 6 (skipn 7 l)) at 1. rewrite skipn_skipn'. cbn [Nat.add]. f_equal.
      rewrite <- (firstn_skipn 3 (skipn 13 l)) at 1. rewrite skipn_skipn'. reflexivity. }
    exists (mkNH (bval (firstn 1 l)) (bval (firstn 6 (skipn 1 l))) (bval (firstn 6 (skipn 7 l))) (bval (firstn 3 (skipn 13 l)))).
    eexists. apply H. split; [|split; [|reflexivity]].
    + unfold nal_header_ok, u_ok. cbn [forbidden_zero_bit nal_unit_type nuh_layer_id nuh_temporal_id_plus1].
      assert (R : forall n k, (n + k <= 16)%nat -> 0 <= bval (firstn n (skipn k l)) < 2 ^ Z.of_nat n).
      { intros n k Hk. pose proof (bval_range (firstn n (skipn k l))) as B. rewrite firstn_length, skipn_length in B.
        replace (Nat.min n (length l - k)) with n in B by lia. exact B. }
      pose proof (R 1 0 ltac:(lia))%nat. pose proof (R 6 1 ltac:(lia))%nat. pose proof (R 6 7 ltac:(lia))%nat.
      pose proof (R 3 13 ltac:(lia))%nat. rewrite skipn_O in *. tauto.
    + exists (skipn 16 l). unfold enc_nal_header.
      cbn [forbidden_zero_bit nal_unit_type nuh_layer_id nuh_temporal_id_plus1 concat].
      rewrite !enc_u_bval_n by (rewrite firstn_length, ?skipn_length; lia). rewrite app_nil_r, <- !app_assoc. exact E.
Qed.

(** GetNalUnitType gives the type field of the same header (it does not undo emulation prevention, which cannot occur in two bytes). *)
Theorem C20_GetNalUnitType : forall data, byte_string data ->
  exists r, GetNalUnitType data = Done r /\
  forall ty, r = Some ty <-> exists h b', ParseNalUnitHeader (mk_bb data) = Ok h b' /\ ty = nal_unit_type h.
Proof.
  intros data [F L]. unfold GetNalUnitType, on_buffer, init_ok.
  replace (Z.of_nat (length data) <=? u32_max) with true by (unfold u32_max; lia).
  destruct (C20_exact _ (wf_mk data F L)) as [H _]. unfold bind.
  destruct (ParseNalUnitHeader (mk_bb data)) as [h b'|b'|e]; [| |contradiction].
  - exists (Some (nal_unit_type h)). split; [reflexivity|]. intros ty. split.
    + intros E. injection E as <-. eauto.
    + intros (h' & b'' & E & ->). injection E as <- _. reflexivity.
  - exists None. split; [reflexivity|]. intros ty. split; [discriminate|]. intros (h' & b'' & E & _). discriminate E.
Qed.

Example C20_case : ParseNalUnitHeader (mk_bb [0x42; 0x01; 0xff]) = Ok (mkNH 0 33 0 1) (mkBB [0x42; 0x01; 0xff] 3 2 0) /\
  GetNalUnitType [0x42; 0x01] = Done (Some 33) /\ GetNalUnitType [0x42] = Done None.
Proof. vm_compute. auto. Qed.

(** * C25 *)
(** The layout the code reads, exactly, for every input: the standard's, except that the presence of sub_layer_level_idc is
    controlled by sub_layer_profile_present_flag ([std] = false in [enc_ptl]). *)
Theorem C25_layout_of_the_code : forall present n,
  reads_exactly (ParseProfileTierLevel present n) (ptl_ok false present n) (enc_ptl false present n).
Proof. intros. apply reads_exactly_intro; [apply parses_ptl|apply wp_ptl]. Qed.

Theorem C25_data_entry_point : forall present n,
  data_exactly (on_data (ParseProfileTierLevel present n)) (ptl_ok false present n) (enc_ptl false present n).
Proof. intros. apply on_data_exactly, C25_layout_of_the_code. Qed.

(** Hence the standard's layout whenever the two presence flags of every sub-layer agree (in particular without sub-layers). *)
Definition same_presence (s : ptl) : Prop := Forall (fun fl => fst fl = snd fl) (ptl_sub_layer_flags s).

Lemma same_presence_enc flags l : Forall (fun fl : Z * Z => fst fl = snd fl) flags -> forall i,
  enc_from i (enc_sub_layer true flags) l = enc_from i (enc_sub_layer false flags) l /\
  (all_from i (sub_layer_ok true flags) l <-> all_from i (sub_layer_ok false flags) l).
Proof.
  intros F. assert (G : forall i, level_gate true (znth flags i (0, 0)) = level_gate false (znth flags i (0, 0))).
  { intros i. unfold level_gate, znth. destruct (nth_in_or_default (Z.to_nat i) flags (0, 0)) as [H|H].
    - rewrite Forall_forall in F. rewrite (F _ H). reflexivity.
    - rewrite H. reflexivity. }
  induction l as [|a l IH]; intros i; [split; [reflexivity|tauto]|].
  destruct (IH (i + 1)) as [IH1 IH2].
  change (enc_sub_layer true flags i a ++ enc_from (i + 1) (enc_sub_layer true flags) l =
          enc_sub_layer false flags i a ++ enc_from (i + 1) (enc_sub_layer false flags) l /\
          (sub_layer_ok true flags i a /\ all_from (i + 1) (sub_layer_ok true flags) l <->
           sub_layer_ok false flags i a /\ all_from (i + 1) (sub_layer_ok false flags) l)).
  rewrite IH1, IH2. unfold enc_sub_layer, sub_layer_ok. rewrite G. tauto.
Qed.

Lemma same_presence_ptl present n s : same_presence s ->
  enc_ptl true present n s = enc_ptl false present n s /\ (ptl_ok true present n s <-> ptl_ok false present n s).
Proof.
  intros H. destruct (same_presence_enc _ (ptl_sub_layers s) H 0) as [E1 E2]. unfold enc_ptl, ptl_ok, veci.
  rewrite E1, E2. split; [reflexivity|tauto].
Qed.

(** Not for structures with a sub-layer whose two presence flags differ (refuted below). *)
Theorem C25_standard_layout : forall present n b s rest, wf b -> same_presence s ->
  ptl_ok true present n s -> rem b = enc_ptl true present n s ++ rest ->
  ParseProfileTierLevel present n b = Ok s (adv b (length (enc_ptl true present n s))).
Proof.
  intros present n b s rest W H O E. destruct (same_presence_ptl present n s H) as [E1 E2]. rewrite E1 in *.
  apply (C25_layout_of_the_code present n b W). split; [apply E2, O|]. split; [eauto|reflexivity].
Qed.
Theorem C25_accepts_only_standard : forall present n b s b', wf b ->
  ParseProfileTierLevel present n b = Ok s b' -> same_presence s ->
  ptl_ok true present n s /\ (exists rest, rem b = enc_ptl true present n s ++ rest) /\ b' = adv b (length (enc_ptl true present n s)).
Proof.
  intros present n b s b' W E H. destruct (same_presence_ptl present n s H) as [E1 E2]. rewrite E1, E2.
  apply (C25_layout_of_the_code present n b W). exact E.
Qed.

(** Number of elements: one pair of presence flags per sub-layer. *)
Theorem C25_sub_layer_count : forall present n b s b', wf b -> 0 <= n -> ParseProfileTierLevel present n b = Ok s b' ->
  Z.of_nat (length (ptl_sub_layer_flags s)) = n.
Proof.
  intros present n b s b' W Hn E. apply (C25_layout_of_the_code present n b W) in E.
  destruct E as ((_ & _ & (L & _) & _) & _). lia.
Qed.

(** A structure of the standard that the parser misreads: one sub-layer with a level but no profile; the parser
    reports no level and stops 8 bits early. *)
Theorem C25_refuted : exists present n s bytes,
  ptl_ok true present n s /\ bits_of bytes = enc_ptl true present n s /\ Forall is_byte bytes /\
  (exists s' b', ParseProfileTierLevel present n (mk_bb bytes) = Ok s' b' /\ s' <> s /\ 0 < remaining b').
Proof.
  exists false, 1, (mkPTL None 93 [(0, 1)] [0; 0; 0; 0; 0; 0; 0] [(None, 60)]), [93; 64; 0; 60].
  split; [|split; [vm_compute; reflexivity|split]].
  - solve_ok.
  - repeat constructor; discriminate.
  - eexists. eexists. split; [vm_compute; reflexivity|]. split; [discriminate|vm_compute; reflexivity].
Qed.

Definition C25_example : profile_info :=
  mkPI 0 0 1 ([0; 1; 1] ++ repeat 0 29) 1 0 0 1 0 0 0 0 0 0 0 0 0 0 0 0 0 0 0 0 0.
Example C25_case :
  let s := mkPTL (Some C25_example) 93 [(1, 1); (0, 0)] (repeat 0 6) [(Some C25_example, 60); (None, 0)] in
  same_presence s /\ ptl_ok true true 2 s.
Proof. intros s. solve_ok. Qed.

(** * C26 *)
Definition flags01 (s : profile_info) : Prop :=
  u_ok 1 (max_14bit_constraint_flag s) /\ u_ok 1 (max_12bit_constraint_flag s) /\ u_ok 1 (max_10bit_constraint_flag s) /\
  u_ok 1 (max_8bit_constraint_flag s) /\ u_ok 1 (max_422chroma_constraint_flag s) /\ u_ok 1 (max_420chroma_constraint_flag s) /\
  u_ok 1 (max_monochrome_constraint_flag s) /\ u_ok 1 (intra_constraint_flag s) /\ u_ok 1 (one_picture_only_constraint_flag s) /\
  u_ok 1 (lower_bit_rate_constraint_flag s).

Fixpoint all01 (n : nat) (f : list Z -> bool) : bool :=
  match n with
  | O => f []
  | S k => all01 k (fun l => f (0 :: l)) && all01 k (fun l => f (1 :: l))
  end.
Global Arguments all01 : simpl never.
Lemma all01_spec n : forall f, all01 n f = true -> forall l, length l = n -> Forall (u_ok 1) l -> f l = true.
Proof.
  induction n as [|n IH]; intros f H l L F; destruct l as [|x l]; try discriminate; [exact H|].
  change (all01 n (fun l => f (0 :: l)) && all01 n (fun l => f (1 :: l)) = true) in H. apply andb_prop in H. destruct H as [H0 H1]. inversion F as [|? ? Hx F']; subst. injection L as L.
  assert (x = 0 \/ x = 1) as [-> | ->] by (unfold u_ok in Hx; lia).
  - exact (IH _ H0 l L F').
  - exact (IH _ H1 l L F').
Qed.

Definition pi_of (idc : Z) (l : list Z) : profile_info :=
  let f i := nth i l 0 in
  mkPI 0 0 idc [] 0 0 0 0 (f 1%nat) (f 2%nat) (f 3%nat) (f 4%nat) (f 5%nat) (f 6%nat) (f 7%nat) 0 (f 8%nat) (f 9%nat) (f 0%nat) 0 0 0 0 0 0.

Theorem C26_profile_type : forall s, flags01 s -> GetProfileType s = profile_spec s.
Proof.
  intros s (H0 & H1 & H2 & H3 & H4 & H5 & H6 & H7 & H8 & H9).
  set (l := [max_14bit_constraint_flag s; max_12bit_constraint_flag s; max_10bit_constraint_flag s; max_8bit_constraint_flag s;
             max_422chroma_constraint_flag s; max_420chroma_constraint_flag s; max_monochrome_constraint_flag s;
             intra_constraint_flag s; one_picture_only_constraint_flag s; lower_bit_rate_constraint_flag s]).
  destruct (Z.eq_dec (profile_space s) 0) as [E|E].
  2: { unfold GetProfileType, nz. destruct (Z.eqb_spec (profile_space s) 0); [contradiction|]. cbn [negb].
       unfold profile_spec. destruct (profile_space s); [contradiction|reflexivity..]. }
  assert (G : GetProfileType s = GetProfileType (pi_of (profile_idc s) l)).
  { unfold GetProfileType. rewrite E. reflexivity. }
  assert (S : profile_spec s = profile_spec (pi_of (profile_idc s) l)).
  { unfold profile_spec. rewrite E. reflexivity. }
  rewrite G, S.
  assert (F : Forall (u_ok 1) l) by (unfold l; repeat (apply Forall_cons; [assumption|]); apply Forall_nil).
  assert (L : length l = 10%nat) by reflexivity. clearbody l. clear G S E H0 H1 H2 H3 H4 H5 H6 H7 H8 H9.
  destruct (Z_le_dec 0 (profile_idc s)); [|unfold GetProfileType, profile_spec; cbn [pi_of profile_idc profile_space];
     destruct (profile_idc s); try lia; reflexivity].
  destruct (Z_lt_dec (profile_idc s) 14).
  - assert (C : forallb (fun k => all01 10 (fun l => GetProfileType (pi_of (Z.of_nat k) l) =? profile_spec (pi_of (Z.of_nat k) l))) (seq 0 14) = true)
      by (vm_compute; reflexivity).
    rewrite forallb_forall in C. specialize (C (Z.to_nat (profile_idc s))). rewrite in_seq in C.
    specialize (C ltac:(lia)). cbv beta in C. rewrite Z2Nat.id in C by lia. pose proof (all01_spec 10 _ C l L F) as Q. cbv beta in Q.
    apply Z.eqb_eq. exact Q.
  - unfold GetProfileType, profile_spec. cbn [pi_of profile_idc profile_space nz]. unfold nz. cbn [Z.eqb negb].
    repeat match goal with |- context [profile_idc s =? ?k] => destruct (Z.eqb_spec (profile_idc s) k); [lia|] end.
    destruct (profile_idc s) as [|p|p]; [reflexivity| |reflexivity].
    do 4 (destruct p as [p|p|]; try lia; try reflexivity).
Qed.

(** It applies to every structure the parser returns. *)
Theorem C26_parsed_structures : forall b s b', wf b -> ParseProfileInfo b = Ok s b' -> GetProfileType s = profile_spec s.
Proof.
  intros b s b' W E. apply C26_profile_type. pose proof (wp_profile_info b W) as H. rewrite E in H.
  destruct H as (bs & _ & H & _). unfold profile_info_ok in H. cbv zeta in H.
  assert (O : forall (c : bool) v, optf c (u_ok 1) 0 v -> u_ok 1 v).
  { intros c v Hv. destruct c; unfold optf, u_ok in *; lia. }
  unfold flags01. repeat (destruct H as [?H H]). repeat split; eapply O; eassumption.
Qed.

Example C26_case : GetProfileType C25_example = PT_MAIN /\
  GetProfileType (pi_of 4 [0; 1; 1; 0; 1; 0; 0; 1; 0; 0]) = PT_MAIN_422_10_INTRA /\
  flags01 (pi_of 4 [0; 1; 1; 0; 1; 0; 0; 1; 0; 0]).
Proof. vm_compute. repeat (split || discriminate). Qed.

(** * C27 *)
(** Exactly the standard's layout, but an absent fixed_pic_rate_within_cvs_flag is taken as 0 (first parameter of [hrd_ok]). *)
Theorem C27_layout_of_the_code : forall common n,
  reads_exactly (ParseHrdParameters common n) (hrd_ok 0 common n) (enc_hrd common).
Proof. intros. apply reads_exactly_intro; [apply parses_hrd|apply wp_hrd]. Qed.

(** [explicit_cvs s]: no sub-layer leaves fixed_pic_rate_within_cvs_flag to inference. *)
Definition explicit_cvs (s : hrd) : Prop := Forall (fun h => fixed_pic_rate_general_flag h = 0) (hrd_sub_layers s).
Lemma hrd_ok_inferred common n s : explicit_cvs s -> (hrd_ok 1 common n s <-> hrd_ok 0 common n s).
Proof.
  intros H. assert (G : forall nal vcl sp h, fixed_pic_rate_general_flag h = 0 -> hrd_sub_ok 1 nal vcl sp h <-> hrd_sub_ok 0 nal vcl sp h).
  { intros nal vcl sp h E. unfold hrd_sub_ok. rewrite E. tauto. }
  unfold hrd_ok, vec.
  assert (Q : forall nal vcl sp, Forall (hrd_sub_ok 1 nal vcl sp) (hrd_sub_layers s) <-> Forall (hrd_sub_ok 0 nal vcl sp) (hrd_sub_layers s)).
  { intros nal vcl sp. unfold explicit_cvs in H. rewrite Forall_forall in H. rewrite !Forall_forall. split; intros F x Hx; specialize (F x Hx); specialize (H x Hx);
      apply G in F; auto. }
  cbv zeta. rewrite Q. tauto.
Qed.
(** Not for structures with fixed_pic_rate_general_flag = 1 (refuted below; C27_standard_iff). *)
Theorem C27_standard_layout : forall common n b s, wf b -> explicit_cvs s ->
  (exists b', ParseHrdParameters common n b = Ok s b') <->
  hrd_ok 1 common n s /\ exists rest, rem b = enc_hrd common s ++ rest.
Proof.
  intros common n b s W X. destruct (C27_layout_of_the_code common n b W) as [_ H]. rewrite (hrd_ok_inferred common n s X). split.
  - intros (b' & E). apply H in E. tauto.
  - intros (O & R). eexists. apply H. split; [exact O|]. split; [exact R|reflexivity].
Qed.
Theorem C27_sub_layer_count : forall common n b s b', wf b -> 0 <= n -> ParseHrdParameters common n b = Ok s b' ->
  Z.of_nat (length (hrd_sub_layers s)) = n + 1.
Proof.
  intros common n b s b' W Hn E. apply (C27_layout_of_the_code common n b W) in E. destruct E as (O & _).
  unfold hrd_ok in O. cbv zeta in O. assert (V : vec (n + 1) (hrd_sub_ok 0 (nal_hrd_parameters_present_flag s) (vcl_hrd_parameters_present_flag s)
     (sub_pic_hrd_params_present_flag s)) (hrd_sub_layers s)) by tauto. destruct V as [L _]. lia.
Qed.
(** Every CPB list has cpb_cnt_minus1 + 1 entries. *)
Theorem C27_cpb_count : forall common n b s b' h l, wf b -> ParseHrdParameters common n b = Ok s b' ->
  In h (hrd_sub_layers s) -> sub_layer_nal_hrd h = Some l \/ sub_layer_vcl_hrd h = Some l ->
  Z.of_nat (length l) = cpb_cnt_minus1 h + 1.
Proof.
  intros common n b s b' h l W E I H. apply (C27_layout_of_the_code common n b W) in E. destruct E as (O & _).
  unfold hrd_ok in O. cbv zeta in O. assert (V : vec (n + 1) (hrd_sub_ok 0 (nal_hrd_parameters_present_flag s) (vcl_hrd_parameters_present_flag s)
     (sub_pic_hrd_params_present_flag s)) (hrd_sub_layers s)) by tauto. destruct V as [_ F]. rewrite Forall_forall in F. specialize (F h I).
  unfold hrd_sub_ok, sub_layer_hrd_ok, vec, is_some, optf, ue_ok in F. cbv zeta in F.
  destruct F as (_ & _ & _ & _ & Fc & Fn & Fv).
  assert (0 <= cpb_cnt_minus1 h) by (destruct (negb (nz (low_delay_hrd_flag h))); lia).
  destruct H as [H|H].
  - rewrite H in Fn. destruct (nz (nal_hrd_parameters_present_flag s)); [|discriminate]. destruct Fn as [L _]. lia.
  - rewrite H in Fv. destruct (nz (vcl_hrd_parameters_present_flag s)); [|discriminate]. destruct Fv as [L _]. lia.
Qed.

(** A conforming structure the parser misreads: fixed_pic_rate_general_flag = 1 (so within_cvs is inferred to be 1 and
    elemental_duration_in_tc_minus1 follows). *)
Theorem C27_refuted : exists s bytes, hrd_ok 1 0 0 s /\ Forall is_byte bytes /\
  (exists rest, bits_of bytes = enc_hrd 0 s ++ rest) /\
  exists s' b', ParseHrdParameters 0 0 (mk_bb bytes) = Ok s' b' /\ s' <> s /\ pos b' <> Z.of_nat (length (enc_hrd 0 s)).
Proof.
  exists (mkHRD 0 0 0 0 0 0 0 0 0 0 0 0 0 [mkHS 1 1 2 0 3 None None]), [0xB2; 0x00].
  split; [solve_ok|].
  split; [repeat constructor; discriminate|].
  split; [eexists; vm_compute; reflexivity|].
  eexists. eexists. split; [vm_compute; reflexivity|]. split; [discriminate|vm_compute; discriminate].
Qed.
Example C27_case : let s := mkHRD 1 0 0 0 0 0 0 1 2 0 23 23 23 [mkHS 0 1 0 0 1 (Some [mkCPB 100 200 0 0 1; mkCPB 4 5 0 0 0]) None] in
  explicit_cvs s /\ hrd_ok 1 1 0 s.
Proof. intros s. solve_ok. Qed.

(** * C28 *)
Theorem C28_layout_of_the_code : forall n, reads_exactly (ParseVuiParameters n) (vui_ok 0 n) enc_vui.
Proof. intros. apply reads_exactly_intro; [apply parses_vui|apply wp_vui]. Qed.
Theorem C28_data_entry_point : forall n, data_exactly (on_data (ParseVuiParameters n)) (vui_ok 0 n) enc_vui.
Proof. intros. apply on_data_exactly, C28_layout_of_the_code. Qed.

(** The standard's layout and ranges, whenever no inferred flag of hrd_parameters() is involved (C27). *)
Theorem C28_standard_layout : forall n b s, wf b ->
  (forall h, vui_hrd_parameters s = Some h -> explicit_cvs h) ->
  (exists b', ParseVuiParameters n b = Ok s b') <-> vui_ok 1 n s /\ exists rest, rem b = enc_vui s ++ rest.
Proof.
  intros n b s W X. destruct (C28_layout_of_the_code n b W) as [_ H].
  assert (G : vui_ok 1 n s <-> vui_ok 0 n s).
  { unfold vui_ok. cbv zeta.
    assert (Q : optf (nz (vui_timing_info_present_flag s) && nz (vui_hrd_parameters_present_flag s)) (is_some (hrd_ok 1 1 n)) None (vui_hrd_parameters s) <->
                optf (nz (vui_timing_info_present_flag s) && nz (vui_hrd_parameters_present_flag s)) (is_some (hrd_ok 0 1 n)) None (vui_hrd_parameters s)).
    { unfold optf, is_some. destruct (_ && _); [|tauto]. destruct (vui_hrd_parameters s) as [h|]; [|tauto].
      apply hrd_ok_inferred. apply X. reflexivity. }
    rewrite Q. tauto. }
  rewrite G. split.
  - intros (b' & E). apply H in E. tauto.
  - intros (O & R). eexists. apply H. split; [exact O|]. split; [exact R|reflexivity].
Qed.
(** Out-of-range values are never returned. *)
Theorem C28_ranges : forall n b s b', wf b -> ParseVuiParameters n b = Ok s b' ->
  0 <= chroma_sample_loc_type_top_field s <= 5 /\ 0 <= chroma_sample_loc_type_bottom_field s <= 5 /\
  0 <= def_disp_win_left_offset s <= 16384 /\ 0 <= def_disp_win_right_offset s <= 16384 /\
  0 <= def_disp_win_top_offset s <= 16384 /\ 0 <= def_disp_win_bottom_offset s <= 16384 /\
  0 <= min_spatial_segmentation_idc s <= 4095 /\ 0 <= max_bytes_per_pic_denom s <= 16 /\ 0 <= max_bits_per_min_cu_denom s <= 16 /\
  0 <= log2_max_mv_length_horizontal s <= 16 /\ 0 <= log2_max_mv_length_vertical s <= 15.
Proof.
  intros n b s b' W E. apply (C28_layout_of_the_code n b W) in E. destruct E as (O & _). unfold vui_ok in O. cbv zeta in O.
  assert (G : forall (c : bool) k v, 0 <= k -> optf c (ue_le k) 0 v -> 0 <= v <= k).
  { intros c k v Hk Hv. destruct c; unfold optf, ue_le in Hv; lia. }
  repeat (destruct O as [?H O]). repeat first [solve [eapply G; [|eassumption]; lia] | split].
Qed.
(** A conforming structure that is rejected (fixed_pic_rate_general_flag = 1 in its hrd_parameters()). *)
Theorem C28_refuted : exists n s bytes, vui_ok 1 n s /\ Forall is_byte bytes /\ (exists rest, bits_of bytes = enc_vui s ++ rest) /\
  exists b', ParseVuiParameters n (mk_bb bytes) = Fail b'.
Proof.
  pose (h := mkHRD 1 0 0 0 0 0 0 0 0 0 0 0 0 [mkHS 1 1 2 0 0 (Some [mkCPB 0 0 0 0 0]) None]).
  pose (s := mkVUI 0 0 0 0 0 0 0 0 0 0 0 0 0 0 0 0 0 0 0 0 0 0 0 0 1 1 1 0 0 1 (Some h) 0 0 0 0 0 0 0 0 0).
  exists 0, s. let l := eval vm_compute in (pack (enc_vui s)) in exists l.
  split; [solve_ok|].
  split; [repeat constructor; discriminate|].
  split; [eexists; vm_compute; reflexivity|].
  eexists. vm_compute. reflexivity.
Qed.
Example C28_case : vui_ok 1 0 (mkVUI 1 255 4 3 0 0 1 5 0 1 1 1 1 1 2 2 0 0 0 1 3 4 5 6 1 1001 60000 1 0 0 None 1 0 1 0 0 0 0 15 15).
Proof. solve_ok. Qed.

(** * C41 *)
Lemma wp_trailing : wp no_err rbsp_trailing_bits (fun _ bs => exists k, (k < 8)%nat /\ bs = true :: repeat false k).
Proof.
  intros b W. pose proof (C12_rbsp_trailing_bits b W) as T. destruct (rbsp_trailing_bits b) as [u b2|b2|e]; [| |contradiction].
  - destruct T as (k & B & F & -> & _). exists (true :: repeat false k). split.
    + assert (E : rem b = (true :: repeat false k) ++ skipn (bits_to_boundary b) (rem b)) by (rewrite <- F, firstn_skipn; reflexivity).
      rewrite B. replace (S k) with (length (true :: repeat false k)) by (cbn [length]; rewrite repeat_length; reflexivity).
      eapply steps_app; eassumption.
    + exists k. split; [|reflexivity]. unfold bits_to_boundary in B. destruct W as (_ & _ & _ & _ & ? & _). lia.
  - exact (proj2 T).
Qed.
(** ParseAud does not check the trailing bits (refuted below); what it returns is the first three bits, always. *)
Theorem C41_pic_type : forall b, wf b ->
  match ParseAud b with
  | Ok pt b' => u_ok 3 pt /\ firstn 3 (rem b) = enc_u 3 pt /\ wf b' /\ bb_bytes b' = bb_bytes b /\ pos b + 3 <= pos b' 
  | Fail b' => remaining b < 3 /\ wf b'
  | Err _ => False
  end.
Proof.
  intros b W. unfold ParseAud, bind. pose proof (ReadBits_spec 3 b W ltac:(lia)) as R.
  pose proof (wp_u_ok 3 ltac:(lia) b W) as U. rewrite remaining_spec by assumption.
  destruct (ReadBits 3 b) as [v b1|b1|e] eqn:E1.
  - destruct U as (bs & S & Hv & ->). pose proof (steps_wf _ _ _ W S) as W1.
    pose proof (wp_trailing b1 W1) as T. unfold attempt.
    assert (P1 : pos b1 = pos b + 3) by (destruct S as [_ ->]; rewrite pos_adv; reflexivity).
    assert (F : firstn 3 (rem b) = enc_u 3 v) by (destruct S as [-> _]; reflexivity).
    assert (BB : bb_bytes b1 = bb_bytes b) by (destruct S as [_ ->]; reflexivity).
    destruct (rbsp_trailing_bits b1) as [u b2|b2|e]; [destruct T as (bs & S2 & _)|destruct T as (bs & S2)|contradiction];
      cbn; destruct (steps_facts _ _ _ W1 S2) as (W2 & B2 & P2);
      (split; [exact Hv|]; split; [exact F|]; split; [assumption|]; split; [congruence|lia]).
  - destruct (Z.ltb_spec (Z.of_nat (length (rem b))) 3) as [L|L].
    + split; [exact L|]. destruct U as (bs & S). eapply steps_wf; eassumption.
    + destruct (length (rem b) <? 3)%nat eqn:LL; [lia|]. exfalso.
      assert (Q : exists bs rest, length bs = 3%nat /\ rem b = bs ++ rest).
      { exists (firstn 3 (rem b)), (skipn 3 (rem b)). rewrite firstn_skipn, firstn_length. split; [lia|reflexivity]. }
      destruct Q as (bs & rest & Lb & Eb). pose proof (parses_u 3 (bval bs) ltac:(lia)) as Pu.
      pose proof (bval_range bs) as BR. rewrite Lb in BR. specialize (Pu BR b rest W).
      change (Z.to_nat 3) with 3%nat in Pu. rewrite (enc_u_bval_n 3 bs Lb) in Pu. rewrite (Pu Eb) in E1. discriminate E1.
  - contradiction.
Qed.
Theorem C41_refuted : exists bytes pt, Forall is_byte bytes /\ on_buffer ParseAud bytes = Done (Some pt) /\
  rbsp_trailing_bits (mkBB bytes (Z.of_nat (length bytes)) 0 3) = Fail (mkBB bytes (Z.of_nat (length bytes)) 0 4).
Proof. exists [0x40], 2. split; [repeat constructor; discriminate|]. vm_compute. auto. Qed.
Example C41_case : on_data ParseAud [0x50] = Done (Some 2) /\ ParseAud (mk_bb [0x50]) = Ok 2 (mkBB [0x50] 1 1 0) /\ on_data ParseAud [] = Done None.
Proof. vm_compute. auto. Qed.
