(** C30-C33: sequence parameter set. *)
From Coq Require Import ZArith List Bool Lia ZifyBool ZifyNat.
From Verif Require Import MBase MBitBuffer Spec BitsFacts Reader ReaderFacts Rules Syntax SyntaxSe MCommon CommonFacts PropsBits PropsCommon
  MSyntaxA SpecA FactsA Api PropsA MSyntaxB SpecB FactsB FactsRps PropsB MSps SpecSps FactsSps.
Import ListNotations.
Open Scope Z_scope.

(** * C31 *)
(** On every input: what is returned satisfies all checks and re-encodes to the bits consumed (up to the extension data); every
    structure within the standard's limits is returned from its encoding.  The layout is the standard's except for the deviations of
    profile_tier_level() (C25) and hrd_parameters() (C27).  Signed overflow (in st_ref_pic_set and scaling_list_data) is the only
    possible undefined behaviour. *)
Theorem C31_layout_of_the_code : reads_prefix ovf_only ParseSps (fun s => nz (sps_extension_4bits s)) sps_ok_in sps_ok_out (enc_sps false).
Proof. apply reads_prefix_intro; [apply parses_sps|apply wpa_sps]. Qed.
Lemma C31_accepted b s x b' : wf b -> ParseSps b = Ok (s, x) b' -> sps_ok_out s.
Proof. intros W E. destruct (C31_layout_of_the_code b W) as [H _]. rewrite E in H. tauto. Qed.

(** The standard: its layout, ranges of its scaling lists and short-term sets. *)
Definition sps_std : sps -> Prop := sps_ok true 1 (fun v => -128 <= v <= 247) rps_sets_std.
Definition sps_no_deviation (s : sps) : Prop := same_presence (sps_profile_tier_level s) /\
  forall v h, sps_vui_parameters s = Some v -> vui_hrd_parameters v = Some h -> explicit_cvs h.
Lemma vui_ok_inferred n v : (forall h, vui_hrd_parameters v = Some h -> explicit_cvs h) -> vui_ok 1 n v <-> vui_ok 0 n v.
Proof.
  intros X. unfold vui_ok. cbv zeta.
  assert (Q : optf (nz (vui_timing_info_present_flag v) && nz (vui_hrd_parameters_present_flag v)) (is_some (hrd_ok 1 1 n)) None (vui_hrd_parameters v) <->
              optf (nz (vui_timing_info_present_flag v) && nz (vui_hrd_parameters_present_flag v)) (is_some (hrd_ok 0 1 n)) None (vui_hrd_parameters v)).
  { unfold optf, is_some. destruct (_ && _); [|tauto]. destruct (vui_hrd_parameters v) as [h|]; [|tauto]. apply hrd_ok_inferred. auto. }
  rewrite Q. tauto.
Qed.
Lemma scaling_list_data_mono (P Q : Z -> Prop) s : (forall v, P v -> Q v) -> scaling_list_data_ok P s -> scaling_list_data_ok Q s.
Proof.
  intros I [L F]. split; [exact L|]. eapply all_from_impl; [|exact F]. cbv beta. intros i a Hi [La Fa]. split; [exact La|].
  eapply Forall_impl; [|exact Fa]. unfold scaling_list_ok. cbv zeta. intros x (H1 & H2 & H3 & H4 & H5). split; [exact H1|]. split; [exact H2|]. split; [|split; [|exact H5]].
  - unfold optf in *. destruct (_ && _); auto.
  - unfold optf in *. destruct (nz _); [|exact H4]. destruct H4 as [H4 H6]. split; [exact H4|]. eapply Forall_impl; [|exact H6]. auto.
Qed.
Lemma sps_std_in s : sps_no_deviation s -> sps_std s -> sps_ok_in s /\ enc_sps true s = enc_sps false s.
Proof.
  intros [P V] O. destruct (same_presence_ptl true (sps_max_sub_layers_minus1 s) _ P) as [E1 E2]. split; [|unfold enc_sps; rewrite E1; reflexivity].
  unfold sps_std, sps_ok_in, sps_ok in *. cbv zeta in *.
  assert (Vv : optf (nz (vui_parameters_present_flag s)) (is_some (vui_ok 1 (sps_max_sub_layers_minus1 s))) None (sps_vui_parameters s) ->
               optf (nz (vui_parameters_present_flag s)) (is_some (vui_ok 0 (sps_max_sub_layers_minus1 s))) None (sps_vui_parameters s)).
  { clear O. unfold optf, is_some. destruct (nz (vui_parameters_present_flag s)); [|auto]. destruct (sps_vui_parameters s) as [v|]; [|auto]. apply vui_ok_inferred. intros h. apply V. reflexivity. }
  assert (Sv : optf (nz (scaling_list_enabled_flag s) && nz (sps_scaling_list_data_present_flag s)) (is_some (scaling_list_data_ok (fun v => -128 <= v <= 247))) None (sps_scaling_list_data s) ->
               optf (nz (scaling_list_enabled_flag s) && nz (sps_scaling_list_data_present_flag s)) (is_some (scaling_list_data_ok sl_range)) None (sps_scaling_list_data s)).
  { clear O. unfold optf, is_some. destruct (nz (scaling_list_enabled_flag s) && nz (sps_scaling_list_data_present_flag s)); [|auto]. destruct (sps_scaling_list_data s) as [d|]; [|auto]. apply scaling_list_data_mono. unfold sl_range. intros; lia. }
  repeat (destruct O as [?H O]).
  repeat (split; [first [assumption | apply E2; assumption | auto]|]). assumption.
Qed.
(** Every SPS of the standard within the parser's limits is returned exactly.  Not for SPSs with the deviating parts (C25, C27). *)
Theorem C31_standard_layout : forall b s rest, wf b -> sps_no_deviation s -> sps_std s -> rem b = enc_sps true s ++ rest ->
  exists x b', ParseSps b = Ok (s, x) b' /\ (sps_extension_4bits s = 0 -> x = 0).
Proof.
  intros b s rest W N O R. destruct (sps_std_in s N O) as [I E]. rewrite E in R. destruct (C31_layout_of_the_code b W) as [_ C].
  destruct (C s rest I R) as (x & b' & Ep & H0 & _). exists x, b'. split; [exact Ep|]. intros Z4. apply H0. rewrite Z4. reflexivity.
Qed.
(** From bytes, with emulation prevention. *)
Theorem C31_data_entry_point : forall data rbsp s rest, byte_string data -> UnescapeRbsp data = Done rbsp -> sps_ok_in s ->
  bits_of rbsp = enc_sps false s ++ rest -> exists x, on_data ParseSps data = Done (Some (s, x)).
Proof.
  intros data rbsp s rest D E O R. destruct (Unescape_byte_string data D) as (rbsp' & E' & [F L]). rewrite E in E'. injection E' as <-.
  unfold on_data, on_buffer, init_ok. rewrite E. replace (Z.of_nat (length rbsp) <=? u32_max) with true by (unfold u32_max; lia).
  destruct (C31_layout_of_the_code _ (wf_mk rbsp F L)) as [_ C]. destruct (C s rest O R) as (x & b' & Ep & _). rewrite Ep. eauto.
Qed.

(** A concrete SPS: 1920x1080 cropped from 1088, two short-term sets (one predicted), long-term pictures, VUI, scaling lists, SCC. *)
Definition C31_sps : sps :=
  mkSPS 0 0 1 C29_ptl 0 1 0 1920 1088 1 0 0 0 4 0 0 4 1 [mkOI 4 2 5] 0 3 0 3 0 0 1 1 (Some C35_data) 1 1 1 7 7 0 2 1
    2 [C34_set0; C34_set1] 1 2 [(17, 1); (255, 0)] 1 1 1
    (Some (mkVUI 1 255 4 3 0 0 1 5 0 1 1 1 1 1 2 2 0 0 0 1 3 4 5 6 1 1001 60000 1 0 0 None 1 0 1 0 0 0 0 15 15))
    1 1 1 1 1 0 (Some (mkSRE 1 0 1 0 1 0 1 0 1)) (Some 1) (Some (mkS3D 0 0 0 0 0 0 0 1 1 1 3 1 1 1 1 1)) (Some (mkSSC 1 1 63 128 1 1 [[255; 0]; [1; 3]; [7; 8]] 2 1)).
Lemma C31_sets : rps_sets_std 2 [C34_set0; C34_set1].
Proof.
  split; [|split].
  - split; [reflexivity|]. split; [|split; [|exact I]].
    + unfold C34_set0. unfold rps_ok. split; [solve_ok|]. split; [lia|]. split; [solve_ok|]. change (nz (inter_ref_pic_set_prediction_flag (mkRPS 0 0 0 0 [] 2 1 [(0, 1); (2, 1)] [(1, 1)]))) with false. cbv iota. solve_ok.
    + unfold rps_ok. split; [unfold C34_set1; solve_ok|]. split; [lia|]. split; [unfold C34_set1; solve_ok|]. change (nz (inter_ref_pic_set_prediction_flag C34_set1)) with true. cbv iota. unfold C34_set1. solve_ok.
  - repeat constructor; unfold C34_set0, C34_set1; cbn; lia.
  - split; [discriminate|]. split; [|exact I]. intros _. vm_compute. auto.
Qed.
Example C31_case : sps_std C31_sps /\ sps_no_deviation C31_sps /\
  on_data ParseSps (pack (enc_sps true C31_sps ++ [true])) = Done (Some (C31_sps, 0)).
Proof.
  split; [|split].
  - pose proof C31_sets as S. destruct C35_case as [SL _]. unfold sps_std, sps_ok. cbv zeta.
    repeat (split; [lazymatch goal with
      | |- rps_sets_std _ _ => exact S
      | |- optf _ (is_some (scaling_list_data_ok _)) _ _ => exact SL
      | |- _ => unfold C31_sps, C29_ptl; solve_ok end|]). unfold C31_sps; solve_ok.
  - split; [constructor|]. intros v h E. injection E as <-. discriminate.
  - vm_compute. reflexivity.
Qed.

(** * C30 *)
(** All the ranges, on every input.  But MinCbSizeY in the divisibility check is always 8 (refuted below). *)
Theorem C30_ranges : forall b s x b', wf b -> ParseSps b = Ok (s, x) b' ->
  0 <= sps_seq_parameter_set_id s <= 15 /\ 0 <= chroma_format_idc s <= 3 /\
  1 <= pic_width_in_luma_samples s <= 16888 /\ 1 <= pic_height_in_luma_samples s <= 16888 /\
  (8 | pic_width_in_luma_samples s) /\ (8 | pic_height_in_luma_samples s) /\
  0 <= conf_win_left_offset s <= pic_width_in_luma_samples s /\ 0 <= conf_win_right_offset s <= pic_width_in_luma_samples s /\
  0 <= conf_win_top_offset s <= pic_height_in_luma_samples s /\ 0 <= conf_win_bottom_offset s <= pic_height_in_luma_samples s /\
  0 <= bit_depth_luma_minus8 s <= 8 /\ 0 <= bit_depth_chroma_minus8 s <= 8 /\ 0 <= log2_max_pic_order_cnt_lsb_minus4 s <= 12 /\
  Forall (fun o => 0 <= max_dec_pic_buffering_minus1 o <= 15) (sps_ordering s) /\
  0 <= log2_min_luma_coding_block_size_minus3 s <= 3 /\ 0 <= log2_diff_max_min_luma_coding_block_size s <= 3 /\
  0 <= num_short_term_ref_pic_sets s <= 64 /\ 0 <= num_long_term_ref_pics_sps s <= 32 /\
  Forall (fun r => num_negative_pics r + num_positive_pics r <= 16) (sps_st_ref_pic_set s).
Proof.
  intros b s x b' W E. pose proof (C31_accepted b s x b' W E) as O. unfold sps_ok_out, sps_ok in O. cbv zeta in O.
  assert (G : forall (c : bool) k v, 0 <= k -> optf c (ue_le k) 0 v -> 0 <= v <= k).
  { intros c k v Hk Hv. destruct c; unfold optf, ue_le in Hv; lia. }
  assert (P : forall k v, pic_size_ok k v -> 1 <= v <= k /\ (8 | v)).
  { intros k v [H1 H2]. split; [exact H1|]. apply Z.mod_divide; [lia|exact H2]. }
  assert (Hw : pic_size_ok kMaxWidth (pic_width_in_luma_samples s)) by tauto. assert (Hh : pic_size_ok kMaxHeight (pic_height_in_luma_samples s)) by tauto.
  apply P in Hw, Hh. change kMaxWidth with 16888 in Hw. change kMaxHeight with 16888 in Hh. clear P.
  assert (Ho : vec (if nz (sps_sub_layer_ordering_info_present_flag s) then sps_max_sub_layers_minus1 s + 1 else 1) sps_ordering_ok (sps_ordering s)) by tauto.
  assert (Hr : rps_sets_out (num_short_term_ref_pic_sets s) (sps_st_ref_pic_set s)) by tauto.
  destruct Hr as ((_ & Hr) & _). apply all_from_ok_shape in Hr.
  assert (Hor : Forall (fun o => 0 <= max_dec_pic_buffering_minus1 o <= 15) (sps_ordering s)).
  { destruct Ho as [_ Ho]. eapply Forall_impl; [|exact Ho]. intros a (Ha & _). exact Ha. }
  assert (Hrr : Forall (fun r => num_negative_pics r + num_positive_pics r <= 16) (sps_st_ref_pic_set s)).
  { eapply Forall_impl; [|exact Hr]. intros a (_ & _ & Ha & _). exact Ha. }
  repeat (destruct O as [?H O]). repeat first [ tauto | assumption | solve [eapply G; [|eassumption]; lia] | split].
Qed.
(** ParseSps accepts a 24x24 picture with MinCbSizeY = 16. *)
Definition C30_sps : sps :=
  mkSPS 0 0 1 C29_ptl 0 1 0 24 24 0 0 0 0 0 0 0 4 1 [mkOI 4 2 5] 1 1 0 3 0 0 0 0 None 0 0 0 0 0 0 0 0 0 [] 0 0 [] 0 0 0 None 0 0 0 0 0 0 None None None None.
Theorem C30_refuted : exists bytes s x, Forall is_byte bytes /\ on_data ParseSps bytes = Done (Some (s, x)) /\
  getMinCbSizeY s = 16 /\ pic_width_in_luma_samples s mod getMinCbSizeY s <> 0.
Proof.
  let l := eval vm_compute in (pack (enc_sps true C30_sps ++ [true])) in exists l.
  exists C30_sps, 0. split; [repeat constructor; discriminate|]. split; [vm_compute; reflexivity|]. split; [reflexivity|vm_compute; discriminate].
Qed.

(** * C32 *)
Definition geometry_range (s : sps) : Prop :=
  1 <= pic_width_in_luma_samples s <= 16888 /\ 1 <= pic_height_in_luma_samples s <= 16888 /\
  0 <= log2_min_luma_coding_block_size_minus3 s <= 3 /\ 0 <= log2_diff_max_min_luma_coding_block_size s <= 3.
Lemma ceil_div_spec a b : 0 < b -> is_ceil (ceil_div a b) a b.
Proof. intros Hb. unfold is_ceil, ceil_div. pose proof (Z.div_mod (a + b - 1) b ltac:(lia)). pose proof (Z.mod_pos_bound (a + b - 1) b Hb). nia. Qed.
Lemma log2s s : geometry_range s -> getMinCbLog2SizeY s = log2_min_luma_coding_block_size_minus3 s + 3 /\
  getCtbLog2SizeY s = log2_min_luma_coding_block_size_minus3 s + 3 + log2_diff_max_min_luma_coding_block_size s.
Proof. intros (_ & _ & H1 & H2). unfold getCtbLog2SizeY, getMinCbLog2SizeY, u32. rewrite (Z.mod_small (_ + 3)) by lia. split; [reflexivity|]. apply Z.mod_small. lia. Qed.
Lemma geometry s : geometry_range s ->
  getMinCbSizeY s = MinCbSize s /\ getCtbSizeY s = CtbSize s /\ 8 <= MinCbSize s <= 64 /\ 8 <= CtbSize s <= 512 /\
  is_ceil (getPicWidthInCtbsY s) (pic_width_in_luma_samples s) (CtbSize s) /\
  is_ceil (getPicHeightInCtbsY s) (pic_height_in_luma_samples s) (CtbSize s) /\
  1 <= getPicWidthInCtbsY s <= 2111 /\ 1 <= getPicHeightInCtbsY s <= 2111 /\
  getPicSizeInCtbsY s = getPicWidthInCtbsY s * getPicHeightInCtbsY s /\
  getPicWidthInMinCbsY s = pic_width_in_luma_samples s / MinCbSize s /\ getPicHeightInMinCbsY s = pic_height_in_luma_samples s / MinCbSize s /\
  getPicSizeInMinCbsY s = getPicWidthInMinCbsY s * getPicHeightInMinCbsY s /\
  getPicSizeInSamplesY s = pic_width_in_luma_samples s * pic_height_in_luma_samples s.
Proof.
  intros G. destruct (log2s s G) as [L1 L2]. pose proof G as (Gw & Gh & G1 & G2).
  assert (M : getMinCbSizeY s = MinCbSize s) by (unfold getMinCbSizeY, MinCbSize; rewrite L1, Z.shiftl_1_l; reflexivity).
  assert (C : getCtbSizeY s = CtbSize s) by (unfold getCtbSizeY, CtbSize; rewrite L2, Z.shiftl_1_l; reflexivity).
  assert (MR : 8 <= MinCbSize s <= 64).
  { unfold MinCbSize. split; [change 8 with (2 ^ 3)|change 64 with (2 ^ 6)]; apply Z.pow_le_mono_r; lia. }
  assert (CR : 8 <= CtbSize s <= 512).
  { unfold CtbSize. split; [change 8 with (2 ^ 3)|change 512 with (2 ^ 9)]; apply Z.pow_le_mono_r; lia. }
  assert (W : forall v, 1 <= v <= 16888 -> let q := u32 (ceil_div v (CtbSize s)) in is_ceil q v (CtbSize s) /\ 1 <= q <= 2111).
  { intros v Hv. cbv zeta. pose proof (ceil_div_spec v (CtbSize s) ltac:(lia)) as H. unfold is_ceil in H.
    assert (1 <= ceil_div v (CtbSize s) <= 2111) by nia. unfold u32. rewrite Z.mod_small by lia. split; assumption. }
  unfold getPicSizeInCtbsY, getPicWidthInCtbsY, getPicHeightInCtbsY, getPicSizeInMinCbsY, getPicWidthInMinCbsY, getPicHeightInMinCbsY, getPicSizeInSamplesY. rewrite M, C.
  destruct (W _ Gw) as [W1 W2]. destruct (W _ Gh) as [W3 W4]. cbv zeta in *.
  assert (D : forall v, 1 <= v <= 16888 -> 0 <= v / MinCbSize s <= 2111).
  { intros v Hv. split; [apply Z.div_pos; lia|]. transitivity (v / 8); [apply Z.div_le_compat_l; lia|]. apply Z.div_le_upper_bound; lia. }
  pose proof (D _ Gw). pose proof (D _ Gh).
  repeat match goal with |- _ /\ _ => split; [first [assumption|reflexivity|lia|idtac]|] end.
  - unfold u32 at 1. apply Z.mod_small. nia.
  - unfold u32. apply Z.mod_small. nia.
  - unfold u32. apply Z.mod_small. nia.
Qed.
(** The equations of the standard; no wrap-around; the CTBs cover the picture. *)
Theorem C32_geometry : forall b s x b', wf b -> ParseSps b = Ok (s, x) b' ->
  getMinCbSizeY s = MinCbSize s /\ getCtbSizeY s = CtbSize s /\ 8 <= MinCbSize s <= 64 /\ 8 <= CtbSize s <= 512 /\
  is_ceil (getPicWidthInCtbsY s) (pic_width_in_luma_samples s) (CtbSize s) /\
  is_ceil (getPicHeightInCtbsY s) (pic_height_in_luma_samples s) (CtbSize s) /\
  1 <= getPicWidthInCtbsY s <= 2111 /\ 1 <= getPicHeightInCtbsY s <= 2111 /\
  getPicSizeInCtbsY s = getPicWidthInCtbsY s * getPicHeightInCtbsY s /\
  getPicWidthInMinCbsY s = pic_width_in_luma_samples s / MinCbSize s /\ getPicHeightInMinCbsY s = pic_height_in_luma_samples s / MinCbSize s /\
  getPicSizeInMinCbsY s = getPicWidthInMinCbsY s * getPicHeightInMinCbsY s /\
  getPicSizeInSamplesY s = pic_width_in_luma_samples s * pic_height_in_luma_samples s.
Proof.
  intros b s x b' W E. apply geometry. pose proof (C30_ranges b s x b' W E) as H. unfold geometry_range. tauto.
Qed.
Theorem C32_ctbs_cover_picture : forall b s x b', wf b -> ParseSps b = Ok (s, x) b' ->
  pic_width_in_luma_samples s * pic_height_in_luma_samples s <= getPicSizeInCtbsY s * (getCtbSizeY s * getCtbSizeY s).
Proof.
  intros b s x b' W E. destruct (C32_geometry b s x b' W E) as (_ & -> & _ & R & Cw & Ch & Hw & Hh & -> & _). unfold is_ceil in *.
  pose proof (C30_ranges b s x b' W E) as H.
  transitivity ((getPicWidthInCtbsY s * CtbSize s) * (getPicHeightInCtbsY s * CtbSize s)); [|lia]. apply Z.mul_le_mono_nonneg; lia.
Qed.
Example C32_case : getCtbSizeY C31_sps = 64 /\ getPicWidthInCtbsY C31_sps = 30 /\ getPicHeightInCtbsY C31_sps = 17 /\ getPicSizeInCtbsY C31_sps = 510.
Proof. vm_compute. auto. Qed.

(** * C33 *)
Lemma sub_c s : sps_ok_out s -> getSubWidthC s = SubWidthC s /\ getSubHeightC s = SubHeightC s.
Proof.
  intros O. assert (H1 : ue_le 3 (chroma_format_idc s)) by (unfold sps_ok_out, sps_ok in O; cbv zeta in O; tauto).
  assert (H2 : optf (chroma_format_idc s =? 3) (u_ok 1) 0 (separate_colour_plane_flag s)) by (unfold sps_ok_out, sps_ok in O; cbv zeta in O; tauto).
  unfold ue_le, optf, u_ok in *. unfold getSubWidthC, getSubHeightC, SubWidthC, SubHeightC. cbv zeta.
  destruct (Z.eqb_spec (chroma_format_idc s) 3) as [E|E].
  - rewrite E in *. assert (separate_colour_plane_flag s = 0 \/ separate_colour_plane_flag s = 1) as [Es | Es] by lia; rewrite Es; split; reflexivity.
  - rewrite H2. assert (chroma_format_idc s = 0 \/ chroma_format_idc s = 1 \/ chroma_format_idc s = 2) as [Ec|[Ec|Ec]] by lia; rewrite Ec; split; reflexivity.
Qed.
Lemma chk_small {B} x (f : Z -> M B) b : - 2 ^ 31 <= x < 2 ^ 31 -> bind (chk_i32 x) f b = f x b.
Proof. intros H. unfold bind, chk_i32. rewrite in_i32_true by exact H. reflexivity. Qed.
(** getResolution succeeds on every accepted SPS and returns the cropped size, without overflow. *)
Theorem C33_cropped_size : forall b s x b' b0, wf b -> ParseSps b = Ok (s, x) b' ->
  getResolution s b0 = Ok (cropped_width s, cropped_height s) b0.
Proof.
  intros b s x b' b0 W E. destruct (sub_c s (C31_accepted b s x b' W E)) as [S1 S2]. pose proof (C30_ranges b s x b' W E) as R.
  assert (Q : forall v, 0 <= v < 2 ^ 31 -> to_i32 v = v) by (intros v Hv; unfold to_i32, u32; rewrite Z.mod_small by lia; destruct (Z.ltb_spec v (2 ^ 31)); lia).
  unfold getResolution. rewrite !S1, !S2. rewrite !Q by lia.
  assert (H1 : 1 <= SubWidthC s <= 2) by (unfold SubWidthC; destruct (_ || _); lia).
  assert (H2 : 1 <= SubHeightC s <= 2) by (unfold SubHeightC; destruct (_ =? _); lia).
  unfold cropped_width, cropped_height.
  rewrite !chk_small by nia. unfold ret. do 2 f_equal; [f_equal|]; lia.
Qed.
(** Positive and at most the coded size if the conformance window leaves something.  The parser does not check that (C33_positive_iff). *)
Theorem C33_positive : forall b s x b', wf b -> ParseSps b = Ok (s, x) b' ->
  SubWidthC s * (conf_win_left_offset s + conf_win_right_offset s) < pic_width_in_luma_samples s ->
  SubHeightC s * (conf_win_top_offset s + conf_win_bottom_offset s) < pic_height_in_luma_samples s ->
  1 <= cropped_width s <= pic_width_in_luma_samples s /\ 1 <= cropped_height s <= pic_height_in_luma_samples s.
Proof.
  intros b s x b' W E H1 H2. pose proof (C30_ranges b s x b' W E) as R. unfold cropped_width, cropped_height.
  assert (1 <= SubWidthC s <= 2) by (unfold SubWidthC; destruct (_ || _); lia).
  assert (1 <= SubHeightC s <= 2) by (unfold SubHeightC; destruct (_ =? _); lia). nia.
Qed.
(** Always at most the coded size. *)
Theorem C33_at_most_coded_size : forall b s x b', wf b -> ParseSps b = Ok (s, x) b' ->
  cropped_width s <= pic_width_in_luma_samples s /\ cropped_height s <= pic_height_in_luma_samples s.
Proof.
  intros b s x b' W E. pose proof (C30_ranges b s x b' W E) as R. unfold cropped_width, cropped_height.
  assert (1 <= SubWidthC s <= 2) by (unfold SubWidthC; destruct (_ || _); lia).
  assert (1 <= SubHeightC s <= 2) by (unfold SubHeightC; destruct (_ =? _); lia). nia.
Qed.
(** An accepted SPS of negative width: conf_win_left_offset = conf_win_right_offset = 8 for a width of 16. *)
Definition C33_sps : sps :=
  mkSPS 0 0 1 C29_ptl 0 1 0 16 16 1 8 8 0 0 0 0 4 1 [mkOI 4 2 5] 0 1 0 3 0 0 0 0 None 0 0 0 0 0 0 0 0 0 [] 0 0 [] 0 0 0 None 0 0 0 0 0 0 None None None None.
Theorem C33_refuted : exists bytes s x b0, Forall is_byte bytes /\ on_data ParseSps bytes = Done (Some (s, x)) /\ getResolution s b0 = Ok (-16, 16) b0.
Proof.
  let l := eval vm_compute in (pack (enc_sps true C33_sps ++ [true])) in exists l.
  exists C33_sps, 0, (mk_bb []). split; [repeat constructor; discriminate|]. split; vm_compute; reflexivity.
Qed.
Example C33_case : getResolution C31_sps (mk_bb []) = Ok (1920, 1080) (mk_bb []).
Proof. vm_compute. reflexivity. Qed.
