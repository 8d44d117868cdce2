(** C95: SPSs of the standard are accepted. *)
From Coq Require Import ZArith List Bool Lia ZifyBool ZifyNat.
From Verif Require Import MBase MBitBuffer Spec BitsFacts Reader ReaderFacts Rules Syntax SyntaxSe MCommon CommonFacts PropsBits PropsCommon
  MSyntaxA SpecA FactsA Api PropsA MSyntaxB SpecB FactsB FactsRps PropsB MSps SpecSps FactsSps PropsSps SpecLimits.
Import ListNotations.
Open Scope Z_scope.

Lemma square_limit w : 0 <= w -> w * w <= 8 * 35651584 -> w <= 16888.
Proof. intros. nia. Qed.
Lemma MaxLumaPs_max M : In M MaxLumaPs_values -> M <= 35651584.
Proof. unfold MaxLumaPs_values. cbn [In]. lia. Qed.
Lemma MaxDpbSize_16 M z : MaxDpbSize M z <= 16.
Proof. unfold MaxDpbSize. repeat destruct (_ <=? _); cbn; lia. Qed.
Lemma MinCb_8 s v : 0 <= log2_min_luma_coding_block_size_minus3 s -> (MinCbSize s | v) -> v mod 8 = 0.
Proof.
  intros P (k & ->). unfold MinCbSize. rewrite Z.pow_add_r by lia. change (2 ^ 3) with 8. rewrite Z.mul_assoc. apply Z.mod_mul. lia.
Qed.
Lemma optf_range (b : bool) v k : optf b ue_ok 0 v -> 0 <= k -> v <= k -> optf b (ue_le k) 0 v.
Proof. destruct b; unfold optf, ue_ok, ue_le; lia. Qed.
Lemma optf_nonneg (b : bool) v : optf b ue_ok 0 v -> 0 <= v.
Proof. destruct b; unfold optf, ue_ok; lia. Qed.
Lemma sub_cases x : x = 1 \/ x = 2 -> forall l r w, 0 <= l -> 0 <= r -> x * (l + r) < w -> x * l < w /\ x * r < w /\ l <= w /\ r <= w.
Proof. intros [-> | ->]; lia. Qed.
Lemma SubWidthC_cases s : SubWidthC s = 1 \/ SubWidthC s = 2.
Proof. unfold SubWidthC. destruct (_ || _); auto. Qed.
Lemma SubHeightC_cases s : SubHeightC s = 1 \/ SubHeightC s = 2.
Proof. unfold SubHeightC. destruct (_ =? _); auto. Qed.
Definition window_condition (s : sps) : Prop :=
  (SubWidthC s = 2 \/ pic_width_in_luma_samples s <= 16385) /\ (SubHeightC s = 2 \/ pic_height_in_luma_samples s <= 16385).
Lemma vui_within n s v : vui_syntax n v -> vui_limits s v -> 0 <= conf_win_left_offset s -> 0 <= conf_win_right_offset s -> 0 <= conf_win_top_offset s ->
  0 <= conf_win_bottom_offset s -> pic_width_in_luma_samples s <= 16888 -> pic_height_in_luma_samples s <= 16888 ->
  window_condition s -> vui_ok 1 n v.
Proof.
  intros S (L1 & L2 & L3 & L4 & L5 & L6 & L7 & L8 & L9) C1 C2 C3 C4 Kw Kh (W & H). unfold vui_syntax, vui_ok in *. cbv zeta in *.
  repeat match type of S with _ /\ _ => destruct S as [?S S] end.
  repeat match goal with X : optf _ ue_ok 0 _ |- _ => pose proof (optf_nonneg _ _ X); revert X end. intros.
  assert (D : def_disp_win_left_offset v <= 16384 /\ def_disp_win_right_offset v <= 16384 /\ def_disp_win_top_offset v <= 16384 /\ def_disp_win_bottom_offset v <= 16384).
  { assert (A : def_disp_win_left_offset v <= 16384 /\ def_disp_win_right_offset v <= 16384).
    { clear - L3 C1 C2 Kw W H0 H1 H2 H3 H4 H5 H6 H7 H8 H9. destruct (SubWidthC_cases s) as [E|E]; rewrite E in *; destruct W as [W|W]; lia. }
    assert (B : def_disp_win_top_offset v <= 16384 /\ def_disp_win_bottom_offset v <= 16384).
    { clear - L4 C3 C4 Kh H H0 H1 H2 H3 H4 H5 H6 H7 H8 H9. destruct (SubHeightC_cases s) as [E|E]; rewrite E in *; destruct H as [H|H]; lia. }
    tauto. }
  destruct D as (D1 & D2 & D3 & D4).
  repeat (split; [first [assumption | apply optf_range; [assumption | lia | first [assumption | clear -L8; lia]]]|]). apply optf_range; [assumption | lia | assumption].
Qed.
Lemma scc_within c l h e : scc_syntax c l h e -> scc_limits e -> sps_scc_ext_ok c l h e.
Proof.
  intros S (L1 & L2 & L3). unfold scc_syntax, sps_scc_ext_ok in *. cbv zeta in *.
  destruct S as (S1 & S2 & S3 & S4 & S5 & S6 & S7 & S8 & S9). pose proof (optf_nonneg _ _ S3). pose proof (optf_nonneg _ _ S4). pose proof (optf_nonneg _ _ S6).
  split; [exact S1|]. split; [exact S2|]. split; [apply optf_range; [assumption | lia | lia]|]. split; [apply optf_range; [assumption | lia | lia]|]. split; [exact S5|].
  split; [|split; [exact S7|]; split; [exact S8 | exact S9]].
  unfold optf in *. destruct (nz (palette_mode_enabled_flag e)); cbn [andb] in *; [|exact S6].
  destruct (nz (sps_palette_predictor_initializers_present_flag e)) eqn:P; [|exact S6]. unfold u_ok in S5. unfold nz in P. specialize (L3 ltac:(lia)). unfold ue_le. lia.
Qed.
Lemma in_range n v : ue_ok v -> v <= n -> ue_le n v.
Proof. unfold ue_ok, ue_le. lia. Qed.
Lemma offset_zero (b : bool) v : optf b ue_ok 0 v -> 0 <= v.
Proof. apply optf_nonneg. Qed.
Lemma level_std s : sps_of_level s -> window_condition s -> sps_std s.
Proof.
  intros (S & L & M & HM & (LV1 & LV2 & LV3 & LV4)) W. apply MaxLumaPs_max in HM.
  destruct L as (L1 & L2 & L3 & L4 & L5 & L6 & L7 & L8 & L9 & L10 & L11 & L12 & L13 & L14 & L15 & L16).
  unfold sps_syntax in S. unfold sps_std, sps_ok. cbv zeta in *.
  repeat match type of S with _ /\ _ => let N := fresh "S" in destruct S as [N S] end.
  assert (Kw : pic_width_in_luma_samples s <= 16888) by (apply square_limit; [lia | clear -LV2 HM; lia]).
  assert (Kh : pic_height_in_luma_samples s <= 16888) by (apply square_limit; [lia | clear -LV3 HM; lia]).
  assert (P0 : 0 <= log2_min_luma_coding_block_size_minus3 s) by (match goal with X : ue_ok (log2_min_luma_coding_block_size_minus3 s) |- _ => unfold ue_ok in X; clear -X; lia end).
  assert (P1 : 0 <= log2_diff_max_min_luma_coding_block_size s) by (match goal with X : ue_ok (log2_diff_max_min_luma_coding_block_size s) |- _ => unfold ue_ok in X; clear -X; lia end).
  assert (O1 : 0 <= conf_win_left_offset s) by (eapply offset_zero; eassumption). assert (O2 : 0 <= conf_win_right_offset s) by (eapply offset_zero; eassumption).
  assert (O3 : 0 <= conf_win_top_offset s) by (eapply offset_zero; eassumption). assert (O4 : 0 <= conf_win_bottom_offset s) by (eapply offset_zero; eassumption).
  destruct (sub_cases _ (SubWidthC_cases s) _ _ _ O1 O2 L7) as (_ & _ & C1 & C2). destruct (sub_cases _ (SubHeightC_cases s) _ _ _ O3 O4 L8) as (_ & _ & C3 & C4).
  pose proof (MinCb_8 s _ P0 L4) as M1. pose proof (MinCb_8 s _ P0 L6) as M2.
  assert (V : forall n, optf (nz (vui_parameters_present_flag s)) (is_some (vui_syntax n)) None (sps_vui_parameters s) -> optf (nz (vui_parameters_present_flag s)) (is_some (vui_ok 1 n)) None (sps_vui_parameters s)).
  { intros n X. unfold optf in X |- *. destruct (nz (vui_parameters_present_flag s)); [|exact X]. unfold is_some in X |- *. destruct (sps_vui_parameters s) as [v|]; [|exact X]. apply (vui_within n s); auto. }
  assert (C : forall c l h, optf (nz (sps_scc_extension_flag s)) (is_some (scc_syntax c l h)) None (sps_scc_extension s) -> optf (nz (sps_scc_extension_flag s)) (is_some (sps_scc_ext_ok c l h)) None (sps_scc_extension s)).
  { intros c l h X. unfold optf in X |- *. destruct (nz (sps_scc_extension_flag s)); [|exact X]. unfold is_some in X |- *. destruct (sps_scc_extension s) as [v|]; [|exact X]. apply scc_within; auto. }
  assert (D : forall n, vec n ordering_syntax (sps_ordering s) -> vec n sps_ordering_ok (sps_ordering s)).
  { intros n (X1 & X2). split; [exact X1|]. clear -X2 LV4. induction X2 as [|o l (A & B & E) F IH]; [constructor|]. apply Forall_cons_iff in LV4. destruct LV4 as (G & LV4).
    constructor; [|apply IH, LV4]. pose proof (MaxDpbSize_16 M (pic_width_in_luma_samples s * pic_height_in_luma_samples s)). unfold sps_ordering_ok, ue_le. unfold ue_ok in A. split; [lia|]. split; assumption. }
  assert (Q : forall v, 0 < v -> v <= 16888 -> v mod 8 = 0 -> pic_size_ok kMaxWidth v) by (intros v A B E; split; [change kMaxWidth with 16888; lia | exact E]).
  assert (Z3 : log2_min_luma_coding_block_size_minus3 s <= 3 /\ log2_diff_max_min_luma_coding_block_size s <= 3) by (clear -P0 P1 L12; lia).
  destruct Z3 as (Z3 & Z4).
  repeat (split; [first [assumption | apply in_range; assumption | apply Q; assumption | apply optf_range; [assumption | clear -L3 L5; lia | assumption] | apply V; assumption | apply D; assumption | idtac] |]).
  all: try (apply C; assumption).
Qed.

(** Every SPS of the standard for a level up to 6.2 is accepted and returned exactly, whatever follows it.  The exceptions are the deviations of C25 and C27
    ([sps_no_deviation]) and pictures without chroma subsampling that are more than 16385 samples wide or high (below). *)
Theorem C95_sps : forall b s rest, wf b -> sps_of_level s -> sps_no_deviation s -> window_condition s -> rem b = enc_sps true s ++ rest ->
  exists x b', ParseSps b = Ok (s, x) b' /\ (sps_extension_4bits s = 0 -> x = 0).
Proof. intros b s rest B S N W R. exact (C31_standard_layout b s rest B N (level_std s S W) R). Qed.
Theorem C95_sps_420 : forall b s rest, wf b -> sps_of_level s -> sps_no_deviation s -> chroma_format_idc s = 1 -> rem b = enc_sps true s ++ rest ->
  exists x b', ParseSps b = Ok (s, x) b' /\ (sps_extension_4bits s = 0 -> x = 0).
Proof.
  intros b s rest B S N C R. apply (C95_sps b s rest); auto. split; left; [unfold SubWidthC | unfold SubHeightC]; rewrite C; reflexivity.
Qed.
(** From bytes *)
Theorem C95_data : forall data rbsp s rest, byte_string data -> UnescapeRbsp data = Done rbsp -> sps_of_level s -> sps_no_deviation s -> window_condition s ->
  bits_of rbsp = enc_sps true s ++ rest -> exists x, on_data ParseSps data = Done (Some (s, x)).
Proof.
  intros data rbsp s rest D U S N W R. destruct (sps_std_in s N (level_std s S W)) as [I E]. rewrite E in R. exact (C31_data_entry_point data rbsp s rest D U I R).
Qed.

(** A concrete SPS: that of C31, with a palette the profiles allow *)
Definition C95_sps_ex : sps :=
  mkSPS 0 0 1 C29_ptl 0 1 0 1920 1088 1 0 0 0 4 0 0 4 1 [mkOI 4 2 5] 0 3 0 3 0 0 1 1 (Some C35_data) 1 1 1 7 7 0 2 1
    2 [C34_set0; C34_set1] 1 2 [(17, 1); (255, 0)] 1 1 1
    (Some (mkVUI 1 255 4 3 0 0 1 5 0 1 1 1 1 1 2 2 0 0 0 1 3 4 5 6 1 1001 60000 1 0 0 None 1 0 1 0 0 0 0 15 15))
    1 1 1 1 1 0 (Some (mkSRE 1 0 1 0 1 0 1 0 1)) (Some 1) (Some (mkS3D 0 0 0 0 0 0 0 1 1 1 3 1 1 1 1 1)) (Some (mkSSC 1 1 63 65 1 1 [[255; 0]; [1; 3]; [7; 8]] 2 1)).
(** ... and a wide one in 4:4:4, with an offset [l] of the default display window *)
Definition C95_wide (w l : Z) : sps :=
  mkSPS 0 0 1 C29_ptl 0 3 0 w 64 0 0 0 0 0 0 0 4 1 [mkOI 4 2 5] 0 3 0 3 0 0 0 0 None 0 0 0 0 0 0 0 0 0 [] 0 0 [] 0 0 1
    (Some (mkVUI 0 0 0 0 0 0 0 0 0 0 0 0 0 0 0 0 0 0 0 1 l 0 0 0 0 0 0 0 0 0 None 0 0 0 0 0 0 0 0 0)) 0 0 0 0 0 0 None None None None.
Lemma wide_syntax w l : (w, l) = (16888, 16384) \/ (w, l) = (16888, 16385) \/ (w, l) = (16896, 0) -> sps_syntax (C95_wide w l).
Proof.
  assert (R : rps_sets_std 0 []) by (split; [split; [reflexivity | exact I] | split; [constructor | exact I]]).
  intros [E|[E|E]]; injection E as -> ->; unfold sps_syntax; cbv zeta;
    (repeat (split; [lazymatch goal with
      | |- rps_sets_std _ _ => exact R
      | |- _ => unfold C95_wide, C29_ptl, vui_syntax, ordering_syntax; solve_ok end|])); unfold C95_wide; solve_ok.
Qed.
Lemma wide_limits w l : (w = 16888 \/ w = 16896) -> 0 <= l < w -> sps_limits (C95_wide w l).
Proof.
  intros W L. assert (D : (MinCbSize (C95_wide w l) | w)) by (exists (w / 8); destruct W as [-> | ->]; reflexivity). assert (D' : (MinCbSize (C95_wide w l) | 64)) by (exists 8; reflexivity).
  unfold sps_limits, vui_limits.
  repeat (split; [first [exact D | exact D' | (unfold C95_wide, SubWidthC, SubHeightC; cbn; lia)]|]).
  split; [|discriminate]. intros v E. injection E as <-. replace (SubWidthC (C95_wide w l)) with 1 by reflexivity. replace (SubHeightC (C95_wide w l)) with 1 by reflexivity. cbn -[Z.mul Z.add]. lia.
Qed.
Lemma wide_no_deviation w l : sps_no_deviation (C95_wide w l).
Proof. split; [constructor|]. intros v h E. injection E as <-. discriminate. Qed.
Lemma wide_level w l M : (w = 16888 /\ M = 35651584 \/ w = 16896 /\ M = 80216064) -> within_level M (C95_wide w l).
Proof.
  intros W. unfold within_level. cbv zeta. destruct W as [(-> & ->)|(-> & ->)]; (split; [discriminate|]; split; [discriminate|]; split; [discriminate|]; constructor; [vm_compute; discriminate | constructor]).
Qed.
Example C95_case : sps_of_level C95_sps_ex /\ sps_no_deviation C95_sps_ex /\ window_condition C95_sps_ex /\
  sps_of_level (C95_wide 16888 16384) /\ ~ window_condition (C95_wide 16888 16384).
Proof.
  split; [|split; [|split; [|split]]].
  - split; [|split].
    + pose proof C31_sets as S. destruct C35_case as [SL _]. unfold sps_syntax. cbv zeta.
      repeat (split; [lazymatch goal with
        | |- rps_sets_std _ _ => exact S
        | |- optf _ (is_some (scaling_list_data_ok _)) _ _ => exact SL
        | |- _ => unfold C95_sps_ex, C29_ptl, vui_syntax, scc_syntax, ordering_syntax; solve_ok end|]). unfold C95_sps_ex, scc_syntax; solve_ok.
    + assert (D : (MinCbSize C95_sps_ex | 1920)) by (exists 240; reflexivity). assert (D' : (MinCbSize C95_sps_ex | 1088)) by (exists 136; reflexivity).
      unfold sps_limits, vui_limits, scc_limits. repeat (split; [first [exact D | exact D' | (vm_compute; first [reflexivity | discriminate | (split; discriminate)])]|]).
      split; [intros v E; injection E as <-; vm_compute; repeat (split; [first [reflexivity | discriminate]|]); discriminate|]. intros e E. injection E as <-. vm_compute. split; [discriminate|]. split; discriminate.
    + exists 2228224. split; [cbn; tauto|]. unfold within_level. cbv zeta. split; [discriminate|]. split; [discriminate|]. split; [discriminate|]. constructor; [vm_compute; discriminate | constructor].
  - split; [constructor|]. intros v h E. injection E as <-. discriminate.
  - split; left; reflexivity.
  - split; [apply wide_syntax; auto|]. split; [apply wide_limits; lia|]. exists 35651584. split; [cbn; tauto | apply wide_level; lia].
  - intros ([W|W] & _); [discriminate W | revert W; cbn; lia].
Qed.
(** The exception is real: an SPS of level 6.2 in 4:4:4, 16888 samples wide, whose default display window cuts 16385 of them off, is rejected. *)
Theorem C95_wide_window_rejected : sps_of_level (C95_wide 16888 16385) /\ sps_no_deviation (C95_wide 16888 16385) /\
  on_data ParseSps (pack (enc_sps true (C95_wide 16888 16385) ++ [true])) = Done None.
Proof.
  split; [|split; [apply wide_no_deviation | vm_compute; reflexivity]].
  split; [apply wide_syntax; auto|]. split; [apply wide_limits; lia|]. exists 35651584. split; [cbn; tauto | apply wide_level; lia].
Qed.
(** ... and so are the larger pictures of level 6.3 (MaxLumaPs = 80216064): 16896 samples wide. *)
Theorem C95_level_6_3_rejected : sps_syntax (C95_wide 16896 0) /\ sps_limits (C95_wide 16896 0) /\ within_level 80216064 (C95_wide 16896 0) /\ sps_no_deviation (C95_wide 16896 0) /\
  on_data ParseSps (pack (enc_sps true (C95_wide 16896 0) ++ [true])) = Done None.
Proof.
  split; [apply wide_syntax; auto|]. split; [apply wide_limits; lia|]. split; [apply wide_level; lia|]. split; [apply wide_no_deviation | vm_compute; reflexivity].
Qed.
(** Its size is reported as it is: the cropped size of the standard, never empty, and the picture is covered by whole minimum coding blocks. *)
Theorem C95_resolution : forall b s rest b0, wf b -> sps_of_level s -> sps_no_deviation s -> window_condition s -> rem b = enc_sps true s ++ rest ->
  exists x b' w h, ParseSps b = Ok (s, x) b' /\ getResolution s b0 = Ok (w, h) b0 /\
    w = pic_width_in_luma_samples s - SubWidthC s * (conf_win_left_offset s + conf_win_right_offset s) /\
    h = pic_height_in_luma_samples s - SubHeightC s * (conf_win_top_offset s + conf_win_bottom_offset s) /\
    1 <= w <= pic_width_in_luma_samples s /\ 1 <= h <= pic_height_in_luma_samples s /\
    getPicWidthInMinCbsY s * MinCbSize s = pic_width_in_luma_samples s /\ getPicHeightInMinCbsY s * MinCbSize s = pic_height_in_luma_samples s.
Proof.
  intros b s rest b0 B S N W R. destruct (C95_sps b s rest B S N W R) as (x & b' & E & _). exists x, b', (cropped_width s), (cropped_height s).
  split; [exact E|]. split; [exact (C33_cropped_size b s x b' b0 B E)|]. split; [reflexivity|]. split; [reflexivity|].
  destruct S as (_ & L & _). destruct L as (_ & _ & _ & L4 & _ & L6 & L7 & L8 & _). destruct (C33_positive b s x b' B E L7 L8) as (P1 & P2). split; [exact P1|]. split; [exact P2|].
  destruct (C32_geometry b s x b' B E) as (_ & _ & G3 & _ & _ & _ & _ & _ & _ & G10 & G11 & _). rewrite G10, G11.
  destruct L4 as (k & L4). destruct L6 as (k' & L6). rewrite L4, L6, !Z.div_mul by (clear -G3; lia). split; reflexivity.
Qed.
