(** C29 (video parameter set), C34 (st_ref_pic_set), C35 (scaling_list_data), C52 (SPS extensions). *)
From Coq Require Import ZArith List Bool Lia ZifyBool ZifyNat.
From Verif Require Import MBase MBitBuffer Spec BitsFacts Reader ReaderFacts Rules Syntax SyntaxSe MCommon CommonFacts PropsBits PropsCommon
  MSyntaxA SpecA FactsA Api PropsA MSyntaxB SpecB FactsB FactsRps.
Import ListNotations.
Open Scope Z_scope.

(** * C29 *)
(** The layout of the code, for every input ([std] = false in [enc_vps]; see SpecB.v for the two deviations), up to
    vps_extension_flag. *)
Theorem C29_layout_of_the_code : reads_exactly ParseVpsBody (vps_ok false) (enc_vps false).
Proof. apply reads_exactly_intro; [apply parses_vps|apply wp_vps]. Qed.

(** The whole parser: no undefined behaviour on any input; the structure is the one encoded; the extension data flag is the last extension
    bit (0 without extension). *)
Theorem C29_whole_parser : reads_prefix no_err ParseVps (fun s => nz (vps_extension_flag s)) (vps_ok false) (vps_ok false) (enc_vps false).
Proof. apply reads_prefix_intro; [apply parses_vps|apply wpa_exact, wp_vps]. Qed.

Lemma C29_ok_out b s x b' : wf b -> ParseVps b = Ok (s, x) b' -> vps_ok false s.
Proof. intros W E. destruct (C29_whole_parser b W) as [H _]. rewrite E in H. tauto. Qed.

Theorem C29_limits_and_lengths : forall b s x b', wf b -> ParseVps b = Ok (s, x) b' ->
  0 <= vps_max_layer_id s <= 62 /\ 0 <= vps_num_layer_sets_minus1 s <= 1023 /\
  0 <= vps_num_hrd_parameters s <= vps_num_layer_sets_minus1 s + 1 /\
  Z.of_nat (length (vps_ordering s)) = (if nz (vps_sub_layer_ordering_info_present_flag s) then vps_max_sub_layers_minus1 s + 1 else 1) /\
  Z.of_nat (length (layer_id_included_flag s)) = vps_num_layer_sets_minus1 s /\
  Forall (fun l => Z.of_nat (length l) = vps_max_layer_id s + 1) (layer_id_included_flag s) /\
  Z.of_nat (length (vps_hrds s)) = vps_num_hrd_parameters s.
Proof.
  intros b s x b' W E. pose proof (C29_ok_out b s x b' W E) as O. unfold vps_ok in O. cbv zeta in O. unfold ue_le in O.
  assert (V1 : u_ok 3 (vps_max_sub_layers_minus1 s)) by tauto. unfold u_ok in V1.
  assert (V2 : vec (if nz (vps_sub_layer_ordering_info_present_flag s) then vps_max_sub_layers_minus1 s + 1 else 1) ordering_ok (vps_ordering s)) by tauto.
  assert (V3 : 0 <= vps_max_layer_id s <= 62) by tauto. assert (V4 : 0 <= vps_num_layer_sets_minus1 s <= 1023) by tauto.
  assert (V5 : vec (vps_num_layer_sets_minus1 s) (vec (vps_max_layer_id s + 1) (u_ok 1)) (layer_id_included_flag s)) by tauto.
  assert (V6 : optf (nz (vps_timing_info_present_flag s)) (fun v => 0 <= v <= vps_num_layer_sets_minus1 s + 1) 0 (vps_num_hrd_parameters s)) by tauto.
  assert (V7 : optf (nz (vps_timing_info_present_flag s)) (veci (vps_num_hrd_parameters s) (vps_hrd_ok false (vps_max_sub_layers_minus1 s))) [] (vps_hrds s)) by tauto.
  destruct V2 as [L2 _]. destruct V5 as [L5 F5]. clear O; unfold optf in *.
  assert (R6 : 0 <= vps_num_hrd_parameters s <= vps_num_layer_sets_minus1 s + 1) by (clear - V4 V6; destruct (nz (vps_timing_info_present_flag s)); lia).
  split; [exact V3|]. split; [exact V4|]. split; [exact R6|]. split; [rewrite L2; destruct (nz _); lia|]. split; [lia|]. split.
  - eapply Forall_impl; [|exact F5]. intros l [L _]. lia.
  - destruct (nz (vps_timing_info_present_flag s)); [destruct V7 as [L7 _]; lia|]. rewrite V7, V6. reflexivity.
Qed.

(** The standard's layout, for structures without the deviations: no hrd_parameters() loop and agreeing presence flags in
    profile_tier_level() (C25).  Not for vps_num_hrd_parameters > 0 (refuted below; C29_hrd_never). *)
Lemma vps_std s : vps_hrds s = [] -> same_presence (vps_profile_tier_level s) ->
  enc_vps true s = enc_vps false s /\ (vps_ok true s <-> vps_ok false s).
Proof.
  intros H P. destruct (same_presence_ptl true (vps_max_sub_layers_minus1 s) _ P) as [E1 E2]. unfold enc_vps, vps_ok. rewrite E1, E2, H. split; [reflexivity|].
  cbv zeta. unfold veci. change (all_from 0 (vps_hrd_ok true (vps_max_sub_layers_minus1 s)) []) with True.
  change (all_from 0 (vps_hrd_ok false (vps_max_sub_layers_minus1 s)) []) with True. tauto.
Qed.
Theorem C29_standard_layout : forall b s rest, wf b -> vps_hrds s = [] -> same_presence (vps_profile_tier_level s) ->
  vps_ok true s -> rem b = enc_vps true s ++ rest -> exists x b', ParseVps b = Ok (s, x) b'.
Proof.
  intros b s rest W H P O R. destruct (vps_std s H P) as [E1 E2]. rewrite E1 in R. apply E2 in O.
  destruct (C29_whole_parser b W) as [_ C]. destruct (C s rest O R) as (x & b' & E & _). eauto.
Qed.

Definition C29_ptl : ptl := mkPTL (Some C25_example) 93 [] [] [].
Definition C29_vps (nhrd : Z) (hrds : list vps_hrd_entry) : vps_body :=
  mkVPS 0 1 1 0 0 1 65535 C29_ptl 1 [mkOI 4 2 0] 5 1 [[1; 0; 0; 0; 0; 1]] 1 1001 60000 1 0 nhrd hrds 0.
Example C29_case : vps_ok true (C29_vps 0 []) /\ vps_hrds (C29_vps 0 []) = [] /\ same_presence C29_ptl.
Proof. unfold C29_vps, C29_ptl. solve_ok. Qed.
(** A conforming VPS the parser misreads: with hrd_parameters(), whose common part is present (cprms_present_flag[0] is
    inferred to be 1) but not read. *)
Theorem C29_refuted : exists s bytes, vps_ok true s /\ Forall is_byte bytes /\ (exists rest, bits_of bytes = enc_vps true s ++ rest) /\
  forall x b', ParseVps (mk_bb bytes) <> Ok (s, x) b'.
Proof.
  pose (h := mkHRD 1 0 0 0 0 0 0 0 0 0 0 0 0 [mkHS 0 1 2 0 0 (Some [mkCPB 0 0 0 0 0]) None]).
  pose (s := C29_vps 1 [mkVH 0 1 h]).
  exists s. let l := eval vm_compute in (pack (enc_vps true s)) in exists l.
  split; [unfold s, h, C29_vps, C29_ptl; solve_ok|]. split; [repeat constructor; discriminate|].
  split; [eexists; vm_compute; reflexivity|]. intros x b'. vm_compute. congruence.
Qed.

(** * C34 *)
(** Every set the parser returns, given any history of previously returned sets ([sets_ok]: each has the shape stated here), has at
    most 16 pictures; inter prediction refers to an earlier set; the only undefined behaviour possible is a signed overflow in the
    picture order count arithmetic (never an access outside an array: those are [OutOfBounds] in the model). *)
Theorem C34_bounds_and_history : forall idx num sets m b, wf b -> sets_ok idx sets -> 0 <= m <= 16 ->
  match ParseStRefPicSet idx num sets m b with
  | Ok s b' =>
      rps_shape s /\ (nz (inter_ref_pic_set_prediction_flag s) = true -> 0 <= ref_idx idx s < idx) /\
      (nz (inter_ref_pic_set_prediction_flag s) = false -> num_negative_pics s + num_positive_pics s <= m) /\
      rps_ok idx num sets m s /\ (exists rest, rem b = enc_rps idx num s ++ rest) /\ b' = adv b (length (enc_rps idx num s))
  | Fail b' => wf b' /\ bb_bytes b' = bb_bytes b /\ pos b <= pos b'
  | Err e => e = SignedOverflow
  end.
Proof.
  intros idx num sets m b W Hs Hm. pose proof (wp_rps idx num sets m Hs Hm b W) as H.
  destruct (ParseStRefPicSet idx num sets m b) as [s b'|b'|e]; [| |exact H].
  - destruct H as (bs & S & O & ->). destruct S as [S1 S2]. pose proof O as (Sh & _ & _ & Hi).
    split; [exact Sh|]. split; [|split; [|split; [exact O|split; [eauto|exact S2]]]].
    + intros Ei. rewrite Ei in Hi. tauto.
    + intros Ei. rewrite Ei in Hi. tauto.
  - destruct H as (bs & S). eapply steps_facts; eassumption.
Qed.

(** The hypothesis is an invariant: sets returned earlier satisfy it. *)
Theorem C34_history_invariant : forall idx num sets m b s b', wf b -> sets_ok idx sets -> 0 <= m <= 16 -> idx + 1 < 2 ^ 32 ->
  idx = Z.of_nat (length sets) -> ParseStRefPicSet idx num sets m b = Ok s b' -> sets_ok (idx + 1) (sets ++ [s]).
Proof.
  intros idx num sets m b s b' W Hs Hm Hi El E. pose proof (C34_bounds_and_history idx num sets m b W Hs Hm) as H. rewrite E in H.
  destruct H as (Sh & _). destruct Hs as (H1 & H2 & F). split; [lia|]. split; [rewrite app_length; cbn [length]; lia|].
  apply Forall_app. auto.
Qed.

(** With the standard's limits on the differences of the earlier sets the parser is exactly the standard's: no undefined behaviour
    at all, and the derived lists of an inter-predicted set are those of equations 7-61 and 7-62. *)
Theorem C34_exact_for_bounded_history : forall B idx num sets m, sets_ok idx sets -> 0 <= m <= 16 -> sets_bounded B sets ->
  reads_exactly (ParseStRefPicSet idx num sets m) (fun s => rps_ok idx num sets m s /\ rps_derived idx sets s) (enc_rps idx num).
Proof.
  intros B idx num sets m Hs Hm HB. apply reads_exactly_intro.
  - intros s [H1 H2]. eapply parses_rps; eassumption.
  - eapply wp_weaken; [apply (wp_rps_bounded B); assumption|]. cbv beta. tauto.
Qed.
(** An explicitly coded set within the standard's limits (delta_poc_sX_minus1 <= 2^15 - 1) is bounded by 16 * 2^15; every inter
    prediction adds at most 2^15. *)
Lemma delta_pocs_small sign l : sign = 1 \/ sign = -1 -> forall B p, Forall (fun e => 0 <= fst e <= 32767) l -> small B p -> 0 <= B ->
  Forall (small (B + 32768 * Z.of_nat (length l))) (delta_pocs sign p l).
Proof.
  intros Hs. induction l as [|e l IH]; intros B p F Hp HB; [constructor|]. inversion F as [|? ? He F']; subst. cbn [delta_pocs length].
  assert (S : small (B + 32768) (p + sign * (fst e + 1))) by (unfold small in *; destruct Hs as [-> | ->]; lia).
  constructor; [unfold small in *; lia|]. eapply Forall_impl; [|apply (IH (B + 32768)); [exact F'|exact S|lia]]. unfold small. intros. lia.
Qed.
Theorem C34_bound_explicit : forall s, rps_shape s ->
  Forall (fun e => 0 <= fst e <= 32767) (rps_s0 s) -> Forall (fun e => 0 <= fst e <= 32767) (rps_s1 s) -> rps_bounded (2 ^ 19) s.
Proof.
  intros s (N0 & N1 & N16 & _) F0 F1.
  pose proof (delta_pocs_small (-1) (rps_s0 s) (or_intror eq_refl) 0 0 F0 ltac:(unfold small; lia) ltac:(lia)) as H0.
  pose proof (delta_pocs_small 1 (rps_s1 s) (or_introl eq_refl) 0 0 F1 ltac:(unfold small; lia) ltac:(lia)) as H1.
  split; (eapply Forall_impl; [|eassumption]); unfold small; intros a Ha; lia.
Qed.
Theorem C34_bound_inter : forall B idx num sets m b s b', wf b -> sets_ok idx sets -> 0 <= m <= 16 -> sets_bounded B sets ->
  ParseStRefPicSet idx num sets m b = Ok s b' -> nz (inter_ref_pic_set_prediction_flag s) = true -> rps_bounded (B + 32768) s.
Proof.
  intros B idx num sets m b s b' W Hs Hm HB E Hi. pose proof (wp_rps_bounded B idx num sets m Hs Hm HB b W) as H. rewrite E in H.
  destruct H as (bs & _ & _ & _ & _ & H). auto.
Qed.

Definition C34_set0 : rps := mkRPS 0 0 0 0 [] 2 1 [(0, 1); (2, 1)] [(1, 1)].
Definition C34_set1 : rps := mkRPS 1 0 1 0 [(1, 1); (0, 0); (1, 1); (1, 1)] 2 1 [(0, 1); (0, 1)] [(0, 1)].
Example C34_case : sets_ok 1 [C34_set0] /\ sets_bounded (2 ^ 19) [C34_set0] /\ rps_ok 1 4 [C34_set0] 15 C34_set1 /\ rps_derived 1 [C34_set0] C34_set1 /\
  on_buffer (ParseStRefPicSet 1 4 [C34_set0] 15) (pack (enc_rps 1 4 C34_set1)) = Done (Some C34_set1).
Proof.
  assert (Sh : rps_shape C34_set0) by (unfold C34_set0; solve_ok).
  split; [|split; [|split; [|split]]].
  - unfold sets_ok. split; [lia|]. split; [cbn [length]; lia|]. apply Forall_cons; [exact Sh|apply Forall_nil].
  - split; [lia|]. split; [lia|]. apply Forall_cons; [|apply Forall_nil]. apply C34_bound_explicit; [exact Sh|unfold C34_set0; solve_ok..].
  - unfold C34_set1. unfold rps_ok. split; [solve_ok|]. split; [lia|]. split; [solve_ok|]. change (nz (inter_ref_pic_set_prediction_flag (mkRPS 1 0 1 0 [(1, 1); (0, 0); (1, 1); (1, 1)] 2 1 [(0, 1); (0, 1)] [(0, 1)]))) with true. cbv iota. solve_ok.
  - intros _. vm_compute. auto.
  - vm_compute. reflexivity.
Qed.
(** The overflow is reachable: delta_poc_s0_minus1 = 2^32 - 2 in a set used for prediction is read as -2, and two of 2^31 - 1
    overflow. *)
Theorem C34_overflow_refuted : exists s b, rps_shape s /\ sets_ok 1 [s] /\ wf b /\ ParseStRefPicSet 1 2 [s] 16 b = Err SignedOverflow.
Proof.
  pose (s := mkRPS 0 0 0 0 [] 1 0 [(2 ^ 31 - 1, 1)] []).
  exists s, (mk_bb [0xDF]). assert (Sh : rps_shape s) by (unfold s; solve_ok).
  split; [exact Sh|]. split; [split; [lia|]; split; [cbn [length]; lia|]; apply Forall_cons; [exact Sh|apply Forall_nil]|].
  split; [apply wf_mk; [repeat constructor; discriminate|cbn [length]; lia]|]. vm_compute. reflexivity.
Qed.

(** * C35 *)
Theorem C35_layout : reads_layout ovf_only ParseScalingListData (scaling_list_data_ok sl_range) (scaling_list_data_ok se_ok) enc_scaling_list_data.
Proof. apply reads_layout_intro; [apply parses_scaling_list_data|apply wpa_scaling_list_data, ovf_in_only]. Qed.

(** Number of lists, number of coefficients, range of coefficients. *)
Lemma all_from_forall {A} (P : Z -> A -> Prop) l : forall i, all_from i P l -> forall k a, nth_error l k = Some a -> P (i + Z.of_nat k) a.
Proof.
  induction l as [|x l IH]; intros i H k a Hk; [destruct k; discriminate|]. destruct H as [H1 H2]. destruct k as [|k].
  - injection Hk as <-. rewrite Z.add_0_r. exact H1.
  - cbn in Hk. replace (i + Z.of_nat (S k)) with (i + 1 + Z.of_nat k) by lia. eapply IH; eassumption.
Qed.
Theorem C35_coefficients : forall b s b' sizeId lists l, wf b -> ParseScalingListData b = Ok s b' ->
  nth_error s sizeId = Some lists -> In l lists ->
  (sizeId <= 3)%nat /\ length lists = (if Nat.eqb sizeId 3 then 2%nat else 6%nat) /\
  Forall (fun c => 0 <= c <= 255) (sl_coefs l) /\
  length (sl_coefs l) = (if nz (sl_pred_mode_flag l) then Z.to_nat (Z.min 64 (2 ^ (4 + 2 * Z.of_nat sizeId))) else 0%nat).
Proof.
  intros b s b' sizeId lists l W E Hn Hin. destruct (C35_layout b W) as [H _]. rewrite E in H. destruct H as ([L F] & _).
  pose proof (all_from_forall _ _ _ F _ _ Hn) as [Ll Fl]. rewrite Z.add_0_l in *.
  assert (Hs : (sizeId < 4)%nat) by (replace 4%nat with (length s) by exact L; apply nth_error_Some; congruence).
  split; [lia|]. split; [rewrite Ll; destruct (Nat.eqb_spec sizeId 3); destruct (Z.eqb_spec (Z.of_nat sizeId) 3); try reflexivity; lia|].
  rewrite Forall_forall in Fl. specialize (Fl l Hin). destruct Fl as (_ & _ & _ & Hd & Hc). rewrite Hc. split.
  - eapply Forall_impl; [|apply scaling_coefs_range]. cbv beta. intros. lia.
  - rewrite scaling_coefs_length. unfold optf in Hd. destruct (nz (sl_pred_mode_flag l)).
    + destruct Hd as [-> _]. unfold coef_num. do 4 (destruct sizeId as [|sizeId]; [vm_compute; reflexivity|]). lia.
    + rewrite Hd. reflexivity.
Qed.
(** The coefficients are those of 7.3.4, starting from scaling_list_dc_coef_minus8 + 8 or 8. *)
Theorem C35_derivation : forall b s b' sizeId lists l, wf b -> ParseScalingListData b = Ok s b' ->
  nth_error s sizeId = Some lists -> In l lists ->
  sl_coefs l = scaling_coefs (if 1 <? Z.of_nat sizeId then sl_dc l + 8 else 8) (sl_deltas l).
Proof.
  intros b s b' sizeId lists l W E Hn Hin. destruct (C35_layout b W) as [H _]. rewrite E in H. destruct H as ([L F] & _).
  pose proof (all_from_forall _ _ _ F _ _ Hn) as [Ll Fl]. rewrite Z.add_0_l in *. rewrite Forall_forall in Fl. apply Fl, Hin.
Qed.
(** Within the standard's ranges (-128..127 and -7..247) there is no overflow and the structure is returned exactly. *)
Theorem C35_standard_ranges : forall b s rest, wf b -> scaling_list_data_ok (fun v => -128 <= v <= 247) s ->
  rem b = enc_scaling_list_data s ++ rest -> ParseScalingListData b = Ok s (adv b (length (enc_scaling_list_data s))).
Proof.
  intros b s rest W O R. destruct (C35_layout b W) as [_ H]. apply (H s rest); [|exact R].
  destruct O as [L F]. split; [exact L|]. eapply all_from_impl; [|exact F]. cbv beta. intros i a Hi [La Fa]. split; [exact La|].
  eapply Forall_impl; [|exact Fa]. unfold scaling_list_ok. cbv zeta. intros x (H1 & H2 & H3 & H4 & H5). split; [exact H1|]. split; [exact H2|]. split; [|split; [|exact H5]].
  - unfold optf, sl_range in *. destruct (_ && _); [lia|exact H3].
  - unfold optf, sl_range in *. destruct (nz _); [|exact H4]. destruct H4 as [H4 H6]. split; [exact H4|]. eapply Forall_impl; [|exact H6]. cbv beta. lia.
Qed.
Definition C35_list (n : nat) (dc : Z) : scaling_list :=
  let d := 100 :: -120 :: repeat 3 (n - 2) in mkSL 1 0 dc d (scaling_coefs (dc + 8) d).
Definition C35_zero : scaling_list := mkSL 0 1 0 [] [].
Definition C35_data : list (list scaling_list) :=
  [C35_list 16 0 :: repeat C35_zero 5; C35_list 64 0 :: repeat C35_zero 5; repeat C35_zero 5 ++ [C35_list 64 (-7)]; [C35_zero; C35_list 64 247]].
Example C35_case : scaling_list_data_ok (fun v => -128 <= v <= 247) C35_data /\
  on_buffer ParseScalingListData (pack (enc_scaling_list_data C35_data)) = Done (Some C35_data).
Proof.
  split; [|vm_compute; reflexivity]. unfold C35_data, C35_list, C35_zero. cbn [repeat app Nat.sub]. unfold scaling_list_data_ok. solve_ok.
Qed.

(** * C52: SPS extensions (exactly the standard's layout, on every input) *)
Theorem C52_sps_range_extension : reads_exactly ParseSpsRangeExtension sps_range_ext_ok enc_sps_range_ext.
Proof. apply reads_exactly_intro; [apply parses_sps_range_ext|apply wp_sps_range_ext]. Qed.
Theorem C52_sps_multilayer_extension : reads_exactly ParseSpsMultilayerExtension (u_ok 1) (enc_u 1).
Proof. apply reads_exactly_intro; [intros s H; apply parses_u_ok; [lia|exact H]|apply wp_u_ok; lia]. Qed.
Theorem C52_sps_3d_extension : reads_exactly ParseSps3dExtension sps_3d_ext_ok enc_sps_3d_ext.
Proof. apply reads_exactly_intro; [apply parses_sps_3d_ext|apply wp_sps_3d_ext]. Qed.
(** The bit depths are those an accepted SPS can have. *)
Theorem C52_sps_scc_extension : forall chroma_format luma8 chroma8, 0 <= luma8 <= 8 -> 0 <= chroma8 <= 8 ->
  reads_exactly (ParseSpsSccExtension chroma_format luma8 chroma8) (sps_scc_ext_ok chroma_format luma8 chroma8) (enc_sps_scc_ext luma8 chroma8).
Proof. intros. apply reads_exactly_intro; [intros; apply parses_sps_scc_ext; assumption|apply wp_sps_scc_ext; assumption]. Qed.
Definition C52_scc : sps_scc_ext := mkSSC 1 1 63 128 1 1 [[1023; 0]; [512; 513]; [7; 8]] 2 1.
Example C52_sps_scc_case : sps_scc_ext_ok 1 2 2 C52_scc /\
  on_buffer (ParseSpsSccExtension 1 2 2) (pack (enc_sps_scc_ext 2 2 C52_scc)) = Done (Some C52_scc).
Proof. split; [unfold C52_scc; solve_ok|vm_compute; reflexivity]. Qed.
