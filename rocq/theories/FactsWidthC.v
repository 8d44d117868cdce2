(** Bounds on the length of the text: SPS, PPS and slice headers. *)
From Coq Require Import ZArith List Bool Lia ZifyBool ZifyNat String Ascii.
From Verif Require Import MBase MBitBuffer Spec Rules ReaderFacts Syntax SyntaxSe MCommon PropsCommon MSyntaxA SpecA MProfile MSyntaxB SpecB MSps SpecSps FactsSps MPps SpecPps FactsPps
  MSlice SpecSlice FactsSlice MSei SpecSei MNal MRtp MText SpecSize FactsWidth FactsWidthB.
Import ListNotations.
Open Scope string_scope.
Open Scope Z_scope.

(** * Scaling lists *)
Lemma vsize_app {A} (g : A -> Z) l l' : vsize g (l ++ l')%list = vsize g l + vsize g l'.
Proof. unfold vsize, total. induction l as [|x l IH]; cbn [fold_right app]; lia. Qed.
Lemma vsize_map {A B} (f : A -> B) g l : vsize g (map f l) = vsize (fun x => g (f x)) l.
Proof. unfold vsize, total. induction l as [|x l IH]; cbn [fold_right map]; [reflexivity | rewrite IH; reflexivity]. Qed.
Lemma len_vsize {A} (l : list A) : len l = vsize (fun _ => 0) l.
Proof. unfold vsize, total, len. induction l as [|x l IH]; cbn [fold_right List.length]; lia. Qed.
Lemma spread_size {A} (g : A -> Z) d k l : 0 <= g d -> (forall x, 0 <= g x) -> vsize g (spread d k l) <= vsize g l + 4 * (1 + g d).
Proof.
  intros D N. destruct (le_lt_dec 1 (List.length l)) as [_|_].
  all: unfold spread; destruct k as [|[|[|[|k]]]]; try (clear; destruct l; cbn [vsize]; lia); destruct l as [|a [|b [|c l]]]; unfold vsize, total; cbn [fold_right]; lia.
Qed.
Lemma rows_size {A} (g : A -> Z) (f : scaling_list -> A) d s : (forall x, 0 <= g x) ->
  vsize (vsize g) (rows f d s) <= vsize (fun r => vsize (fun x => g (f x)) r + 4 * (1 + g d)) s.
Proof.
  intros N. unfold rows. generalize 0%nat as k. induction s as [|r s IH]; intros k; cbn [List.length seq combine map]; [unfold vsize, total; cbn; lia|].
  specialize (IH (S k)). unfold vsize at 1 3. unfold total. cbn [fold_right]. unfold vsize at 1 in IH. unfold total in IH.
  pose proof (spread_size g d k (map f r) (N d) N) as P. rewrite vsize_map in P. unfold vsize at 2 in IH. unfold total in IH. cbn [fst snd]. lia.
Qed.
Lemma sld_size_nn s : 0 <= scaling_list_data_size s.
Proof. apply vsize_nn. intros r. apply vsize_nn. intros x. apply len_nn. Qed.
Lemma rows_z (f : scaling_list -> Z) s : vsize len (rows f 0 s) <= 5 * scaling_list_data_size s.
Proof.
  rewrite (vsize_ext len (vsize (fun _ => 0))) by (intros; apply len_vsize). pose proof (rows_size (fun _ => 0) f 0 s ltac:(lia)) as P. cbv beta in P.
  assert (Q : vsize (fun r : list scaling_list => vsize (fun _ => 0) r + 4 * (1 + 0)) s <= 5 * scaling_list_data_size s); [|lia].
  unfold scaling_list_data_size. clear P. induction s as [|r s IH]; [cbn; lia|]. unfold vsize at 1 3. unfold total. cbn [fold_right].
  unfold vsize at 1 3 in IH. unfold total in IH. pose proof (vsize_le (fun _ => 0) (fun x => len (sl_coefs x)) r (fun x _ => len_nn _)).
  pose proof (vsize_nn (fun _ : scaling_list => 0) r ltac:(lia)). lia.
Qed.
Lemma rows_l s : vsize (vsize len) (rows sl_coefs [] s) <= 5 * scaling_list_data_size s.
Proof.
  pose proof (rows_size len sl_coefs [] s len_nn) as P. change (len (@nil Z)) with 0 in P.
  assert (Q : vsize (fun r : list scaling_list => vsize (fun x => len (sl_coefs x)) r + 4 * (1 + 0)) s <= 5 * scaling_list_data_size s); [|lia].
  unfold scaling_list_data_size. clear P. induction s as [|r s IH]; [cbn; lia|]. unfold vsize at 1 3. unfold total. cbn [fold_right].
  unfold vsize at 1 3 in IH. unfold total in IH. pose proof (vsize_nn (fun x : scaling_list => len (sl_coefs x)) r (fun x => len_nn _)). lia.
Qed.
Lemma vsize_skipn {A} (g : A -> Z) n l : (forall x, 0 <= g x) -> vsize g (skipn n l) <= vsize g l.
Proof. intros N. rewrite <- (firstn_skipn n l) at 2. rewrite vsize_app. pose proof (vsize_nn g (firstn n l) N). lia. Qed.
Lemma tsz_sld d s : 0 <= d <= 12 -> tsz d (700 + 240 * scaling_list_data_size s) (text_scaling_list_data s).
Proof.
  intros D. unfold text_scaling_list_data. eapply tsz_mono; [tz|]. rewrite vsize_app.
  pose proof (vsize_skipn len 2 (rows sl_dc 0 s) len_nn). pose proof (rows_z sl_pred_mode_flag s). pose proof (rows_z sl_pred_matrix_id_delta s). pose proof (rows_z sl_dc s). pose proof (rows_l s).
  change (vsize len [repeat 0 6; repeat 0 6]) with 14. lia.
Qed.
(** * Reference picture sets *)
Lemma rps_size_nn r : 0 <= rps_size r.
Proof. unfold rps_size. nn_len. lia. Qed.
Lemma tsz_rps d i n s : 0 <= d <= 12 -> tsz d (1300 + 24 * rps_size s) (text_rps i n s).
Proof. intros D. unfold text_rps. eapply tsz_mono; [tz|]. rewrite !len_map. unfold rps_size. nn_len. lia. Qed.
(** * SPS *)
Lemma tsz_sps_range d s : 0 <= d <= 12 -> tsz d 1000 (text_sps_range s).
Proof. intros D. unfold text_sps_range. eapply tsz_mono; [tz|]. lia. Qed.
Lemma tsz_sps_multilayer d s : 0 <= d <= 12 -> tsz d 200 (text_sps_multilayer s).
Proof. intros D. unfold text_sps_multilayer. eapply tsz_mono; [tz|]. lia. Qed.
Lemma tsz_sps_3d d s : 0 <= d <= 12 -> tsz d 1600 (text_sps_3d s).
Proof. intros D. unfold text_sps_3d. eapply tsz_mono; [tz|]. unfold len. cbn [List.length]. lia. Qed.
Lemma sps_scc_size_nn s : 0 <= sps_scc_size s.
Proof. apply vsize_nn, len_nn. Qed.
Lemma tsz_sps_scc d s : 0 <= d <= 12 -> tsz d (1000 + 12 * sps_scc_size s) (text_sps_scc s).
Proof. intros D. unfold text_sps_scc. eapply tsz_mono; [tz|]. unfold sps_scc_size. lia. Qed.
Lemma tsz_resolution d s : 0 <= d <= 12 -> tsz d 200 (text_resolution s).
Proof. intros D. unfold text_resolution. destruct (getResolution s (mk_bb [])) as [[w h] b|b|e]; [eapply tsz_mono; [tz | lia]..|]. eapply tsz_mono; [apply tsz_bad | lia]. Qed.
Lemma sps_size_nn s : 0 <= sps_size s.
Proof.
  unfold sps_size. pose proof (ptl_size_nn (sps_profile_tier_level s)). pose proof (osize_nn _ (sps_scaling_list_data s) sld_size_nn). pose proof (vsize_nn _ (sps_st_ref_pic_set s) rps_size_nn).
  pose proof (osize_nn _ (sps_vui_parameters s) vui_size_nn). pose proof (osize_nn _ (sps_scc_extension s) sps_scc_size_nn). nn_len. lia.
Qed.
Lemma tsz_sps d a s std inf SE RPS : 0 <= d <= 6 -> sps_ok std inf SE RPS s -> tsz d (25000 + 2600 * sps_size s) (text_sps a s).
Proof.
  intros D H. assert (P : ptl_ok std true (sps_max_sub_layers_minus1 s) (sps_profile_tier_level s)) by (unfold sps_ok in H; cbv zeta in H; tauto). clear H.
  unfold text_sps. eapply tsz_mono.
  - tz.
    + eapply tsz_ptl; [lia | eassumption].
    + apply (z_deref _ 700 240 scaling_list_data_size); [lia | intros; apply tsz_sld; lia].
    + apply (tsz_elems _ 1330 rps_size (sps_st_ref_pic_set s)); [lia | apply rps_size_nn | |].
      * intros i r E. unfold telem. rewrite E. eapply tsz_mono; [tz; apply tsz_rps; lia|]. pose proof (rps_size_nn r). lia.
      * intros i E cs. unfold telem. rewrite E. discriminate.
    + apply (z_deref _ 6300 2540 vui_size); [lia | intros; apply tsz_vui; lia].
    + apply (z_deref0 _ 1000); [lia | intros; apply tsz_sps_range; lia].
    + apply (z_deref0 _ 200); [lia | intros; apply tsz_sps_multilayer; lia].
    + apply (z_deref0 _ 1600); [lia | intros; apply tsz_sps_3d; lia].
    + apply (z_deref _ 1000 12 sps_scc_size); [lia | intros; apply tsz_sps_scc; lia].
    + apply tsz_resolution. lia.
  - rewrite !len_map. unfold sps_size. pose proof (ptl_size_nn (sps_profile_tier_level s)). pose proof (osize_nn _ (sps_scaling_list_data s) sld_size_nn). pose proof (vsize_nn _ (sps_st_ref_pic_set s) rps_size_nn).
    pose proof (osize_nn _ (sps_vui_parameters s) vui_size_nn). pose proof (osize_nn _ (sps_scc_extension s) sps_scc_size_nn). nn_len. lia.
Qed.
(** * PPS *)
Lemma col_len f q l : len (col f q l) <= len l.
Proof. apply len_flat. intros x. destruct (f x); vm_compute; discriminate. Qed.
Lemma tsz_pps_multilayer d s : 0 <= d <= 12 -> pps_ml_ext_ok false s -> tsz d (3000 + 250 * pps_ml_size s) (text_pps_multilayer s).
Proof.
  intros D (_ & _ & _ & _ & [_ F] & _). unfold text_pps_multilayer. cbv zeta. eapply tsz_mono; [tz|].
  - apply Forall_map. eapply Forall_impl; [|exact F]. intros r R. unfold ref_loc_ok in R. splitc. rng.
  - apply Forall_map. eapply Forall_impl; [|exact F]. intros r R. unfold ref_loc_ok in R. splitc. rng.
  - rewrite !len_map. unfold pps_ml_size.
    pose proof (col_len rl_scaled q_1 (ref_locs s)). pose proof (col_len rl_scaled q_2 (ref_locs s)). pose proof (col_len rl_scaled q_3 (ref_locs s)). pose proof (col_len rl_scaled q_4 (ref_locs s)).
    pose proof (col_len rl_region q_1 (ref_locs s)). pose proof (col_len rl_region q_2 (ref_locs s)). pose proof (col_len rl_region q_3 (ref_locs s)). pose proof (col_len rl_region q_4 (ref_locs s)).
    pose proof (col_len rl_phase q_1 (ref_locs s)). pose proof (col_len rl_phase q_2 (ref_locs s)). pose proof (col_len rl_phase q_3 (ref_locs s)). pose proof (col_len rl_phase q_4 (ref_locs s)).
    pose proof (len_nn (ref_locs s)). lia.
Qed.
Lemma pps_scc_size_nn s : 0 <= pps_scc_size s.
Proof. apply vsize_nn, len_nn. Qed.
Lemma tsz_pps_scc d s : 0 <= d <= 12 -> tsz d (1300 + 12 * pps_scc_size s) (text_pps_scc s).
Proof. intros D. unfold text_pps_scc. eapply tsz_mono; [tz|]. unfold pps_scc_size. lia. Qed.
Lemma pps_size_nn s : 0 <= pps_size s.
Proof.
  unfold pps_size. pose proof (osize_nn _ (pps_scaling_list_data s) sld_size_nn). pose proof (osize_nn pps_ml_size (pps_multilayer_extension s) (fun e => len_nn _)). pose proof (osize_nn _ (pps_scc_extension s) pps_scc_size_nn). nn_len. lia.
Qed.
Lemma tsz_pps d s : 0 <= d <= 6 -> pps_ok_out s -> tsz d (14000 + 300 * pps_size s) (text_pps s).
Proof.
  intros D H. assert (P : forall e, pps_multilayer_extension s = Some e -> pps_ml_ext_ok false e).
  { intros e E. unfold pps_ok_out, pps_ok in H. cbv zeta in H.
    assert (Q : exists c, optf c ml_out None (pps_multilayer_extension s)) by (eexists; splitc; eassumption).
    destruct Q as [c Q]. rewrite E in Q. destruct c; unfold optf in Q; [exact Q | discriminate Q]. }
  clear H. unfold text_pps. eapply tsz_mono.
  - tz.
    + apply (z_checked _ 720 240 scaling_list_data_size); [lia | intros; eapply tsz_mono; [tz; apply tsz_sld; lia | lia]].
    + apply (z_deref _ 3000 250 pps_ml_size); [lia | intros; apply tsz_pps_multilayer; [lia | auto]].
    + apply (z_deref _ 1300 12 pps_scc_size); [lia | intros; apply tsz_pps_scc; lia].
  - unfold pps_size. pose proof (osize_nn _ (pps_scaling_list_data s) sld_size_nn). pose proof (osize_nn pps_ml_size (pps_multilayer_extension s) (fun e => len_nn _)). pose proof (osize_nn _ (pps_scc_extension s) pps_scc_size_nn). nn_len. lia.
Qed.
(** * Slice headers *)
Lemma pwt_size_nn t : 0 <= pwt_size t.
Proof. unfold pwt_size. nn_len. lia. Qed.
Lemma tsz_pwt d cat cat' n t : 0 <= d <= 12 -> pwt_ok cat' n t -> tsz d (1000 + 80 * pwt_size t) (text_pwt cat t).
Proof.
  intros D (_ & _ & [_ F1] & F2 & _). unfold text_pwt. cbv zeta. eapply tsz_mono; [tz|].
  - apply s64_fs, F1.
  - destruct (negb (cat' =? 0)); unfold optf in F2; [apply s64_fs; exact (proj2 F2) | rewrite F2; constructor].
  - rewrite !len_map, !vsize_map. change (vsize (fun x : quad => len [q_1 x; q_3 x]) (pwt_chroma t)) with (vsize (fun _ : quad => 2) (pwt_chroma t)).
    change (vsize (fun x : quad => len [q_2 x; q_4 x]) (pwt_chroma t)) with (vsize (fun _ : quad => 2) (pwt_chroma t)).
    assert (V : vsize (fun _ : quad => 2) (pwt_chroma t) = 3 * len (pwt_chroma t)) by (unfold vsize, total, len; induction (pwt_chroma t) as [|x l IH]; cbn [fold_right List.length]; lia).
    rewrite V. unfold pwt_size. nn_len. lia.
Qed.
Lemma lt_col_len keep f l : len (lt_col keep f l) <= len l.
Proof.
  unfold lt_col. etransitivity; [apply len_flat; intros x; destruct (keep (fst x) (snd x)); vm_compute; discriminate|]. unfold len. rewrite combine_length. lia.
Qed.
Lemma tsz_lt d s h i : 0 <= d <= 12 -> tsz d (500 + 60 * len (sh_lt h)) (text_lt s h i).
Proof.
  intros D. unfold text_lt. cbv zeta. eapply tsz_mono; [tz|]. rewrite !len_map.
  repeat match goal with |- context [lt_col ?k ?f ?l] => lazymatch goal with H : len (lt_col k f l) <= _ |- _ => fail | _ => pose proof (lt_col_len k f l) end end. pose proof (len_nn (sh_lt h)). lia.
Qed.
Lemma slice_size_nn h : 0 <= slice_size h.
Proof. unfold slice_size. pose proof (osize_nn _ (sh_st_ref_pic_set h) rps_size_nn). pose proof (osize_nn _ (sh_pred_weight_table h) pwt_size_nn). nn_len. lia. Qed.
(** What the text of a slice header needs to know of the header *)
Definition slice_text_ok (h : slice_header) : Prop :=
  u32 (num_long_term_sps h + num_long_term_pics h) <= len (sh_lt h) /\ forall t, sh_pred_weight_table h = Some t -> exists cat n, pwt_ok cat n t.
Lemma slice_ok_text std RPS nut s p h : slice_ok std RPS nut s p h -> slice_text_ok h.
Proof.
  intros H. unfold slice_ok in H. cbv zeta in H.
  match type of H with context [optf ?l (veci _ _) [] (sh_lt h)] => assert (A : optf l (veci (num_long_term_sps h + num_long_term_pics h) (lt_entry_ok s (num_long_term_sps h))) [] (sh_lt h)) by tauto;
    assert (B : optf l ue_ok 0 (num_long_term_pics h)) by tauto; assert (D : optf (l && (0 <? num_long_term_ref_pics_sps s)) ue_ok 0 (num_long_term_sps h)) by tauto end.
  match type of H with context [optf ?l (is_some (pwt_ok ?c ?n)) None (sh_pred_weight_table h)] => assert (Q : optf l (is_some (pwt_ok c n)) None (sh_pred_weight_table h)) by tauto end.
  clear H. split.
  - match type of A with optf ?l _ _ _ => destruct l end; unfold optf in A, B, D; cbn [andb] in D.
    + destruct A as [A _]. unfold len. rewrite A. assert (N : 0 <= num_long_term_sps h) by (destruct (0 <? num_long_term_ref_pics_sps s); unfold ue_ok in D; lia).
      unfold ue_ok in B. unfold u32. pose proof (Z.mod_le (num_long_term_sps h + num_long_term_pics h) (2 ^ 32) ltac:(lia) ltac:(lia)). lia.
    + rewrite B, D, A. vm_compute. discriminate.
  - intros t E. rewrite E in Q. match type of Q with optf ?l _ _ _ => destruct l end; unfold optf, is_some in Q; [eauto | discriminate Q].
Qed.
Lemma tsz_slice_header d s p nut h : 0 <= d <= 6 -> slice_text_ok h -> tsz d (12000 + 600 * slice_size h + 60 * (len (sh_lt h) * len (sh_lt h))) (text_slice_header s p nut h).
Proof.
  intros D [N W]. unfold text_slice_header. cbv zeta. eapply tsz_mono.
  - tz.
    + apply (z_checked _ 1300 24 rps_size); [lia | intros; apply tsz_call, tsz_rps; lia].
    + apply tsz_upto; [intros i; apply tsz_lt; lia | nn_len; lia].
    + apply (z_deref _ 1000 80 pwt_size); [lia|]. intros t E. destruct (W t E) as (cat & n & K). eapply tsz_pwt; [lia | exact K].
  - assert (M : Z.of_nat (Z.to_nat (u32 (num_long_term_sps h + num_long_term_pics h))) * (500 + 60 * len (sh_lt h)) <= len (sh_lt h) * (500 + 60 * len (sh_lt h))).
    { apply Z.mul_le_mono_nonneg_r; [nn_len; lia|]. unfold u32 in *. lia. }
    unfold slice_size. pose proof (osize_nn _ (sh_st_ref_pic_set h) rps_size_nn). pose proof (osize_nn _ (sh_pred_weight_table h) pwt_size_nn). nn_len. lia.
Qed.
Lemma tsz_slice d s p nut h : 0 <= d <= 4 -> slice_text_ok h -> tsz d (13000 + 600 * slice_size h + 60 * (len (sh_lt h) * len (sh_lt h))) (text_slice s p nut h).
Proof. intros D H. unfold text_slice. eapply tsz_mono; [tz; apply tsz_slice_header; [lia | exact H]|]. lia. Qed.
