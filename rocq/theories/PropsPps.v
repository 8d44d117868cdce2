(** C36 and the PPS part of C52. *)
From Coq Require Import ZArith List Bool Lia ZifyBool ZifyNat.
From Verif Require Import MBase MBitBuffer Spec BitsFacts Reader ReaderFacts Rules Syntax SyntaxSe MCommon CommonFacts PropsBits PropsCommon
  MSyntaxA SpecA FactsA Api PropsA MSyntaxB SpecB FactsB FactsRps PropsB MSps SpecSps FactsSps PropsSps MPps SpecPps FactsPps.
Import ListNotations.
Open Scope Z_scope.

(** * C52, PPS extensions *)
(** The layouts of the code, exactly ([false]: with its deviations from the standard). *)
Theorem C52_pps_multilayer_layout_of_the_code :
  reads_layout ovf_only ParsePpsMultilayerExtension (pps_ml_ext_ok false) (pps_ml_ext_ok false) (enc_pps_ml_ext false).
Proof. apply reads_layout_intro; [apply parses_pps_ml_ext|apply wpa_pps_ml_ext]. Qed.
Theorem C52_pps_scc_layout_of_the_code :
  reads_layout ovf_only ParsePpsSccExtension (pps_scc_ext_ok false) (pps_scc_ext_ok false) (enc_pps_scc_ext false).
Proof. apply reads_layout_intro; [apply parses_pps_scc_ext|apply wpa_pps_scc_ext]. Qed.
(** They are the standard's without resampling phases (standard: ue(v), code: se(v)) and without palette initialisers (standard: chroma
    depth if not monochrome, code: if monochrome). *)
Definition no_phases (s : pps_ml_ext) : Prop := Forall (fun r => resample_phase_set_present_flag r = 0) (ref_locs s).
Definition no_initialisers (s : pps_scc_ext) : Prop :=
  pps_palette_predictor_initializer_present_flag s = 0 \/ pps_num_palette_predictor_initializer s = 0.
Lemma no_phases_same s : no_phases s -> enc_pps_ml_ext true s = enc_pps_ml_ext false s /\ (pps_ml_ext_ok true s <-> pps_ml_ext_ok false s).
Proof.
  intros N. unfold no_phases in N. unfold enc_pps_ml_ext, pps_ml_ext_ok, vec. split.
  - assert (E : flat_map (enc_ref_loc true) (ref_locs s) = flat_map (enc_ref_loc false) (ref_locs s)); [|rewrite E; reflexivity].
    induction N as [|r l Hr N IH]; [reflexivity|]. change (enc_ref_loc true r ++ flat_map (enc_ref_loc true) l = enc_ref_loc false r ++ flat_map (enc_ref_loc false) l).
    rewrite IH. f_equal. unfold enc_ref_loc. rewrite Hr. reflexivity.
  - assert (E : Forall (ref_loc_ok true) (ref_locs s) <-> Forall (ref_loc_ok false) (ref_locs s)); [|tauto].
    induction N as [|r l Hr N IH]; [split; constructor|]. rewrite !Forall_cons_iff, IH. unfold ref_loc_ok. rewrite Hr. unfold optf, nz. cbn. tauto.
Qed.
Lemma no_initialisers_same s : no_initialisers s -> pps_scc_ext_ok true s \/ pps_scc_ext_ok false s ->
  enc_pps_scc_ext true s = enc_pps_scc_ext false s /\ (pps_scc_ext_ok true s <-> pps_scc_ext_ok false s).
Proof.
  intros N O. assert (P : nz (pps_palette_predictor_initializer_present_flag s) && (0 <? pps_num_palette_predictor_initializer s) = false).
  { destruct N as [->| ->]; [reflexivity|]. apply andb_false_r. }
  unfold enc_pps_scc_ext, pps_scc_ext_ok. cbv zeta. rewrite P. cbn [andb]. split; [reflexivity|tauto].
Qed.
Theorem C52_pps_multilayer_standard : forall b s rest, wf b -> no_phases s -> pps_ml_ext_ok true s -> rem b = enc_pps_ml_ext true s ++ rest ->
  ParsePpsMultilayerExtension b = Ok s (adv b (length (enc_pps_ml_ext true s))).
Proof.
  intros b s rest W N O R. destruct (no_phases_same s N) as [E I]. rewrite E in *. apply I in O.
  destruct (C52_pps_multilayer_layout_of_the_code b W) as [_ C]. exact (C s rest O R).
Qed.
Theorem C52_pps_scc_standard : forall b s rest, wf b -> no_initialisers s -> pps_scc_ext_ok true s -> rem b = enc_pps_scc_ext true s ++ rest ->
  ParsePpsSccExtension b = Ok s (adv b (length (enc_pps_scc_ext true s))).
Proof.
  intros b s rest W N O R. destruct (no_initialisers_same s N (or_introl O)) as [E I]. rewrite E in *. apply I in O.
  destruct (C52_pps_scc_layout_of_the_code b W) as [_ C]. exact (C s rest O R).
Qed.
(** Standard extensions that are misread. *)
Definition C52_phases : pps_ml_ext := mkPML 1 1 5 1 [mkRL 3 1 (Some (mkQ (-1) 2 (-3) 4)) 0 None 1 (Some (mkQ 1 2 3 4))] 0.
Definition C52_palette : pps_scc_ext := mkPSC 1 0 0 0 0 0 1 1 0 2 2 [[1023]; [512]; [7]].
Theorem C52_pps_refuted :
  (exists s, pps_ml_ext_ok true s /\ on_buffer ParsePpsMultilayerExtension (pack (enc_pps_ml_ext true s)) <> Done (Some s)) /\
  (exists s, pps_scc_ext_ok true s /\ on_buffer ParsePpsSccExtension (pack (enc_pps_scc_ext true s)) <> Done (Some s)).
Proof.
  split.
  - exists C52_phases. split; [unfold C52_phases; solve_ok|]. vm_compute. discriminate.
  - exists C52_palette. split; [unfold C52_palette; solve_ok|]. vm_compute. discriminate.
Qed.
Definition C52_ml : pps_ml_ext := mkPML 1 1 5 2 [mkRL 3 1 (Some (mkQ (-1) 2 (-3) 4)) 0 None 0 None; mkRL 63 0 None 1 (Some (mkQ 0 (-7) 1000 5)) 0 None] 0.
Definition C52_psc : pps_scc_ext := mkPSC 1 1 1 (-7) 12 3 0 0 0 0 0 [].
Example C52_pps_case : pps_ml_ext_ok true C52_ml /\ no_phases C52_ml /\ pps_scc_ext_ok true C52_psc /\ no_initialisers C52_psc /\
  on_buffer ParsePpsMultilayerExtension (pack (enc_pps_ml_ext true C52_ml)) = Done (Some C52_ml) /\
  on_buffer ParsePpsSccExtension (pack (enc_pps_scc_ext true C52_psc)) = Done (Some C52_psc).
Proof.
  split; [unfold C52_ml; solve_ok|]. split; [repeat constructor|]. split; [unfold C52_psc; solve_ok|]. split; [left; reflexivity|].
  split; vm_compute; reflexivity.
Qed.

(** * C36 *)
(** Whatever is returned has all its fields in range, tile vectors of the announced lengths and neither a range nor a 3D extension; if its
    multilayer extension (when announced) was parsed, its encoding is what was consumed. *)
Theorem C36_accepted : forall b s x b', wf b -> ParsePps b = Ok (s, x) b' ->
  pps_ok_out s /\ u_ok 1 x /\ wf b' /\
  exists bs tail, rem b = bs ++ tail ++ rem b' /\ b' = adv b (length bs + length tail) /\ (ml_parsed s -> agree bs (enc_pps false s)).
Proof.
  intros b s x b' W E. unfold ParsePps, finish in E. unfold bind at 1 in E. pose proof (wp_pps b W) as H.
  destruct (ParsePpsBody b) as [s0 b1|b1|e]; [|discriminate|discriminate]. destruct H as (bs & S & O & A).
  destruct (finish_tail (fun s => nz (pps_extension_4bits s)) s0 b1 (steps_wf _ _ _ W S)) as (x0 & b2 & bs2 & E1 & S1 & Hx & _).
  rewrite E1 in E. injection E as <- <- <-. pose proof (steps_trans _ _ _ _ _ S S1) as T. destruct (steps_facts _ _ _ W T) as (W' & _).
  split; [exact O|]. split; [exact Hx|]. split; [exact W'|]. exists bs, bs2. destruct T as [T1 T2]. rewrite <- app_assoc in T1. rewrite app_length in T2.
  split; [exact T1|]. split; [exact T2|]. exact A.
Qed.
(** The only possible undefined behaviour is signed overflow (C03, C35), and only if the bits contain 24 consecutive zeros; the reader never leaves the buffer. *)
Theorem C36_safe : forall b, wf b -> match ParsePps b with Ok _ b' | Fail b' => wf b' /\ bb_bytes b' = bb_bytes b /\ pos b <= pos b' | Err e => e = SignedOverflow /\ zrun 24 (rem b) end.
Proof.
  intros b W. unfold ParsePps, finish. unfold bind at 1. pose proof (wp_pps b W) as H.
  destruct (ParsePpsBody b) as [s0 b1|b1|e].
  - destruct H as (bs & S & _). destruct (finish_tail (fun s => nz (pps_extension_4bits s)) s0 b1 (steps_wf _ _ _ W S)) as (x0 & b2 & bs2 & E1 & S1 & _).
    rewrite E1. eapply steps_facts; [exact W|]. eapply steps_trans; eassumption.
  - destruct H as (bs & S). eapply steps_facts; eassumption.
  - exact H.
Qed.
(** Every PPS is returned from its encoding in the layout of the code. *)
Theorem C36_layout_of_the_code : forall b s rest, wf b -> pps_ok_in s -> rem b = enc_pps false s ++ rest ->
  exists x b', ParsePps b = Ok (s, x) b' /\ (pps_extension_4bits s = 0 -> x = 0) /\
    forall d k, pps_extension_4bits s <> 0 -> (k < 8)%nat -> rest = d ++ true :: repeat false k -> x = last_bit d.
Proof.
  intros b s rest W O R. unfold ParsePps, finish. unfold bind at 1. rewrite (parses_pps s O b rest W R).
  destruct (finish_tail (fun s => nz (pps_extension_4bits s)) s (adv b (length (enc_pps false s))) (wf_adv_app _ _ _ W R)) as (x & b' & bs & E1 & _ & _ & H1 & H2).
  exists x, b'. split; [exact E1|]. split.
  - intros Z4. apply H1. rewrite Z4. reflexivity.
  - intros d k N Hk Er. apply (H2 d k); [unfold nz; lia|exact Hk|]. rewrite (rem_adv_app _ _ _ W R). exact Er.
Qed.
(** ... which is the standard's for PPSs whose extensions do not have the parts of C52_pps_refuted. *)
Definition pps_std : pps -> Prop := pps_ok true (fun v => -128 <= v <= 247) (is_some (pps_ml_ext_ok true)).
Definition pps_no_deviation (s : pps) : Prop :=
  (forall e, pps_multilayer_extension s = Some e -> no_phases e) /\ (forall e, pps_scc_extension s = Some e -> no_initialisers e).
Lemma pps_std_in s : pps_no_deviation s -> pps_std s -> pps_ok_in s /\ enc_pps true s = enc_pps false s.
Proof.
  intros [P V] O. unfold pps_std, pps_ok_in, pps_ok in *. cbv zeta in *.
  assert (Mv : optf (nz (pps_multilayer_extension_flag s)) (is_some (pps_ml_ext_ok true)) None (pps_multilayer_extension s) ->
    optf (nz (pps_multilayer_extension_flag s)) (is_some (pps_ml_ext_ok false)) None (pps_multilayer_extension s) /\
    enc_opt (enc_pps_ml_ext true) (pps_multilayer_extension s) = enc_opt (enc_pps_ml_ext false) (pps_multilayer_extension s)).
  { clear O. unfold optf, is_some, enc_opt. destruct (pps_multilayer_extension s) as [v|]; [|auto]. destruct (no_phases_same v (P v eq_refl)) as [-> I].
    destruct (nz (pps_multilayer_extension_flag s)); [tauto|auto]. }
  assert (Cv : optf (nz (pps_scc_extension_flag s)) (is_some (pps_scc_ext_ok true)) None (pps_scc_extension s) ->
    optf (nz (pps_scc_extension_flag s)) (is_some (pps_scc_ext_ok false)) None (pps_scc_extension s) /\
    enc_opt (enc_pps_scc_ext true) (pps_scc_extension s) = enc_opt (enc_pps_scc_ext false) (pps_scc_extension s)).
  { clear O. unfold optf, is_some, enc_opt. destruct (nz (pps_scc_extension_flag s)); [|intros ->; auto]. destruct (pps_scc_extension s) as [v|]; [|auto].
    intros O. destruct (no_initialisers_same v (V v eq_refl) (or_introl O)) as [-> I]. tauto. }
  assert (Sv : optf (nz (pps_scaling_list_data_present_flag s)) (is_some (scaling_list_data_ok (fun v => -128 <= v <= 247))) None (pps_scaling_list_data s) ->
               optf (nz (pps_scaling_list_data_present_flag s)) (is_some (scaling_list_data_ok sl_range)) None (pps_scaling_list_data s)).
  { clear O. unfold optf, is_some. destruct (nz (pps_scaling_list_data_present_flag s)); [|auto]. destruct (pps_scaling_list_data s) as [d|]; [|auto].
    apply scaling_list_data_mono. unfold sl_range. intros; lia. }
  assert (Mo : optf (nz (pps_multilayer_extension_flag s)) (is_some (pps_ml_ext_ok true)) None (pps_multilayer_extension s)) by tauto.
  assert (Co : optf (nz (pps_scc_extension_flag s)) (is_some (pps_scc_ext_ok true)) None (pps_scc_extension s)) by tauto.
  apply Mv in Mo. apply Cv in Co. destruct Mo as [Mo Me], Co as [Co Ce]. clear Mv Cv.
  split; [|unfold enc_pps; rewrite Me, Ce; reflexivity].
  repeat (destruct O as [?H O]). repeat (split; [first [assumption | auto]|]). assumption.
Qed.
Theorem C36_standard_layout : forall b s rest, wf b -> pps_no_deviation s -> pps_std s -> rem b = enc_pps true s ++ rest ->
  exists x b', ParsePps b = Ok (s, x) b' /\ (pps_extension_4bits s = 0 -> x = 0).
Proof.
  intros b s rest W N O R. destruct (pps_std_in s N O) as [I E]. rewrite E in R.
  destruct (C36_layout_of_the_code b s rest W I R) as (x & b' & Ep & H0 & _). eauto.
Qed.
(** Tile vectors. *)
Theorem C36_tile_vectors : forall b s x b', wf b -> ParsePps b = Ok (s, x) b' ->
  let explicit := nz (tiles_enabled_flag s) && negb (nz (uniform_spacing_flag s)) in
  Z.of_nat (length (column_width_minus1 s)) = (if explicit then num_tile_columns_minus1 s else 0) /\
  Z.of_nat (length (row_height_minus1 s)) = (if explicit then num_tile_rows_minus1 s else 0).
Proof.
  intros b s x b' W E. destruct (C36_accepted b s x b' W E) as (O & _). unfold pps_ok_out, pps_ok in O. cbv zeta in *.
  assert (G : forall n l, optf (nz (tiles_enabled_flag s)) ue_ok 0 n -> optf (nz (tiles_enabled_flag s) && negb (nz (uniform_spacing_flag s))) (vec n ue_ok) [] l ->
    Z.of_nat (length l) = (if nz (tiles_enabled_flag s) && negb (nz (uniform_spacing_flag s)) then n else 0)).
  { clear O. intros n l Hn Hl. unfold optf, ue_ok, vec in *. destruct (nz (tiles_enabled_flag s)); cbn [andb] in *; [|subst; reflexivity].
    destruct (nz (uniform_spacing_flag s)); cbn [negb] in *; [subst; reflexivity|]. lia. }
  split; apply G; tauto.
Qed.
(** Range and 3D extensions never get through. *)
Theorem C36_unsupported_extensions_rejected : forall b s x b', wf b -> ParsePps b = Ok (s, x) b' ->
  pps_range_extension_flag s = 0 /\ pps_3d_extension_flag s = 0.
Proof. intros b s x b' W E. destruct (C36_accepted b s x b' W E) as (O & _). unfold pps_ok_out, pps_ok in O. cbv zeta in O. tauto. Qed.
(** From bytes, with emulation prevention. *)
Theorem C36_data_entry_point : forall data rbsp s rest, byte_string data -> UnescapeRbsp data = Done rbsp -> pps_ok_in s ->
  bits_of rbsp = enc_pps false s ++ rest -> exists x, on_data ParsePps data = Done (Some (s, x)).
Proof.
  intros data rbsp s rest D E O R. destruct (Unescape_byte_string data D) as (rbsp' & E' & [F L]). rewrite E in E'. injection E' as <-.
  unfold on_data, on_buffer, init_ok. rewrite E. replace (Z.of_nat (length rbsp) <=? u32_max) with true by (unfold u32_max; lia).
  destruct (C36_layout_of_the_code _ s rest (wf_mk rbsp F L) O R) as (x & b' & Ep & _). rewrite Ep. eauto.
Qed.
(** A PPS with explicit tiles, deblocking, scaling lists, multilayer and SCC extensions. *)
Definition C36_pps : pps :=
  mkPPS 3 0 1 1 2 1 1 3 2 (-11) 1 1 1 2 (-12) 12 1 1 1 1 1 1 2 1 0 [4; 5] [3] 1 1 1 1 0 6 (-6) 1 (Some C35_data) 1 3 1 1 0 1 0 1 0 (Some C52_ml) (Some C52_psc).
Example C36_case : pps_std C36_pps /\ pps_no_deviation C36_pps /\ on_data ParsePps (pack (enc_pps true C36_pps ++ [true])) = Done (Some (C36_pps, 0)).
Proof.
  split; [|split].
  - destruct C35_case as [SL _]. unfold pps_std, pps_ok. cbv zeta.
    repeat (split; [lazymatch goal with
      | |- optf _ (is_some (scaling_list_data_ok _)) _ _ => exact SL
      | |- _ => unfold C36_pps, C52_ml; solve_ok end|]). unfold C36_pps, C52_psc; solve_ok.
  - split; intros e E; injection E as <-; [repeat constructor|left; reflexivity].
  - vm_compute. reflexivity.
Qed.
(** A PPS whose multilayer extension (colour_mapping_enabled_flag = 1) cannot be parsed is returned without it. *)
Definition C36_bad : list bool :=
  enc_pps false (mkPPS 0 0 0 0 0 0 0 0 0 0 0 0 0 0 0 0 0 0 0 0 0 0 0 0 0 [] [] 0 0 0 0 0 0 0 0 None 0 0 0 1 0 1 0 0 0 None None) ++
  enc_pps_ml_ext false (mkPML 0 0 0 0 [] 1) ++ [true].
Theorem C36_refuted : exists s x, on_data ParsePps (pack C36_bad) = Done (Some (s, x)) /\ pps_multilayer_extension_flag s = 1 /\ pps_multilayer_extension s = None.
Proof. do 2 eexists. split; [vm_compute; reflexivity|]. split; reflexivity. Qed.
