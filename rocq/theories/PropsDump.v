(** C51: fdump of what the parsers return. *)
From Coq Require Import ZArith List Bool Lia ZifyBool ZifyNat.
From Verif Require Import MBase MBitBuffer Spec BitsFacts Reader ReaderFacts Rules Syntax SyntaxSe MCommon CommonFacts PropsBits PropsCommon
  MFraming FramingFacts PropsFraming MSyntaxA SpecA FactsA Api PropsA MSyntaxB SpecB FactsB FactsRps PropsB MSps SpecSps FactsSps PropsSps
  MPps SpecPps FactsPps PropsPps MSlice SpecSlice FactsSlice PropsSlice MSei SpecSei FactsSei PropsSei MNal FactsNal PropsNal
  MRtp FactsRtp PropsRtp PropsQp FactsTame PropsSafe MDump.
Import ListNotations.
Open Scope Z_scope.
Open Scope dump_scope.
Ltac Zify.zify_post_hook ::= Z.div_mod_to_equations.

(** * The parts *)
Lemma seq_nop d : (nop >> d) = d.
Proof. reflexivity. Qed.
Lemma each_nop {A} (l : list A) d : (forall a, In a l -> d a = nop) -> each l d = nop.
Proof. induction l as [|a l IH]; intros H; [reflexivity|]. cbn [each]. rewrite H by (left; reflexivity). apply IH. intros x Hx. apply H. right. exact Hx. Qed.
Lemma upto_nop n d : (forall i, (i < n)%nat -> d i = nop) -> upto n d = nop.
Proof. induction n as [|n IH]; intros H; [reflexivity|]. cbn [upto]. rewrite IH by (intros i Hi; apply H; lia). apply H. lia. Qed.
Lemma elem_in {A} (l : list A) i d : (i < length l)%nat -> (forall a, In a l -> d a = nop) -> elem l i d = nop.
Proof.
  intros L H. unfold elem. destruct (nth_error l i) as [a|] eqn:E; [apply H; eapply nth_error_In, E|]. apply nth_error_None in E. lia.
Qed.
Lemma only_nop c d : (c = true -> d = nop) -> only c d = nop.
Proof. intros H. destruct c; [apply H; reflexivity|reflexivity]. Qed.
Lemma deref_some {A} (P : A -> Prop) (o : option A) d : is_some P o -> (forall a, P a -> d a = nop) -> deref o d = nop.
Proof. intros H G. destruct o as [a|]; [apply G, H|destruct H]. Qed.
Lemma deref_optf {A} c (P : A -> Prop) (o : option A) d : optf c (is_some P) None o -> c = true -> (forall a, P a -> d a = nop) -> deref o d = nop.
Proof. intros H -> G. unfold optf in H. eapply deref_some; eassumption. Qed.
Lemma checked_nop {A} (o : option A) d : (forall a, d a = nop) -> checked o d = nop.
Proof. intros H. destruct o; [apply H|reflexivity]. Qed.

Lemma dump_ptl_nop std n s : ptl_ok std true n s -> dump_ptl true n s = nop.
Proof.
  intros (H & _). unfold dump_ptl. cbn [only]. unfold optf in H. erewrite deref_some; [|exact H|reflexivity]. rewrite seq_nop.
  apply only_nop. intros _. apply each_nop. intros a _. apply checked_nop. reflexivity.
Qed.
Lemma dump_hrd_nop s : dump_hrd s = nop.
Proof.
  assert (E : dump_sub_layer_hrds s = nop) by (apply each_nop; intros a _; rewrite !checked_nop by reflexivity; reflexivity).
  unfold dump_hrd. rewrite E. destruct (nz _), (nz _); reflexivity.
Qed.
Lemma dump_vui_nop inf n s : vui_ok inf n s -> dump_vui s = nop.
Proof.
  intros O. unfold dump_vui. apply only_nop. intros C1. apply only_nop. intros C2.
  assert (H : optf (nz (vui_timing_info_present_flag s) && nz (vui_hrd_parameters_present_flag s)) (is_some (hrd_ok inf 1 n)) None (vui_hrd_parameters s))
    by (unfold vui_ok in O; cbv zeta in O; tauto).
  eapply deref_optf; [exact H|rewrite C1, C2; reflexivity|]. intros a _. apply dump_hrd_nop.
Qed.
Lemma dump_vps_nop std s : vps_ok std s -> dump_vps s = nop.
Proof.
  intros O. unfold vps_ok in O. cbv zeta in O. destruct O as (_ & _ & _ & _ & _ & _ & _ & P & O). unfold dump_vps. rewrite (dump_ptl_nop _ _ _ P), seq_nop.
  assert (H : optf (nz (vps_timing_info_present_flag s)) (veci (vps_num_hrd_parameters s) (vps_hrd_ok std (vps_max_sub_layers_minus1 s))) [] (vps_hrds s)) by tauto.
  assert (H0 : optf (nz (vps_timing_info_present_flag s)) (ue_le (vps_num_layer_sets_minus1 s + 1)) 0 (vps_num_hrd_parameters s)) by tauto.
  apply only_nop. intros C. unfold optf in *. destruct (nz (vps_timing_info_present_flag s)); [|rewrite H0 in C; discriminate].
  destruct H as [L _]. destruct (rev (vps_hrds s)) as [|e l] eqn:E.
  - apply (f_equal (@length _)) in E. rewrite rev_length in E. cbn in E. lia.
  - apply dump_hrd_nop.
Qed.
Lemma dump_sps_nop b s x b' r : wf b -> ParseSps b = Ok (s, x) b' -> dump_sps r s = nop.
Proof.
  intros W E. pose proof (C33_cropped_size b s x b' (mk_bb []) W E) as R. pose proof (C31_accepted b s x b' W E) as O.
  unfold sps_ok_out, sps_ok in O. cbv zeta in O. unfold dump_sps.
  rewrite (dump_ptl_nop false) by tauto. rewrite seq_nop.
  replace (only (nz (scaling_list_enabled_flag s)) _) with nop.
  2:{ symmetry. apply only_nop. intros C1. apply only_nop. intros C2. eapply deref_optf; [apply O|rewrite C1, C2; reflexivity|reflexivity]. }
  rewrite seq_nop. replace (upto _ _) with nop.
  2:{ symmetry. apply upto_nop. intros i Hi. apply elem_in; [|reflexivity].
      assert (L : rps_sets_out (num_short_term_ref_pic_sets s) (sps_st_ref_pic_set s)) by tauto. destruct L as [[L _] _]. lia. }
  rewrite seq_nop. replace (only (nz (vui_parameters_present_flag s)) _) with nop.
  2:{ symmetry. apply only_nop. intros C. eapply deref_optf; [apply O|exact C|]. intros a Ha. eapply dump_vui_nop, Ha. }
  rewrite seq_nop. repeat match goal with |- (only (nz ?c) (deref ?o _) >> _) = nop =>
    replace (only (nz c) (deref o dump_numbers)) with nop by (symmetry; apply only_nop; intros C; eapply deref_optf; [apply O|exact C|reflexivity]); rewrite seq_nop end.
  apply only_nop. intros _. unfold dump_resolution. rewrite R. reflexivity.
Qed.
(** A PPS whose multilayer extension was announced and could not be parsed. *)
Definition lost_extension (s : pps) : bool := nz (pps_multilayer_extension_flag s) && match pps_multilayer_extension s with None => true | Some _ => false end.
Lemma dump_pps_spec s : pps_ok_out s -> dump_pps s = if lost_extension s then Bad NullDeref else nop.
Proof.
  intros O. unfold dump_pps. rewrite (only_nop (nz (pps_scaling_list_data_present_flag s))) by (intros _; apply checked_nop; reflexivity). rewrite seq_nop.
  assert (H : optf (nz (pps_scc_extension_flag s)) (is_some (pps_scc_ext_ok false)) None (pps_scc_extension s)) by (unfold pps_ok_out, pps_ok in O; cbv zeta in O; tauto).
  unfold lost_extension. destruct (nz (pps_multilayer_extension_flag s)); cbn [only andb].
  - destruct (pps_multilayer_extension s); [|reflexivity]. cbn [deref]. unfold dump_numbers at 1. rewrite seq_nop. apply only_nop. intros C. eapply deref_optf; [exact H|exact C|reflexivity].
  - rewrite seq_nop. apply only_nop. intros C. eapply deref_optf; [exact H|exact C|reflexivity].
Qed.
Lemma dump_slice_nop R nut s p h : slice_ok false R nut s p h -> dump_slice nut h = nop.
Proof.
  intros O. unfold dump_slice. apply only_nop. intros N. rewrite (only_nop (_ && _)) by (intros _; apply only_nop; intros _; apply checked_nop; reflexivity). rewrite seq_nop.
  apply only_nop. intros T. apply only_nop. intros C. unfold slice_ok in O. cbv zeta in O.
  assert (H1 : exists P : pwt -> Prop, optf (negb (nz (dependent_slice_segment_flag h)) && ((slice_type h =? 1) || (slice_type h =? 0)) &&
     (nz (weighted_pred_flag p) && (slice_type h =? 1) || nz (weighted_bipred_flag p) && (slice_type h =? 0))) (is_some P) None (sh_pred_weight_table h)).
  { eexists. repeat match type of O with _ /\ _ => let H := fresh in destruct O as [H O]; try exact H end. }
  assert (H2 : sh_weighted_pred_flag h = (if negb (nz (dependent_slice_segment_flag h)) && ((slice_type h =? 1) || (slice_type h =? 0)) then weighted_pred_flag p else 0)) by tauto.
  assert (H3 : sh_weighted_bipred_flag h = (if negb (nz (dependent_slice_segment_flag h)) && ((slice_type h =? 1) || (slice_type h =? 0)) then weighted_bipred_flag p else 0)) by tauto.
  unfold SliceType_P, SliceType_B in *. rewrite N, T in *. cbn [andb] in *. rewrite H2, H3 in C. destruct H1 as [P H1]. eapply deref_optf; [exact H1|exact C|reflexivity].
Qed.
Lemma dump_sei_nop s : ff_ok (payload_type s) /\ ff_ok (payload_size s) /\ (forall p, sei_payload_state s = Some p -> payload_ok false (payload_type s) (payload_size s) p) -> dump_sei s = nop.
Proof.
  intros (_ & _ & H). unfold dump_sei. destruct (sei_payload_state s) as [p|]; [|reflexivity]. specialize (H p eq_refl). cbn [checked].
  destruct p; try reflexivity; destruct H as [_ H]; cbn [dump_sei_payload].
  - unfold dump_mastering. apply upto_nop. intros i Hi. apply elem_in; [|reflexivity].
    assert (V : exists P, vec 3 P (display_primaries s0)) by (unfold mastering_ok in H; eexists; apply H). destruct V as (P & L & _). lia.
  - unfold dump_remap. apply only_nop. intros C. unfold remap_ok in H. cbv zeta in H.
    assert (V : exists P Q, optf (negb (nz (colour_remap_cancel_flag s0))) (vec 3 P) [] (pre_lut s0) /\ optf (negb (nz (colour_remap_cancel_flag s0))) (vec 3 Q) [] (post_lut s0)).
    { eexists _, _. split; repeat match type of H with _ /\ _ => let G := fresh in destruct H as [G H]; try exact G end; exact H. }
    destruct V as (P & Q & V1 & V2). rewrite C in V1, V2. destruct V1 as [V1 _], V2 as [V2 _].
    rewrite upto_nop by (intros i Hi; apply elem_in; [lia|intros a _; apply only_nop; reflexivity]). rewrite seq_nop.
    rewrite (upto_nop 3 (fun c => elem (post_lut s0) _ _)) by (intros i Hi; apply elem_in; [lia|intros a _; apply only_nop; reflexivity]).
    rewrite only_nop; [reflexivity|]. intros _. apply only_nop. intros _. apply upto_nop. intros i Hi. apply only_nop. intros L. apply elem_in; [|reflexivity]. apply Nat.ltb_lt, L.
  - unfold dump_ccv. apply only_nop. intros C1. apply only_nop. intros C2. unfold ccv_ok in H. cbv zeta in H.
    assert (V : exists P, optf (negb (nz (ccv_cancel_flag s0)) && nz (ccv_primaries_present_flag s0)) (vec 3 P) [] (ccv_primaries s0)).
    { eexists. repeat match type of H with _ /\ _ => let G := fresh in destruct H as [G H]; try exact G end; exact H. }
    destruct V as (P & V). rewrite C1, C2 in V. destruct V as [V _]. apply upto_nop. intros i Hi. apply elem_in; [lia|reflexivity].
Qed.

(** * Payloads *)
(** The two payloads that cannot be printed: an AUD NAL unit that was not parsed and a PPS without its announced extension. *)
Definition unprintable (ty : Z) (p : nal_payload) : bool :=
  ((ty =? 35) && match np_aud p with None => true | Some _ => false end) ||
  ((ty =? 34) && match np_pps p with Some (s, _) => lost_extension s | None => false end).
Definition dumps (ty : Z) (p : nal_payload) : Prop := forall o, dump_payload o ty p = if unprintable ty p then Bad NullDeref else nop.
Lemma payload_dumps ty st b : wf b -> state_ok st -> dumps ty (payload_of ty st b).
Proof.
  intros W St o. unfold dump_payload. rewrite case_slice. unfold VPS_NUT, SPS_NUT, PPS_NUT, AUD_NUT, case_of, PREFIX_SEI_NUT, SUFFIX_SEI_NUT, unprintable, payload_of.
  cbn [np_slice np_vps np_sps np_pps np_aud np_sei]. destruct (slice_nut ty) eqn:S.
  { unfold slice_nut in S. replace (ty =? 35) with false by lia. replace (ty =? 34) with false by lia. cbn [andb orb].
    destruct (result (ParseSliceSegmentHeader ty st) b) as [h|] eqn:R; [|reflexivity]. cbn [checked].
    destruct (result_wp _ _ _ _ _ W (wp_slice ovf_any st ty St ovf_in_any (or_intror (fun _ => eq_refl))) R) as (bs & _ & p & s & _ & O & _).
    eapply dump_slice_nop, O. }
  destruct (Z.eqb_spec ty 32) as [->|N1].
  { cbn [Z.eqb Pos.eqb andb orb]. destruct (result ParseVps b) as [v|] eqn:R; [|reflexivity]. destruct (result_wp _ _ _ _ _ W wp_Vps R) as (bs & _ & O & _). eapply dump_vps_nop, O. }
  destruct (Z.eqb_spec ty 33) as [->|N2].
  { cbn [Z.eqb Pos.eqb andb orb]. destruct (result ParseSps b) as [[s x]|] eqn:R; [|reflexivity]. unfold result in R. destruct (ParseSps b) as [[s' x'] b'| |] eqn:E; try discriminate.
    injection R as -> ->. cbn [checked fst]. eapply dump_sps_nop; eassumption. }
  destruct (Z.eqb_spec ty 34) as [->|N3].
  { cbn [Z.eqb Pos.eqb andb orb]. destruct (result ParsePps b) as [[s x]|] eqn:R; [|reflexivity]. destruct (result_wp _ _ _ _ _ W wp_Pps R) as (bs & _ & O & _). cbn [checked fst]. apply dump_pps_spec, O. }
  destruct (Z.eqb_spec ty 35) as [->|N4].
  { cbn [Z.eqb Pos.eqb andb orb]. destruct (result ParseAud b); reflexivity. }
  cbn [andb orb]. destruct (existsb (Z.eqb ty) [39; 40]) eqn:E; [|reflexivity]. destruct ((ty =? 39) || (ty =? 40)); [|reflexivity].
  destruct (result ParseSei b) as [s|] eqn:R; [|reflexivity]. destruct (result_wp _ _ _ _ _ W wp_Sei R) as (bs & _ & O). apply dump_sei_nop, O.
Qed.

(** * C51 *)
(** What the two conditions mean. *)
Lemma unprintable_spec ty p : unprintable ty p = true <->
  ty = 35 /\ np_aud p = None \/
  ty = 34 /\ exists s x, np_pps p = Some (s, x) /\ pps_multilayer_extension_flag s <> 0 /\ pps_multilayer_extension s = None.
Proof.
  unfold unprintable, lost_extension, nz. split.
  - intros H. apply orb_prop in H. destruct H as [H|H]; apply andb_prop in H; destruct H as [T H]; apply Z.eqb_eq in T; [left|right]; split; try exact T.
    + destruct (np_aud p); [discriminate|reflexivity].
    + destruct (np_pps p) as [[s x]|]; [|discriminate]. exists s, x. split; [reflexivity|]. apply andb_prop in H. destruct H as [H1 H2]. split; [lia|].
      destruct (pps_multilayer_extension s); [discriminate|reflexivity].
  - intros [[-> ->]|[-> (s & x & -> & H & ->)]]; [reflexivity|]. cbn [Z.eqb Pos.eqb andb orb]. rewrite andb_true_r. lia.
Qed.
(** A NAL unit cannot be printed if the checksum is asked for and was not computed, or if its payload cannot be printed. *)
Definition unprintable_unit (o : options) (u : nal_unit) : bool :=
  (add_checksum o && match nu_checksum u with None => true | Some _ => false end) || unprintable (nal_unit_type (nu_header u)) (nu_payload u).
Definition unit_dumps (u : nal_unit) : Prop := forall o, dump_nal o u = if unprintable_unit o u then Bad NullDeref else Done tt.

Lemma dump_checksum_nop c : dump_checksum c = nop.
Proof.
  unfold dump_checksum. assert (B : Forall is_byte (checksum_bytes c)) by (unfold checksum_bytes; repeat (apply Forall_cons; [unfold u8, is_byte; apply Z.mod_pos_bound; lia|]); apply Forall_nil).
  destruct (C53_fdump_in_bounds (checksum_bytes c) (repeat 0 64) B) as (out & E & _); [rewrite repeat_length; lia|].
  rewrite repeat_length in E. change (Z.of_nat 64) with 64 in E. rewrite E. reflexivity.
Qed.
Lemma unit_dumps_intro u : dumps (nal_unit_type (nu_header u)) (nu_payload u) -> unit_dumps u.
Proof.
  intros H o. unfold dump_nal, unprintable_unit. rewrite (H o). destruct (add_checksum o); cbn [only andb orb]; [|reflexivity].
  destruct (nu_checksum u) as [c|]; cbn [deref orb]; [rewrite dump_checksum_nop|]; reflexivity.
Qed.
Lemma nal_unit_dumps opts data st u st' : byte_string data -> state_ok st -> ParseNalUnit opts data st = Done (Some u, st') ->
  dumps (nal_unit_type (nu_header u)) (nu_payload u) /\ (nu_checksum u = None <-> add_checksum opts = false).
Proof.
  intros D S E. destruct (Unescape_byte_string data D) as (rbsp & Er & D'). pose proof (C21_fields _ _ _ _ _ _ D S Er E) as (C & _). pose proof (C21_dispatch opts data rbsp st D S Er) as H.
  rewrite E in H. destruct H as (L & Hh & Eh & ->). split.
  - apply payload_dumps; [|exact S]. pose proof D' as [F Lr]. pose proof (wf_mk _ F Lr) as W. destruct (header_at _ W) as (h' & _ & _ & _ & W16 & _); [|exact W16].
    change (rem (mk_bb rbsp)) with (bits_of rbsp). rewrite length_bits_of. lia.
  - rewrite C. destruct (add_checksum opts); split; congruence.
Qed.
(** Every NAL unit the parser returned, printed with any options: null is dereferenced iff the checksum is asked for and the parser was not asked
    for it, or it is an AUD that could not be parsed, or a PPS without its announced multilayer extension; otherwise it is printed. *)
Theorem C51_nal_unit : forall opts data st u st' o, byte_string data -> state_ok st -> ParseNalUnit opts data st = Done (Some u, st') ->
  dump_nal o u = if (add_checksum o && negb (add_checksum opts)) || unprintable (nal_unit_type (nu_header u)) (nu_payload u) then Bad NullDeref else Done tt.
Proof.
  intros opts data st u st' o D S E. destruct (nal_unit_dumps _ _ _ _ _ D S E) as [H C]. rewrite (unit_dumps_intro u H o). unfold unprintable_unit.
  destruct (nu_checksum u); destruct (add_checksum opts); try reflexivity; exfalso.
  - assert (X : Some z = None) by (apply C; reflexivity). discriminate X.
  - assert (X : true = false) by (apply C; reflexivity). discriminate X.
Qed.

Definition from_parser (opts : options) (u : nal_unit) : Prop := unit_dumps u /\ (nu_checksum u = None <-> add_checksum opts = false).
Lemma parse_all_dumps opts : forall ds st us st', Forall byte_string ds -> store_ok st -> parse_all opts ds st = Done (us, st') ->
  forall u, In (Some u) us -> from_parser opts u.
Proof.
  induction ds as [|d ds IH]; intros st us st' F S E u I; cbn [parse_all] in E; [injection E as <- <-; destruct I|]. inversion F as [|? ? D F']; subst.
  destruct (ParseNalUnit opts d st) as [[o st1]|e] eqn:E1; [|discriminate]. destruct (parse_all opts ds st1) as [[us1 st2]|e] eqn:E2; [|discriminate]. injection E as <- <-.
  destruct I as [->|I].
  - destruct (nal_unit_dumps _ _ _ _ _ D (store_state_ok _ S) E1) as [H C]. split; [apply unit_dumps_intro, H|exact C].
  - eapply IH; [exact F'|eapply C22_invariant; eassumption|exact E2|exact I].
Qed.
Lemma set_range_dumps opts a n u : from_parser opts u -> from_parser opts (set_range a n u).
Proof. intros H. exact H. Qed.
Lemma placed_dumps opts : forall ixs us, (forall u, In (Some u) us -> from_parser opts u) -> Forall (from_parser opts) (placed ixs us).
Proof.
  induction ixs as [|ix ixs IH]; intros [|o us] H; cbn [placed]; try constructor. apply Forall_app. split.
  - destruct o as [u|]; [|constructor]. constructor; [|constructor]. apply set_range_dumps, H. left. reflexivity.
  - apply IH. intros u I. apply H. right. exact I.
Qed.
Lemma placed_nl_dumps opts n : forall rs us, (forall u, In (Some u) us -> from_parser opts u) -> Forall (from_parser opts) (placed_nl n rs us).
Proof.
  induction rs as [|r rs IH]; intros [|o us] H; cbn [placed_nl]; try constructor. apply Forall_app. split.
  - destruct o as [u|]; [|constructor]. constructor; [|constructor]. apply set_range_dumps, H. left. reflexivity.
  - apply IH. intros u I. apply H. right. exact I.
Qed.
Lemma each_dumps o us : Forall unit_dumps us -> each us (dump_nal o) = if existsb (unprintable_unit o) us then Bad NullDeref else Done tt.
Proof.
  induction 1 as [|u us H _ IH]; [reflexivity|]. cbn [each]. rewrite (H o). change (existsb (unprintable_unit o) (u :: us)) with (unprintable_unit o u || existsb (unprintable_unit o) us).
  destruct (unprintable_unit o u); [reflexivity|exact IH].
Qed.
(** Every unit printed with the options [o]. *)
Definition all_printable (opts o : options) (us : list nal_unit) : Prop :=
  (us = [] \/ add_checksum o = false \/ add_checksum opts = true) /\ forall u, In u us -> unprintable (nal_unit_type (nu_header u)) (nu_payload u) = false.
Lemma all_printable_spec opts o us : Forall (from_parser opts) us -> (existsb (unprintable_unit o) us = false <-> all_printable opts o us).
Proof.
  intros H. split.
  - intros N. assert (G : forall u, In u us -> unprintable_unit o u = false).
    { intros u I. destruct (unprintable_unit o u) eqn:E; [|reflexivity]. assert (X : existsb (unprintable_unit o) us = true) by (apply existsb_exists; eauto). congruence. }
    split.
    + destruct us as [|u us]; [left; reflexivity|right]. specialize (G u (or_introl eq_refl)). unfold unprintable_unit in G. apply orb_false_elim in G. destruct G as [G _].
      inversion H as [|? ? [_ C] _]; subst. destruct (add_checksum o); [right|left; reflexivity]. cbn [andb] in G. destruct (add_checksum opts); [reflexivity|].
      rewrite (proj2 C eq_refl) in G. discriminate.
    + intros u I. specialize (G u I). apply orb_false_elim in G. apply G.
  - intros [[->|C] G]; [reflexivity|]. destruct (existsb (unprintable_unit o) us) eqn:E; [|reflexivity]. apply existsb_exists in E. destruct E as (u & I & E).
    unfold unprintable_unit in E. rewrite (G u I), orb_false_r in E. apply andb_prop in E. destruct E as [E1 E2]. rewrite Forall_forall in H. destruct (H u I) as [_ C'].
    destruct C as [C|C]; [congruence|]. destruct (nu_checksum u); [discriminate|]. pose proof (proj1 C' eq_refl). congruence.
Qed.
Definition dump_result (d : dump) (ok : Prop) : Prop := (d = Done tt /\ ok) \/ (d = Bad NullDeref /\ ~ ok).
Lemma bitstream_result opts o us : Forall (from_parser opts) us -> dump_result (dump_bitstream (mkBS o us)) (all_printable opts o us).
Proof.
  intros H. unfold dump_bitstream. cbn [bs_units bs_options]. rewrite each_dumps by (eapply Forall_impl; [|exact H]; intros u G; apply G).
  pose proof (all_printable_spec opts o us H) as S. destruct (existsb (unprintable_unit o) us).
  - right. split; [reflexivity|]. intros A. apply S in A. discriminate.
  - left. split; [reflexivity|]. apply S. reflexivity.
Qed.
(** Streams: the units are printed with the options the result carries, which the variants with a state argument leave at their defaults
    (checksum on). *)
Theorem C51_annexb : forall opts data st bs st', byte_string data -> reached call_ok st -> ParseBitstream opts data st = Done (bs, st') ->
  bs_options bs = default_options /\ dump_result (dump_bitstream bs) (all_printable opts (bs_options bs) (bs_units bs)).
Proof.
  intros opts data st bs st' H R E. pose proof H as [F L]. rewrite ParseBitstream_spec in E by lia. pose proof (annexb_in_bounds data ltac:(lia)) as B.
  assert (Fb : Forall byte_string (map (payload data) (annexb_units data))) by (apply Forall_map; eapply Forall_impl; [|exact B]; intros ix; apply sub_bytes, H).
  destruct (parse_all opts (map (payload data) (annexb_units data)) st) as [[us st1]|e] eqn:E1; [|discriminate]. injection E as <- <-. split; [reflexivity|].
  apply bitstream_result, placed_dumps. exact (parse_all_dumps _ _ _ _ _ Fb (reached_store _ R) E1).
Qed.
Theorem C51_annexb_no_state : forall opts data bs, byte_string data -> ParseBitstreamNoState opts data = Done bs ->
  bs_options bs = opts /\ dump_result (dump_bitstream bs) (forall u, In u (bs_units bs) -> unprintable (nal_unit_type (nu_header u)) (nu_payload u) = false).
Proof.
  intros opts data bs H E. pose proof H as [F L]. unfold ParseBitstreamNoState in E. rewrite ParseBitstream_spec in E by lia. pose proof (annexb_in_bounds data ltac:(lia)) as B.
  assert (Fb : Forall byte_string (map (payload data) (annexb_units data))) by (apply Forall_map; eapply Forall_impl; [|exact B]; intros ix; apply sub_bytes, H).
  destruct (parse_all opts (map (payload data) (annexb_units data)) empty_state) as [[us st1]|e] eqn:E1; [|discriminate]. injection E as <-. split; [reflexivity|]. cbn [bs_units].
  pose proof (bitstream_result opts opts (placed (annexb_units data) us) (placed_dumps opts _ us (parse_all_dumps _ _ _ _ _ Fb (proj1 empty_store_ok) E1))) as [[G1 G2]|[G1 G2]].
  - left. split; [exact G1|apply G2].
  - right. split; [exact G1|]. intros A. apply G2. split; [|exact A]. destruct (add_checksum opts); auto.
Qed.
Theorem C51_length_prefixed_short : forall opts data n st bs st', byte_string data -> (0 < n <= 7)%nat -> reached call_ok st ->
  ParseBitstreamNALULength opts data (Z.of_nat n) st = Done (bs, st') ->
  bs_options bs = default_options /\ dump_result (dump_bitstream bs) (all_printable opts (bs_options bs) (bs_units bs)).
Proof.
  intros opts data n st bs st' H Hn R E. pose proof H as [F L]. destruct (C24_length_prefixed opts data n st F ltac:(lia) Hn) as (nals & tail & Ed & Fu & I & Ep). rewrite Ep in E.
  assert (Fb : Forall byte_string nals) by (apply (framed_bytes n nals tail); rewrite <- Ed; exact H).
  destruct (parse_all opts nals st) as [[us st1]|e] eqn:E1; [|discriminate]. injection E as <- <-. split; [reflexivity|].
  apply bitstream_result, placed_nl_dumps. exact (parse_all_dumps _ _ _ _ _ Fb (reached_store _ R) E1).
Qed.
Theorem C51_length_prefixed_no_state_short : forall opts data n bs, byte_string data -> (0 < n <= 7)%nat -> ParseBitstreamNALULengthNoState opts data (Z.of_nat n) = Done bs ->
  bs_options bs = opts /\ dump_result (dump_bitstream bs) (forall u, In u (bs_units bs) -> unprintable (nal_unit_type (nu_header u)) (nu_payload u) = false).
Proof.
  intros opts data n bs H Hn E. pose proof H as [F L]. unfold ParseBitstreamNALULengthNoState in E.
  destruct (C24_length_prefixed opts data n empty_state F ltac:(lia) Hn) as (nals & tail & Ed & Fu & I & Ep). rewrite Ep in E.
  assert (Fb : Forall byte_string nals) by (apply (framed_bytes n nals tail); rewrite <- Ed; exact H).
  destruct (parse_all opts nals empty_state) as [[us st1]|e] eqn:E1; [|discriminate]. injection E as <-. split; [reflexivity|]. cbn [bs_units].
  pose proof (bitstream_result opts opts _ (placed_nl_dumps opts (Z.of_nat n) (framed_ranges n 0 nals) us (parse_all_dumps _ _ _ _ _ Fb (proj1 empty_store_ok) E1))) as [[G1 G2]|[G1 G2]].
  - left. split; [exact G1|apply G2].
  - right. split; [exact G1|]. intros A. apply G2. split; [|exact A]. destruct (add_checksum opts); auto.
Qed.

(** RTP packets: with any options, only the payload matters. *)
Definition rtp_payloads (r : rtp) : list (Z * nal_payload) :=
  match r_single r with Some s => [(nal_unit_type (rs_header s), rs_payload s)] | None => [] end ++
  match r_ap r with Some a => map (fun u => (nal_unit_type (au_header u), au_payload u)) (ra_units a) | None => [] end ++
  match r_fu r with Some f => match rf_payload f with Some p => [(fu_type f, p)] | None => [] end | None => [] end.
Lemma parsed_payload_dumps ty st b p st' b' : wf b -> store_ok st -> ParseNalUnitPayload ty st b = Ok (Some p, st') b' -> dumps ty p.
Proof.
  intros W S E. rewrite payload_spec in E. destruct (payload_fault ty st b); [discriminate|]. injection E as <- <- <-. apply payload_dumps; [exact W|apply store_state_ok, S].
Qed.
Lemma ap_loop_dumps : forall fuel st b us st' b', wf b -> store_ok st -> ap_loop fuel st b = Ok (Some us, st') b' ->
  Forall (fun u => dumps (nal_unit_type (au_header u)) (au_payload u)) us.
Proof.
  induction fuel as [|fuel IH]; intros st b us st' b' W S E; rewrite ap_loop_eq in E; destruct (negb (0 <? remaining b)); try discriminate E; try (injection E as <- <- <-; constructor).
  apply sbind_some in E. destruct E as (size & s1 & b1 & E1 & E). apply PropsQp.lift_some in E1. destruct E1 as [E1 ->].
  pose proof (wp_u_ok 16 ltac:(lia) b W) as H1. rewrite E1 in H1. destruct H1 as (l1 & T1 & U1 & _). pose proof (steps_wf _ _ _ W T1) as W1.
  apply sbind_some in E. destruct E as (r & s2 & b2 & E2 & E). apply PropsQp.lift_some in E2. destruct E2 as [E2 ->]. injection E2 as <- <-.
  destruct (remaining b1 <? u32 (size * 8)); [discriminate|]. apply sbind_some in E. destruct E as (hd & s3 & b3 & E3 & E). apply PropsQp.lift_some in E3. destruct E3 as [E3 ->].
  pose proof (wp_nal_header b1 W1) as H3. rewrite E3 in H3. destruct H3 as (l3 & T3 & U3 & _). pose proof (steps_wf _ _ _ W1 T3) as W3.
  apply sbind_some in E. destruct E as (p & s4 & b4 & E4 & E).
  pose proof (ssafe_payload (length (rem b3)) (nal_unit_type hd) st b3 W3 S (le_n _)) as H4. rewrite E4 in H4. destruct H4 as ((seg & T4) & S4 & _). pose proof (steps_wf _ _ _ W3 T4) as W4.
  apply sbind_some in E. destruct E as (us' & s5 & b5 & E5 & E). injection E as <- <- <-. constructor; [|exact (IH _ _ _ _ _ W4 S4 E5)].
  exact (parsed_payload_dumps _ _ _ _ _ _ W3 S E4).
Qed.
Lemma each_payloads {A} o (l : list A) ty pl : Forall (fun u => dumps (ty u) (pl u)) l ->
  each l (fun u => dump_payload o (ty u) (pl u)) = if existsb (fun x => unprintable (fst x) (snd x)) (map (fun u => (ty u, pl u)) l) then Bad NullDeref else Done tt.
Proof.
  induction 1 as [|u us H _ IH]; [reflexivity|]. cbn [each map]. rewrite (H o).
  match goal with |- context [existsb ?f (?a :: ?r)] => change (existsb f (a :: r)) with (f a || existsb f r) end. cbn [fst snd].
  destruct (unprintable (ty u) (pl u)); [reflexivity|exact IH].
Qed.
Theorem C51_rtp : forall data st r st' o, byte_string data -> reached call_ok st -> ParseRtp data st = Done (Some r, st') ->
  dump_result (dump_rtp o r) (forall ty p, In (ty, p) (rtp_payloads r) -> unprintable ty p = false).
Proof.
  intros data st r st' o D R E. pose proof (reached_store _ R) as S.
  assert (G : dump_rtp o r = if existsb (fun x => unprintable (fst x) (snd x)) (rtp_payloads r) then Bad NullDeref else Done tt).
  2:{ rewrite G. destruct (existsb _ _) eqn:X.
      - right. split; [reflexivity|]. intros A. apply existsb_exists in X. destruct X as ([ty p] & I & X). cbn [fst snd] in X. rewrite (A ty p I) in X. discriminate.
      - left. split; [reflexivity|]. intros ty p I. destruct (unprintable ty p) eqn:U; [|reflexivity]. rewrite <- X. symmetry. apply existsb_exists. exists (ty, p). auto. }
  destruct (Unescape_byte_string data D) as (rbsp & Er & D'). destruct (C43_choice data rbsp st D Er) as [C1 C2].
  destruct (le_lt_dec 2 (length rbsp)) as [L|L]; [|rewrite C1 in E by exact L; discriminate]. destruct (C2 L) as (h & Hh & Fh & C). rewrite C in E. clear C C1 C2.
  pose proof D' as [F Lr]. pose proof (wf_mk _ F Lr) as W.
  assert (W16 : wf (adv (mk_bb rbsp) 16)).
  { destruct (header_at _ W) as (h' & _ & _ & _ & W16 & _); [|exact W16]. change (rem (mk_bb rbsp)) with (bits_of rbsp). rewrite length_bits_of. lia. }
  unfold dump_rtp, rtp_payloads, AP, FU. destruct (nal_unit_type h <=? 47) eqn:T1.
  { rewrite (C43_single default_options data st D (store_state_ok _ S)) in E. destruct (ParseNalUnit default_options data st) as [[[u|] st1]|e] eqn:Eu; try discriminate E.
    injection E as <- <-. cbn [rtp_header r_single r_ap r_fu app rs_header rs_payload deref]. rewrite T1. unfold dump_rtp_single. cbn [rs_header rs_payload].
    destruct (nal_unit_dumps _ _ _ _ _ D (store_state_ok _ S) Eu) as [H _]. rewrite (H o). unfold existsb. cbn [fst snd]. rewrite orb_false_r. reflexivity. }
  destruct (nal_unit_type h =? 48) eqn:T2.
  { unfold ParseRtpAp in E. rewrite (on_data_st_eq _ _ _ _ D Er) in E. destruct (ParseRtpApBuffer st (mk_bb rbsp)) as [[[a|] s1] b1|b1|e] eqn:P; try discriminate E. injection E as <- <-.
    cbn [rtp_header r_single r_ap r_fu app deref]. rewrite T1, T2. rewrite app_nil_r. unfold ParseRtpApBuffer in P. apply sbind_some in P. destruct P as (hd & s2 & b2 & Ph & P).
    apply PropsQp.lift_some in Ph. destruct Ph as [Ph ->]. pose proof (wp_nal_header _ W) as H3. rewrite Ph in H3. destruct H3 as (l3 & T3 & _). pose proof (steps_wf _ _ _ W T3) as W3.
    apply sbind_some in P. destruct P as (us & s3 & b3 & Pl & P). injection P as <- <- <-. unfold dump_rtp_ap. cbn [ra_units].
    apply each_payloads. exact (ap_loop_dumps _ _ _ _ _ _ W3 S Pl). }
  destruct (nal_unit_type h =? 49) eqn:T3.
  { destruct (C45_exact data rbsp st D (store_state_ok _ S) Er) as [D1 D2]. destruct (le_lt_dec 3 (length rbsp)) as [L3|L3]; [|rewrite D1 in E by exact L3; discriminate E].
    destruct (D2 L3) as (h' & s & e & t & Hh' & Hs & He & Ht & E3 & K0 & K1). assert (Es : s = 0 \/ s = 1) by (unfold u_ok in Hs; lia). destruct Es as [->| ->].
    - rewrite K0 in E by reflexivity. injection E as <- <-. cbn [rtp_header r_single r_ap r_fu app deref rf_payload]. rewrite T1, T2, T3. reflexivity.
    - specialize (K1 eq_refl). destruct (ParseRtpFu data st) as [[r0 st0]|er]; [|discriminate E]. destruct K1 as [-> _]. injection E as <- <-.
      cbn [rtp_header r_single r_ap r_fu app deref rf_payload fu_type]. rewrite T1, T2, T3. unfold dump_rtp_fu. cbn [s_bit rf_payload fu_type deref]. change (1 =? 1) with true. cbn [only].
      assert (W24 : wf (adv (mk_bb rbsp) 24)).
      { eapply (wf_adv_app (mk_bb rbsp) (enc_nal_header h' ++ enc_u 1 1 ++ enc_u 1 e ++ enc_u 6 t) (bits_of (skipn 3 rbsp))) in W.
        - rewrite !app_length, enc_nal_header_length, !length_enc_u in W. exact W.
        - change (rem (mk_bb rbsp)) with (bits_of rbsp). rewrite <- (firstn_skipn 3 rbsp) at 1. rewrite bits_of_app, E3. reflexivity. }
      rewrite (payload_dumps t st _ W24 (store_state_ok _ S) o). unfold existsb. cbn [fst snd]. rewrite orb_false_r. reflexivity. }
  injection E as <- <-. cbn [rtp_header r_single r_ap r_fu app]. rewrite T1, T2, T3. reflexivity.
Qed.

(** Configuration boxes: a NAL unit shorter than two bytes is stored as a null pointer. *)
Definition box_units (v : hvcc) : list (option nal_unit) := flat_map (fun a => map snd (nalus a)) (hv_arrays v).
Lemma box_units_of : forall arrs us, length us = length (flat_map ba_nals arrs) -> flat_map (fun a => map snd (nalus a)) (arrays_of arrs us) = us.
Proof.
  induction arrs as [|a arrs IH]; intros us L; [destruct us; [reflexivity|discriminate]|]. change (flat_map ba_nals (a :: arrs)) with (ba_nals a ++ flat_map ba_nals arrs) in L. rewrite app_length in L.
  cbn [arrays_of]. match goal with |- flat_map ?f (?x :: ?l) = _ => change (flat_map f (x :: l)) with (f x ++ flat_map f l) end. cbv beta.
  rewrite IH by (rewrite skipn_length; lia). cbn [array_of nalus].
  assert (C : forall (xs : list Z) (ys : list (option nal_unit)), length xs = length ys -> map snd (combine xs ys) = ys).
  { induction xs as [|x xs IHx]; intros [|y ys] Q; try discriminate; [reflexivity|]. cbn [combine map snd]. f_equal. apply IHx. injection Q as Q. exact Q. }
  rewrite C by (rewrite map_length, firstn_length_le; lia). apply firstn_skipn.
Qed.
Lemma upto_each {A} (l : list A) (d : A -> dump) : upto (length l) (fun i => elem l i d) = each l d.
Proof.
  assert (G : forall n (l : list A), (n <= length l)%nat -> upto n (fun i => elem l i d) = each (firstn n l) d).
  2:{ rewrite G by lia. rewrite firstn_all. reflexivity. }
  assert (App : forall (l : list A) a, each (l ++ [a]) d = (each l d >> d a)).
  { induction l0 as [|x l0 IH]; intros a; [cbn; destruct (d a) as [[]|]; reflexivity|]. cbn [app each]. rewrite IH. destruct (d x); reflexivity. }
  induction n as [|n IH]; intros k L; [reflexivity|]. cbn [upto]. rewrite IH by lia. unfold elem. destruct (nth_error k n) as [a|] eqn:E.
  - rewrite <- App. f_equal. apply nth_error_split in E. destruct E as (l1 & l2 & -> & <-). rewrite !firstn_app, Nat.sub_diag, firstn_O, app_nil_r, firstn_all.
    rewrite (firstn_all2 l1 (n := S (length l1))) by lia. replace (S (length l1) - length l1)%nat with 1%nat by lia. reflexivity.
  - apply nth_error_None in E. lia.
Qed.
Lemma each_flat {A B} (l : list A) (f : A -> list B) d : each l (fun a => each (f a) d) = each (flat_map f l) d.
Proof.
  assert (App : forall (k1 k2 : list B), each (k1 ++ k2) d = (each k1 d >> each k2 d)).
  { induction k1 as [|x k1 IH]; intros k2; [reflexivity|]. cbn [app each]. rewrite IH. destruct (d x); reflexivity. }
  induction l as [|a l IH]; [reflexivity|]. change (flat_map f (a :: l)) with (f a ++ flat_map f l). cbn [each]. rewrite App, IH. reflexivity.
Qed.
Lemma each_map {A B} (f : A -> B) (l : list A) d : each (map f l) d = each l (fun a => d (f a)).
Proof. induction l as [|a l IH]; [reflexivity|]. cbn [map each]. rewrite IH. reflexivity. Qed.
Theorem C51_box_units : forall opts data st v st' o, byte_string data -> reached call_ok st -> ParseConfigurationBox opts data st = Done (Some v, st') ->
  dump_result (dump_box o v) (forall e, In e (box_units v) -> exists u, e = Some u /\ (add_checksum o = false \/ add_checksum opts = true) /\
                                                              unprintable (nal_unit_type (nu_header u)) (nu_payload u) = false).
Proof.
  intros opts data st v st' o D R E. pose proof (reached_store _ R) as S. destruct (C42_sound _ _ _ _ _ D E) as (h & arrs & rest & O & Eb).
  pose proof (C42_counts _ _ _ _ _ D E) as N. unfold ParseConfigurationBox in E. rewrite on_buffer_st_eq in E by exact D.
  pose proof D as [F L]. rewrite (box_parses opts h arrs st (mk_bb data) rest (wf_mk _ F L) O Eb) in E.
  assert (Fb : Forall byte_string (flat_map ba_nals arrs)).
  { destruct O as (_ & _ & O). clear - O. induction O as [|a arrs Ha _ IH]; [constructor|]. apply Forall_app. split; [|exact IH].
    destruct Ha as (_ & _ & _ & Ha). eapply Forall_impl; [|exact Ha]. intros x [X1 X2]. split; [exact X1|lia]. }
  destruct (parse_all opts (flat_map ba_nals arrs) st) as [[us st1]|e] eqn:E1; [|discriminate]. injection E as <- <-.
  pose proof (parse_all_length _ _ _ _ _ E1) as Lu. pose proof (parse_all_dumps _ _ _ _ _ Fb S E1) as G.
  unfold box_units. cbn [hv_arrays hv_header] in *. rewrite box_units_of by exact Lu.
  assert (X : dump_box o (mkHV h (arrays_of arrs us)) = each us (fun e => deref e (dump_nal o))).
  { unfold dump_box. cbn [hv_header hv_arrays]. rewrite <- N, Nat2Z.id, upto_each.
    replace us with (flat_map (fun a => map snd (nalus a)) (arrays_of arrs us)) at 2 by (apply box_units_of, Lu). rewrite <- each_flat.
    assert (Y : forall (l : list hvcc_array) d1 d2, (forall a, d1 a = d2 a) -> each l d1 = each l d2) by (intros l d1 d2 Hd; induction l as [|a l IH]; [reflexivity|]; cbn [each]; rewrite Hd, IH; reflexivity).
    apply Y. intros a. rewrite each_map. reflexivity. }
  rewrite X. clear - G. induction us as [|e us IH]; [left; split; [reflexivity|intros e []]|].
  destruct IH as [[I1 I2]|[I1 I2]]; [intros u Iu; apply G; right; exact Iu| |]; cbn [each].
  - destruct e as [u|]; cbn [deref].
    + destruct (G u (or_introl eq_refl)) as [Gu Gc]. rewrite (Gu o). unfold unprintable_unit. destruct (unprintable (nal_unit_type (nu_header u)) (nu_payload u)) eqn:Un.
      { rewrite orb_true_r. right. split; [reflexivity|]. intros A. destruct (A (Some u) (or_introl eq_refl)) as (u' & Eu & _ & A'). injection Eu as <-. congruence. }
      rewrite orb_false_r. destruct (add_checksum o) eqn:Ao; cbn [andb].
      * destruct (nu_checksum u) eqn:Nc.
        -- left. split; [exact I1|]. intros e [<-|Ie]; [|apply I2, Ie]. exists u. split; [reflexivity|]. split; [|exact Un]. right. destruct (add_checksum opts); [reflexivity|].
           assert (Some z = None) by (apply Gc; reflexivity). discriminate.
        -- right. split; [reflexivity|]. intros A. destruct (A (Some u) (or_introl eq_refl)) as (u' & Eu & [A'|A'] & _); [congruence|]. pose proof (proj1 Gc eq_refl). congruence.
      * left. split; [exact I1|]. intros e [<-|Ie]; [|apply I2, Ie]. exists u. auto.
    + right. split; [reflexivity|]. intros A. destruct (A None (or_introl eq_refl)) as (u' & Eu & _). discriminate.
  - right. split.
    + destruct e as [u|]; cbn [deref]; [|reflexivity]. destruct (G u (or_introl eq_refl)) as [Gu _]. rewrite (Gu o). destruct (unprintable_unit o u); [reflexivity|exact I1].
    + intros A. apply I2. intros e0 Ie. apply A. right. exact Ie.
Qed.

(** Missing (so the English property is false): an AUD NAL unit without payload, *)
Definition null_deref (d : dump) : bool := match d with Bad NullDeref => true | _ => false end.
Lemma null_deref_eq d : null_deref d = true -> d = Bad NullDeref.
Proof. destruct d as [|[]]; intros H; try discriminate H; reflexivity. Qed.
Theorem C51_aud_refuted : exists bs, ParseBitstreamNoState default_options [0; 0; 1; 0x46; 1] = Done bs /\ dump_bitstream bs = Bad NullDeref.
Proof.
  assert (H : match ParseBitstreamNoState default_options [0; 0; 1; 0x46; 1] with Done bs => null_deref (dump_bitstream bs) | _ => false end = true) by (vm_compute; reflexivity).
  destruct (ParseBitstreamNoState default_options [0; 0; 1; 0x46; 1]) as [bs|e]; [|discriminate H]. exists bs. split; [reflexivity|apply null_deref_eq, H].
Qed.
(** a PPS with a multilayer extension that cannot be parsed, *)
Theorem C51_pps_refuted : exists bs, ParseBitstreamNoState default_options (0 :: 0 :: 1 :: C24_nal 34 C36_bad) = Done bs /\ dump_bitstream bs = Bad NullDeref.
Proof.
  assert (H : match ParseBitstreamNoState default_options (0 :: 0 :: 1 :: C24_nal 34 C36_bad) with Done bs => null_deref (dump_bitstream bs) | _ => false end = true) by (vm_compute; reflexivity).
  destruct (ParseBitstreamNoState default_options (0 :: 0 :: 1 :: C24_nal 34 C36_bad)) as [bs|e]; [|discriminate H]. exists bs. split; [reflexivity|apply null_deref_eq, H].
Qed.
(** a stream parsed without checksums by the variants that take a state (their result says that there are checksums), *)
Theorem C51_options_refuted : exists bs st, ParseBitstream (mkOpts true true true false true) [0; 0; 1; 0x46; 1; 0x50] empty_state = Done (bs, st) /\ dump_bitstream bs = Bad NullDeref.
Proof.
  assert (H : match ParseBitstream (mkOpts true true true false true) [0; 0; 1; 0x46; 1; 0x50] empty_state with Done (bs, _) => null_deref (dump_bitstream bs) | _ => false end = true) by (vm_compute; reflexivity).
  destruct (ParseBitstream (mkOpts true true true false true) [0; 0; 1; 0x46; 1; 0x50] empty_state) as [[bs st]|e]; [|discriminate H]. exists bs, st. split; [reflexivity|apply null_deref_eq, H].
Qed.
(** a configuration box with a NAL unit of one byte, *)
Definition C51_box : list Z :=
  [1; 1; 0x60; 0; 0; 0; 0xb0; 0; 0; 0; 0; 0; 0x5d; 0xf0; 0; 0xfc; 0xfd; 0xf8; 0xf8; 0; 0; 0x0f; 1; 0x23; 0; 1; 0; 1; 0x46].
Theorem C51_box_refuted : exists v st, ParseConfigurationBox default_options C51_box empty_state = Done (Some v, st) /\ dump_box default_options v = Bad NullDeref.
Proof.
  assert (H : match ParseConfigurationBox default_options C51_box empty_state with Done (Some v, _) => null_deref (dump_box default_options v) | _ => false end = true) by (vm_compute; reflexivity).
  destruct (ParseConfigurationBox default_options C51_box empty_state) as [[[v|] st]|e]; try discriminate H. exists v, st. split; [reflexivity|apply null_deref_eq, H].
Qed.
(** a single NAL unit packet with an AUD without payload. *)
Theorem C51_rtp_refuted : exists r st, ParseRtp [0x46; 1] empty_state = Done (Some r, st) /\ dump_rtp default_options r = Bad NullDeref.
Proof.
  assert (H : match ParseRtp [0x46; 1] empty_state with Done (Some v, _) => null_deref (dump_rtp default_options v) | _ => false end = true) by (vm_compute; reflexivity).
  destruct (ParseRtp [0x46; 1] empty_state) as [[[v|] st]|e]; try discriminate H. exists v, st. split; [reflexivity|apply null_deref_eq, H].
Qed.

(** The stream of C24 (VPS, SPS, PPS, slice, PPS, AUD) is printed. *)
Example C51_case : byte_string (annexb_stream C24_nals) /\
  exists bs, ParseBitstreamNoState default_options (annexb_stream C24_nals) = Done bs /\ length (bs_units bs) = 6%nat /\
  dump_bitstream bs = Done tt.
Proof.
  split; [apply bytesb_ok; vm_compute; reflexivity|].
  assert (H : match ParseBitstreamNoState default_options (annexb_stream C24_nals) with
              | Done bs => Nat.eqb (length (bs_units bs)) 6 && match dump_bitstream bs with Done _ => true | _ => false end | _ => false end = true) by (vm_compute; reflexivity).
  destruct (ParseBitstreamNoState default_options (annexb_stream C24_nals)) as [bs|e]; [|discriminate H]. exists bs. split; [reflexivity|].
  apply andb_prop in H. destruct H as [H1 H2]. split; [apply Nat.eqb_eq, H1|]. destruct (dump_bitstream bs) as [[]|]; [reflexivity|discriminate].
Qed.
