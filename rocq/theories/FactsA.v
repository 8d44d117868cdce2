(** The parsers of MSyntaxA.v read exactly the layouts of SpecA.v (with the code's variants). *)
From Coq Require Import ZArith List Bool Lia ZifyBool ZifyNat.
From Verif Require Import MBase MBitBuffer Spec BitsFacts Reader ReaderFacts Rules Syntax MCommon CommonFacts MSyntaxA SpecA.
Import ListNotations.
Open Scope Z_scope.

Global Arguments existsb : simpl never.

Lemma parses_nal_header s : nal_header_ok s -> parses ParseNalUnitHeader (enc_nal_header s) s.
Proof.
  destruct s. unfold nal_header_ok, enc_nal_header. cbn. intros H. split_hyps. unfold ParseNalUnitHeader. prun.
Qed.
Lemma wp_nal_header : wp no_err ParseNalUnitHeader (fun s bs => nal_header_ok s /\ bs = enc_nal_header s).
Proof.
  unfold ParseNalUnitHeader. wrun. unfold nal_header_ok, enc_nal_header. cbn. split; [conjs|reflexivity].
Qed.

Lemma parses_profile_info s : profile_info_ok s -> parses ParseProfileInfo (enc_profile_info s) s.
Proof.
  destruct s. unfold profile_info_ok, enc_profile_info, prof_range_ext, prof_high_throughput, prof_main10, prof_inbld, prof.
  cbn. intros H. split_hyps. unfold ParseProfileInfo, idc_or_compat. prun.
Qed.
Lemma wp_profile_info : wp no_err ParseProfileInfo (fun s bs => profile_info_ok s /\ bs = enc_profile_info s).
Proof.
  unfold ParseProfileInfo, idc_or_compat. wrun.
  unfold profile_info_ok, enc_profile_info, prof_range_ext, prof_high_throughput, prof_main10, prof_inbld, prof.
  cbn. split; [conjs|reflexivity].
Qed.
#[export] Hint Resolve parses_nal_header parses_profile_info : parses_db.
#[export] Hint Resolve wp_nal_header wp_profile_info : wp_db.

Lemma parses_sub_layer_flags s : sub_layer_flags_ok s -> parses read_sub_layer_flags (enc_sub_layer_flags s) s.
Proof.
  destruct s. unfold sub_layer_flags_ok, enc_sub_layer_flags. cbn. intros H. split_hyps. unfold read_sub_layer_flags. prun.
Qed.
Lemma wp_sub_layer_flags : wp no_err read_sub_layer_flags (fun s bs => sub_layer_flags_ok s /\ bs = enc_sub_layer_flags s).
Proof.
  unfold read_sub_layer_flags. wrun. unfold sub_layer_flags_ok, enc_sub_layer_flags. cbn. split; [conjs|reflexivity].
Qed.
Lemma parses_sub_layer flags i s : 0 <= i < Z.of_nat (length flags) ->
  sub_layer_ok false flags i s -> parses (read_sub_layer flags i) (enc_sub_layer false flags i s) s.
Proof.
  intros Hi. destruct s. unfold sub_layer_ok, enc_sub_layer, level_gate. cbn. intros H. split_hyps. unfold read_sub_layer.
  apply (parses_at _ _ (0, 0)); [lia|]. prun.
Qed.
Lemma wp_sub_layer flags i : 0 <= i < Z.of_nat (length flags) ->
  wp no_err (read_sub_layer flags i) (fun s bs => sub_layer_ok false flags i s /\ bs = enc_sub_layer false flags i s).
Proof.
  intros Hi. unfold read_sub_layer. apply (wp_at _ _ _ (0, 0)); [exact Hi|]. wrun.
  unfold sub_layer_ok, enc_sub_layer, level_gate. cbn. split; [conjs|reflexivity].
Qed.
#[export] Hint Resolve parses_sub_layer_flags : parses_db.
#[export] Hint Resolve wp_sub_layer_flags : wp_db.

Lemma parses_ptl present n s : ptl_ok false present n s ->
  parses (ParseProfileTierLevel present n) (enc_ptl false present n s) s.
Proof.
  destruct s. unfold ptl_ok, enc_ptl. cbn. intros H. split_hyps. unfold ParseProfileTierLevel.
  do 4 pstep. eapply parses_bind; [eapply parses_veci; [eassumption|]|prun].
  intros i a Hi Ha. apply parses_sub_layer; [|exact Ha].
  match goal with H : vec _ _ _ |- _ => destruct H as [-> _] end. lia.
Qed.
Lemma wp_ptl present n : wp no_err (ParseProfileTierLevel present n)
  (fun s bs => ptl_ok false present n s /\ bs = enc_ptl false present n s).
Proof.
  unfold ParseProfileTierLevel. do 4 wstep.
  eapply wp_bind_eq; [eapply wp_veci; intros i Hi; cbv beta; apply wp_sub_layer|].
  - match goal with H : vec _ _ _ |- _ => destruct H as [-> _] end. lia.
  - intros ? ?. wrun. unfold ptl_ok, enc_ptl. cbn. split; [conjs|reflexivity].
Qed.
#[export] Hint Resolve parses_ptl : parses_db.
#[export] Hint Resolve wp_ptl : wp_db.

Lemma parses_cpb_entry sp s : cpb_entry_ok sp s -> parses (read_cpb_entry sp) (enc_cpb_entry sp s) s.
Proof.
  destruct s. unfold cpb_entry_ok, enc_cpb_entry. cbn. intros H. split_hyps. unfold read_cpb_entry. prun.
Qed.
Lemma wp_cpb_entry sp : wp no_err (read_cpb_entry sp) (fun s bs => cpb_entry_ok sp s /\ bs = enc_cpb_entry sp s).
Proof.
  unfold read_cpb_entry. wrun. unfold cpb_entry_ok, enc_cpb_entry. cbn. split; [conjs|reflexivity].
Qed.
#[export] Hint Resolve parses_cpb_entry : parses_db.
#[export] Hint Resolve wp_cpb_entry : wp_db.

Lemma parses_sub_layer_hrd n sp s : sub_layer_hrd_ok n sp s ->
  parses (ParseSubLayerHrdParameters n sp) (enc_sub_layer_hrd sp s) s.
Proof. unfold sub_layer_hrd_ok, enc_sub_layer_hrd, ParseSubLayerHrdParameters. intros H. pfield. Qed.
Lemma wp_sub_layer_hrd n sp : wp no_err (ParseSubLayerHrdParameters n sp)
  (fun s bs => sub_layer_hrd_ok n sp s /\ bs = enc_sub_layer_hrd sp s).
Proof. unfold sub_layer_hrd_ok, enc_sub_layer_hrd, ParseSubLayerHrdParameters. wfield. Qed.
#[export] Hint Resolve parses_sub_layer_hrd : parses_db.
#[export] Hint Resolve wp_sub_layer_hrd : wp_db.
Global Arguments sub_layer_hrd_ok : simpl never.
Global Arguments enc_sub_layer_hrd : simpl never.

Lemma cpb_cnt_nowrap (c : bool) v : optf c ue_ok 0 v -> u32 (v + 1) = v + 1.
Proof. intros H. unfold u32. apply Z.mod_small. unfold optf, ue_ok in *; destruct c; lia. Qed.

Lemma parses_hrd_sub nal vcl sp s : hrd_sub_ok 0 nal vcl sp s ->
  parses (read_hrd_sub nal vcl sp) (enc_hrd_sub nal vcl sp s) s.
Proof.
  destruct s. unfold hrd_sub_ok, enc_hrd_sub. cbn. intros H. split_hyps. unfold read_hrd_sub. do 5 pstep.
  erewrite cpb_cnt_nowrap by eassumption. prun.
Qed.
Lemma wp_hrd_sub nal vcl sp : wp no_err (read_hrd_sub nal vcl sp)
  (fun s bs => hrd_sub_ok 0 nal vcl sp s /\ bs = enc_hrd_sub nal vcl sp s).
Proof.
  unfold read_hrd_sub. do 5 wstep. erewrite cpb_cnt_nowrap by eassumption. wrun.
  unfold hrd_sub_ok, enc_hrd_sub. cbn. split; [conjs|reflexivity].
Qed.
#[export] Hint Resolve parses_hrd_sub : parses_db.
#[export] Hint Resolve wp_hrd_sub : wp_db.

Lemma parses_hrd common n s : hrd_ok 0 common n s -> parses (ParseHrdParameters common n) (enc_hrd common s) s.
Proof.
  destruct s. unfold hrd_ok, enc_hrd. cbn. intros H. split_hyps. unfold ParseHrdParameters. prun.
Qed.
Lemma wp_hrd common n : wp no_err (ParseHrdParameters common n)
  (fun s bs => hrd_ok 0 common n s /\ bs = enc_hrd common s).
Proof.
  unfold ParseHrdParameters. wrun. unfold hrd_ok, enc_hrd. cbn. split; [conjs|reflexivity].
Qed.
#[export] Hint Resolve parses_hrd : parses_db.
#[export] Hint Resolve wp_hrd : wp_db.

Lemma parses_vui n s : vui_ok 0 n s -> parses (ParseVuiParameters n) (enc_vui s) s.
Proof.
  destruct s. unfold vui_ok, enc_vui. cbn. intros H. split_hyps. unfold ParseVuiParameters, AR_EXTENDED_SAR. change (u32_max - 1) with (2 ^ 32 - 2). prun.
Qed.
Lemma wp_vui n : wp no_err (ParseVuiParameters n) (fun s bs => vui_ok 0 n s /\ bs = enc_vui s).
Proof.
  unfold ParseVuiParameters, AR_EXTENDED_SAR. change (u32_max - 1) with (2 ^ 32 - 2). wrun. unfold vui_ok, enc_vui. cbn. split; [conjs|reflexivity].
Qed.
#[export] Hint Resolve parses_vui : parses_db.
#[export] Hint Resolve wp_vui : wp_db.
