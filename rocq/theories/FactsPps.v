(** The PPS parser and its extensions read the layouts of SpecPps.v. *)
From Coq Require Import ZArith List Bool Lia ZifyBool ZifyNat.
From Verif Require Import MBase MBitBuffer Spec BitsFacts Reader ReaderFacts Rules Syntax SyntaxSe MCommon PropsBits
  MSyntaxA SpecA FactsA Api MSyntaxB SpecB FactsB MPps SpecPps.
Import ListNotations.
Open Scope Z_scope.

Global Arguments enc_quad : simpl never.
Global Arguments quad_ok : simpl never.
Global Arguments enc_ref_loc : simpl never.
Global Arguments ref_loc_ok : simpl never.
Global Arguments enc_pps_ml_ext : simpl never.
Global Arguments pps_ml_ext_ok : simpl never.
Global Arguments enc_pps_scc_ext : simpl never.
Global Arguments pps_scc_ext_ok : simpl never.
Global Arguments enc_pps : simpl never.
Global Arguments pps_ok : simpl never.
Global Arguments entry_depth : simpl never.

(** * pps_multilayer_extension *)
Lemma parses_quad q : quad_ok se_ok q -> parses read_quad (enc_quad enc_se q) q.
Proof. destruct q. unfold quad_ok, enc_quad. cbn. intros H. split_hyps. unfold read_quad. prun. Qed.
Lemma wpa_quad (E : errs) : ovf_in E -> wpa E read_quad (quad_ok se_ok) (enc_quad enc_se).
Proof. intros HE. unfold read_quad, wpa. arun. unfold quad_ok, enc_quad. cbn. split; [conjs|agrees]. Qed.
#[export] Hint Resolve parses_quad : parses_db.
#[export] Hint Resolve wpa_quad : wpa_db.
Lemma parses_ref_loc r : ref_loc_ok false r -> parses read_ref_loc (enc_ref_loc false r) r.
Proof. destruct r. unfold ref_loc_ok, enc_ref_loc. cbn. intros H. split_hyps. unfold read_ref_loc. prun. Qed.
Lemma wpa_ref_loc : wpa ovf_only read_ref_loc (ref_loc_ok false) (enc_ref_loc false).
Proof. unfold read_ref_loc, wpa. arun. unfold ref_loc_ok, enc_ref_loc. cbn. split; [conjs|agrees]. Qed.
#[export] Hint Resolve parses_ref_loc : parses_db.
#[export] Hint Resolve wpa_ref_loc : wpa_db.
Lemma parses_pps_ml_ext s : pps_ml_ext_ok false s -> parses ParsePpsMultilayerExtension (enc_pps_ml_ext false s) s.
Proof.
  destruct s. unfold pps_ml_ext_ok, enc_pps_ml_ext. cbn. intros H. split_hyps. subst. unfold ParsePpsMultilayerExtension.
  do 5 pstep. eapply parses_bind; [apply (parses_u_ok 1); [lia|unfold u_ok; lia]|]. apply parses_guard; [reflexivity|]. prun.
Qed.
Lemma wpa_pps_ml_ext : wpa ovf_only ParsePpsMultilayerExtension (pps_ml_ext_ok false) (enc_pps_ml_ext false).
Proof.
  unfold ParsePpsMultilayerExtension, wpa. arun. unfold pps_ml_ext_ok, enc_pps_ml_ext. cbn. split; [conjs|agrees].
  unfold nz in *. lia.
Qed.
#[export] Hint Resolve parses_pps_ml_ext : parses_db.
#[export] Hint Resolve wpa_pps_ml_ext : wpa_db.

(** * pps_scc_extension *)
Lemma u32_range v : 0 <= u32 v < 2 ^ 32.
Proof. unfold u32. apply Z.mod_pos_bound. lia. Qed.
Lemma depth_if dl dc comp : (if comp =? 0 then u32 (dl + 8) else u32 (dc + 8)) = entry_depth dl dc comp.
Proof. unfold entry_depth. destruct (comp =? 0); reflexivity. Qed.
Lemma wp_palette_entry d : 0 <= d -> wp no_err (read_palette_entry d) (fun v bs => (1 <= d <= 32 /\ u_ok d v) /\ bs = enc_u (Z.to_nat d) v).
Proof.
  intros Hd. unfold read_palette_entry. apply wp_guard. intros G.
  intros b W. pose proof (wp_u_ok d ltac:(lia) b W) as H. pose proof (C01_read_exact b d W ltac:(lia)) as R.
  destruct (ReadBits d b) as [v b'|b'|e]; [|exact H|exact H].
  destruct H as (bs & S & Hv & Eb). exists bs. split; [exact S|]. split; [|exact Eb]. split; [|exact Hv].
  destruct (d <=? 32) eqn:E; [lia|]. cbn in R. discriminate R.
Qed.
Lemma parses_palette_entry d v : 1 <= d <= 32 -> u_ok d v -> parses (read_palette_entry d) (enc_u (Z.to_nat d) v) v.
Proof. intros Hd Hv. unfold read_palette_entry. apply parses_guard; [lia|]. apply parses_u_ok; [lia|exact Hv]. Qed.
Lemma parses_pps_scc_ext s : pps_scc_ext_ok false s -> parses ParsePpsSccExtension (enc_pps_scc_ext false s) s.
Proof.
  destruct s. unfold pps_scc_ext_ok, enc_pps_scc_ext, chroma_depth_present. cbn. intros H. split_hyps. unfold ParsePpsSccExtension. do 11 pstep.
  eapply parses_bind; [eapply parses_veci_when; [eassumption|]|prun].
  intros comp v Hcomp Hv. cbv beta in *. rewrite depth_if. eapply parses_vec; [exact Hv|]. cbv beta.
  intros i a [Hd Ha]. apply parses_palette_entry; assumption.
Qed.
Lemma wpa_pps_scc_ext : wpa ovf_only ParsePpsSccExtension (pps_scc_ext_ok false) (enc_pps_scc_ext false).
Proof.
  unfold ParsePpsSccExtension, wpa. do 11 astep.
  eapply wpa_bind; [apply wpa_exact; apply wp_err; apply (wp_veci_when _ _ _ _
     (fun comp => vec a6 (fun v => 1 <= entry_depth a8 a9 comp <= 32 /\ u_ok (entry_depth a8 a9 comp) v))
     (fun comp => flat_map (enc_u (Z.to_nat (entry_depth a8 a9 comp)))))|].
  { intros _ comp _. rewrite depth_if. apply wp_vec. intros. apply wp_palette_entry. unfold entry_depth. apply u32_range. }
  intros ? ? ? ?. arun. unfold pps_scc_ext_ok, enc_pps_scc_ext, chroma_depth_present. cbn. split; [conjs|agrees].
Qed.
#[export] Hint Resolve parses_pps_scc_ext : parses_db.
#[export] Hint Resolve wpa_pps_scc_ext : wpa_db.

(** * The whole structure *)
(** What is known about the multilayer extension of a returned PPS: it may be missing although announced. *)
Definition ml_out (o : option pps_ml_ext) : Prop := match o with Some e => pps_ml_ext_ok false e | None => True end.
Definition pps_ok_in : pps -> Prop := pps_ok false sl_range (is_some (pps_ml_ext_ok false)).
Definition pps_ok_out : pps -> Prop := pps_ok false se_ok ml_out.
(** The multilayer extension, if announced, was parsed. *)
Definition ml_parsed (s : pps) : Prop := nz (pps_multilayer_extension_flag s) = true -> pps_multilayer_extension s <> None.

Lemma parses_attempt_opt {A} (m : M A) (P : A -> Prop) enc o :
  is_some P o -> (forall a, P a -> parses m (enc a) a) -> parses (attempt m) (enc_opt enc o) o.
Proof. destruct o as [a|]; unfold is_some, enc_opt; [|tauto]. intros H1 H2. apply parses_attempt, H2, H1. Qed.
Lemma parses_attempt_ml o : is_some (pps_ml_ext_ok false) o -> parses (attempt ParsePpsMultilayerExtension) (enc_opt (enc_pps_ml_ext false) o) o.
Proof. intros H. eapply parses_attempt_opt; [exact H|]. apply parses_pps_ml_ext. Qed.
#[export] Hint Resolve parses_attempt_ml : parses_db.

Lemma parses_zero_flag (c : bool) : c = true -> parses (when c (ReadBits 1) 0) (opt c (enc_u 1 0)) 0.
Proof. intros ->. apply (parses_u_ok 1); [lia|unfold u_ok; lia]. Qed.
Lemma parses_zero_when (c : bool) : parses (when c (ReadBits 1) 0) (opt c (enc_u 1 0)) 0.
Proof. destruct c; [apply parses_zero_flag; reflexivity|apply parses_ret]. Qed.

Lemma parses_pps s : pps_ok_in s -> parses ParsePpsBody (enc_pps false s) s.
Proof.
  destruct s. unfold pps_ok_in, pps_ok, enc_pps. cbn. intros H. split_hyps. subst. unfold ParsePpsBody.
  do 40 pstep. eapply parses_bind; [apply parses_zero_when|]. pstep. eapply parses_bind; [apply parses_zero_when|]. do 2 pstep. apply parses_guard; [reflexivity|]. pstep. apply parses_guard; [reflexivity|]. prun.
Qed.

Lemma wp_ml (c : bool) : wp ovf_only (when c (attempt ParsePpsMultilayerExtension) None)
  (fun o bs => optf c ml_out None o /\ ((c = true -> o <> None) -> agree bs (opt c (enc_opt (enc_pps_ml_ext false) o)))).
Proof.
  destruct c.
  - unfold when, optf, opt, enc_opt, ml_out. eapply wp_weaken; [apply wp_attempt, wpa_pps_ml_ext|]. cbv beta. intros [e|] bs H.
    + destruct H as [H1 H2]. split; [exact H1|]. intros _. exact H2.
    + split; [exact I|]. intros N. contradiction (N eq_refl eq_refl).
  - apply wp_ret. split; [reflexivity|]. intros _. apply agree_refl.
Qed.
Lemma wp_pps : wp ovf_only ParsePpsBody (fun s bs => pps_ok_out s /\ (ml_parsed s -> agree bs (enc_pps false s))).
Proof.
  unfold ParsePpsBody. do 46 astep. eapply wp_bind; [apply wp_ml|]. cbv beta. intros em bs_ml [Hm Hb]. do 2 astep. apply wp_ret.
  unfold pps_ok_out, pps_ok, enc_pps, ml_parsed. cbn. split.
  - conjs; unfold optf, nz in *; lia.
  - intros N. specialize (Hb N). agrees.
Qed.
