(** C27, C28: the deviation of hrd_parameters() is never harmless: the structures of the standard that the parsers return are exactly those that
    leave no flag to inference. *)
From Coq Require Import ZArith List Bool Lia ZifyBool ZifyNat.
From Verif Require Import MBase MBitBuffer Spec BitsFacts Reader ReaderFacts Rules Syntax SyntaxSe MCommon CommonFacts PropsBits PropsCommon
  MSyntaxA SpecA FactsA Api PropsA MSyntaxB SpecB FactsB FactsRps PropsB MSps SpecSps FactsSps PropsSps.
Import ListNotations.
Open Scope Z_scope.

Lemma hrd_ok_both common n s : hrd_ok 1 common n s -> hrd_ok 0 common n s -> explicit_cvs s.
Proof.
  unfold hrd_ok. cbv zeta. intros O1 O0. repeat (destruct O1 as [_ O1]). repeat (destruct O0 as [_ O0]).
  unfold explicit_cvs. rewrite Forall_forall in *. intros h I. specialize (O1 h I). specialize (O0 h I). destruct O1 as (U & F1 & _), O0 as (_ & F0 & _).
  unfold u_ok in U. unfold optf, nz in *. destruct (Z.eqb_spec (fixed_pic_rate_general_flag h) 0) as [E|E]; [exact E|]. cbn [negb] in *. lia.
Qed.
Theorem C27_standard_iff : forall common n b s rest, wf b -> hrd_ok 1 common n s -> rem b = enc_hrd common s ++ rest ->
  (exists b', ParseHrdParameters common n b = Ok s b') <-> explicit_cvs s.
Proof.
  intros common n b s rest W O R. split.
  - intros (b' & E). apply (C27_layout_of_the_code common n b W) in E. exact (hrd_ok_both common n s O (proj1 E)).
  - intros X. apply (proj2 (C27_standard_layout common n b s W X)). eauto.
Qed.
Theorem C28_standard_iff : forall n b s rest, wf b -> vui_ok 1 n s -> rem b = enc_vui s ++ rest ->
  (exists b', ParseVuiParameters n b = Ok s b') <-> (forall h, vui_hrd_parameters s = Some h -> explicit_cvs h).
Proof.
  intros n b s rest W O R. split.
  - intros (b' & E) h Eh. apply (C28_layout_of_the_code n b W) in E. destruct E as [O0 _]. unfold vui_ok in O, O0. cbv zeta in O, O0.
    assert (Q : forall k, optf (nz (vui_timing_info_present_flag s) && nz (vui_hrd_parameters_present_flag s)) (is_some (hrd_ok k 1 n)) None (vui_hrd_parameters s) -> hrd_ok k 1 n h).
    { intros k. rewrite Eh. unfold optf, is_some. destruct (nz (vui_timing_info_present_flag s) && nz (vui_hrd_parameters_present_flag s)); [auto|intros F; discriminate F]. }
    apply (hrd_ok_both 1 n h); apply Q; tauto.
  - intros X. apply (proj2 (C28_standard_layout n b s W X)). eauto.
Qed.
(** C29: a VPS of the standard with hrd_parameters() is never returned, from any input: the first structure has its common part
    (cprms_present_flag[0] is inferred to be 1), the parser always reports 0. *)
Theorem C29_hrd_never : forall b s, wf b -> vps_ok true s -> vps_hrds s <> [] -> forall x b', ParseVps b <> Ok (s, x) b'.
Proof.
  intros b s W O N x b' E. pose proof (C29_ok_out b s x b' W E) as O0. unfold vps_ok in O, O0. cbv zeta in O, O0.
  assert (Q : forall std, optf (nz (vps_timing_info_present_flag s)) (veci (vps_num_hrd_parameters s) (vps_hrd_ok std (vps_max_sub_layers_minus1 s))) [] (vps_hrds s) ->
     exists e l, vps_hrds s = e :: l /\ cprms_present_flag e = if std then 1 else 0).
  { intros std. unfold optf. destruct (nz (vps_timing_info_present_flag s)); [|intros F; contradiction]. destruct (vps_hrds s) as [|e l]; [contradiction|].
    intros [_ [[_ [H _]] _]]. exists e, l. split; [reflexivity|]. exact H. }
  destruct (Q true) as (e1 & l1 & E1 & H1); [tauto|]. destruct (Q false) as (e0 & l0 & E0 & H0); [tauto|]. rewrite E1 in E0. injection E0 as <- _. congruence.
Qed.
