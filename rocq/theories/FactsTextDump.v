(** The text model and the control-flow model of fdump (MDump.v) agree: the same executions have undefined behaviour. *)
From Coq Require Import ZArith List Bool Lia String Ascii.
From Verif Require Import MBase MBitBuffer Spec Syntax MCommon MFraming MSyntaxA MProfile MSyntaxB MSps MPps MSlice MSei MNal MRtp MDump PropsDump
  MText FactsText PropsText.
Import ListNotations.
Open Scope Z_scope.
Open Scope dump_scope.
Open Scope text_scope.

(** Forget the text *)
Definition er (d : txt) : dump := match d with Done _ => nop | Bad e => Bad e end.
Lemma er_seq a b : er (a +> b) = er a >> er b.
Proof. destruct a as [ca|]; [destruct b|]; reflexivity. Qed.
Lemma seq_nop d : d >> nop = d.
Proof. destruct d as [[]|]; reflexivity. Qed.
Lemma nop_seq d : nop >> d = d.
Proof. reflexivity. Qed.
Lemma seq_assoc a b c : (a >> b) >> c = a >> (b >> c).
Proof. destruct a; reflexivity. Qed.
Lemma only_nop c : only c nop = nop.
Proof. destruct c; reflexivity. Qed.
Lemma er_line s : er (line s) = nop. Proof. reflexivity. Qed.
Lemma er_fi n x : er (fi n x) = nop. Proof. reflexivity. Qed.
Lemma er_fu n x : er (fu n x) = nop. Proof. reflexivity. Qed.
Lemma er_vec n x : er (MText.vec n x) = nop. Proof. reflexivity. Qed.
Lemma er_vecs n x : er (vecs n x) = nop. Proof. reflexivity. Qed.
Lemma er_vecu n x : er (vecu n x) = nop. Proof. reflexivity. Qed.
Lemma er_vecc n x : er (vecc n x) = nop. Proof. reflexivity. Qed.
Lemma er_vecci n x : er (vecci n x) = nop. Proof. reflexivity. Qed.
Lemma er_vec2 n x : er (vec2 n x) = nop. Proof. reflexivity. Qed.
Lemma er_vec3 n x : er (vec3 n x) = nop. Proof. reflexivity. Qed.
Lemma er_done c : er (Done c) = nop. Proof. reflexivity. Qed.
Lemma er_tnop : er tnop = nop. Proof. reflexivity. Qed.
Lemma er_tif c d : er (tif c d) = only c (er d). Proof. destruct c; reflexivity. Qed.
Lemma er_if (c : bool) d e : er (if c then d else e) = if c then er d else er e. Proof. destruct c; reflexivity. Qed.
Lemma er_tderef {A} (p : option A) d : er (tderef p d) = deref p (fun a => er (d a)). Proof. destruct p; reflexivity. Qed.
Lemma er_tchecked {A} (p : option A) d : er (tchecked p d) = checked p (fun a => er (d a)). Proof. destruct p; reflexivity. Qed.
Lemma er_telem {A} (l : list A) i d : er (telem l i d) = elem l i (fun a => er (d a)). Proof. unfold telem, elem. destruct (nth_error l i); reflexivity. Qed.
Lemma er_teach {A} (l : list A) d : er (teach l d) = each l (fun a => er (d a)).
Proof. induction l as [|a l IH]; [reflexivity|]. cbn [teach each]. rewrite er_seq, IH. reflexivity. Qed.
Lemma er_tupto n d : er (tupto n d) = upto n (fun a => er (d a)).
Proof. induction n as [|n IH]; [reflexivity|]. cbn [tupto upto]. rewrite er_seq, IH. reflexivity. Qed.
Lemma er_call d : er (call d) = er d. Proof. unfold call. rewrite !er_seq. apply seq_nop. Qed.
Lemma er_block n d : er (block n d) = er d. Proof. unfold block. rewrite !er_seq. apply seq_nop. Qed.
Lemma er_struct n d : er (struct n d) = er d. Proof. unfold struct. rewrite !er_seq. apply seq_nop. Qed.
Lemma er_sub d : er (sub d) = er d. Proof. unfold sub. rewrite er_seq. apply er_call. Qed.

(** [ag d e]: the text [d] and the control flow [e] have the same outcome *)
Definition ag (d : txt) (e : dump) : Prop := er d = e.
Lemma ag_seq a b d e : ag a d -> ag b e -> ag (a +> b) (d >> e).
Proof. unfold ag. intros <- <-. apply er_seq. Qed.
Lemma ag_skip a b e : ag a nop -> ag b e -> ag (a +> b) e.
Proof. unfold ag. intros Ha <-. rewrite er_seq, Ha. reflexivity. Qed.
Lemma ag_last a b d : ag a d -> ag b nop -> ag (a +> b) d.
Proof. unfold ag. intros <- Hb. rewrite er_seq, Hb. apply seq_nop. Qed.
Lemma ag_tif c d e : ag d e -> ag (tif c d) (only c e).
Proof. unfold ag. intros <-. apply er_tif. Qed.
Lemma ag_tif_nop c d : ag d nop -> ag (tif c d) nop.
Proof. unfold ag. intros H. rewrite er_tif, H. apply only_nop. Qed.
Lemma ag_if_nop (c : bool) d e : ag d nop -> ag e nop -> ag (if c then d else e) nop.
Proof. destruct c; auto. Qed.
Lemma ag_if (c : bool) d e d' e' : ag d d' -> ag e e' -> ag (if c then d else e) (if c then d' else e').
Proof. destruct c; auto. Qed.
Lemma ag_if_only (c : bool) d e d' : ag d d' -> ag e nop -> ag (if c then d else e) (only c d').
Proof. destruct c; auto. Qed.
Lemma ag_tderef {A} (p : option A) d e : (forall a, ag (d a) (e a)) -> ag (tderef p d) (deref p e).
Proof. intros H. destruct p; [apply H | reflexivity]. Qed.
Lemma ag_tchecked {A} (p : option A) d e : (forall a, ag (d a) (e a)) -> ag (tchecked p d) (checked p e).
Proof. intros H. destruct p; [apply H | reflexivity]. Qed.
Lemma ag_tchecked_nop {A} (p : option A) d : (forall a, ag (d a) nop) -> ag (tchecked p d) nop.
Proof. intros H. destruct p; [apply H | reflexivity]. Qed.
Lemma ag_telem {A} (l : list A) i d e : (forall a, ag (d a) (e a)) -> ag (telem l i d) (elem l i e).
Proof. intros H. unfold telem, elem. destruct (nth_error l i); [apply H | reflexivity]. Qed.
Lemma ag_teach {A} (l : list A) d e : (forall a, ag (d a) (e a)) -> ag (teach l d) (each l e).
Proof. intros H. induction l as [|a l IH]; [reflexivity|]. cbn [teach each]. apply ag_seq; auto. Qed.
Lemma ag_tupto n d e : (forall a, ag (d a) (e a)) -> ag (tupto n d) (upto n e).
Proof. intros H. induction n as [|n IH]; [reflexivity|]. cbn [tupto upto]. apply ag_seq; auto. Qed.
Lemma ag_tupto_nop n d : (forall a, ag (d a) nop) -> ag (tupto n d) nop.
Proof. intros H. induction n as [|n IH]; [reflexivity|]. cbn [tupto]. apply ag_skip; auto. Qed.
Lemma ag_call d e : ag d e -> ag (call d) e.
Proof. unfold ag. intros <-. apply er_call. Qed.
Lemma ag_block n d e : ag d e -> ag (block n d) e.
Proof. unfold ag. intros <-. apply er_block. Qed.
Lemma ag_struct n d e : ag d e -> ag (struct n d) e.
Proof. unfold ag. intros <-. apply er_struct. Qed.
Lemma ag_sub d e : ag d e -> ag (sub d) e.
Proof. unfold ag. intros <-. apply er_sub. Qed.

Create HintDb ag discriminated.
#[export] Hint Constants Opaque : ag.
(** one step when nothing but nop can be meant *)
Ltac anop := lazymatch goal with
  | |- ag (fi _ _) nop => reflexivity | |- ag (fu _ _) nop => reflexivity | |- ag (line _) nop => reflexivity
  | |- ag (MText.vec _ _) nop => reflexivity | |- ag (vecs _ _) nop => reflexivity | |- ag (vecu _ _) nop => reflexivity
  | |- ag (vecc _ _) nop => reflexivity | |- ag (vecci _ _) nop => reflexivity | |- ag (vec2 _ _) nop => reflexivity
  | |- ag (vec3 _ _) nop => reflexivity | |- ag (Done _) nop => reflexivity | |- ag tnop nop => reflexivity
  | |- ag (_ +> _) nop => apply ag_skip
  | |- ag (tif _ _) nop => apply ag_tif_nop
  | |- ag (if _ then _ else _) nop => apply ag_if_nop
  | |- ag (tchecked _ _) nop => apply ag_tchecked_nop; intros ?
  | |- ag (tupto _ _) nop => apply ag_tupto_nop; intros ?
  | |- ag (struct _ _) nop => apply ag_struct | |- ag (block _ _) nop => apply ag_block
  | |- ag (sub _) nop => apply ag_sub | |- ag (call _) nop => apply ag_call
  end.
Ltac anops := repeat anop; try solve [auto 1 with ag nocore].
(** the first statement prints numbers only *)
Ltac askip := repeat (lazymatch goal with |- ag (_ +> _) _ => apply ag_skip; [solve [anops]|] end).
Lemma ag_numbers {A} (s : A) d : ag d nop -> ag d (dump_numbers s).
Proof. exact (fun H => H). Qed.

Lemma ag_profile_info s : ag (text_profile_info s) nop.
Proof. unfold text_profile_info. anops. Qed.
#[export] Hint Resolve ag_profile_info : ag.
Lemma ag_ptl a b s : ag (text_ptl a b s) (dump_ptl a b s).
Proof.
  unfold text_ptl, dump_ptl. apply ag_struct. apply ag_seq.
  - apply ag_tif, ag_block, ag_call, ag_tderef. intros ?. apply ag_profile_info.
  - askip. apply ag_tif, ag_last; [|reflexivity]. apply ag_teach. intros e. apply ag_tchecked. intros ?. apply ag_block, ag_call, ag_profile_info.
Qed.
Lemma ag_sub_layer_hrd s : ag (text_sub_layer_hrd s) nop.
Proof. unfold text_sub_layer_hrd. anops. Qed.
Lemma ag_sub_layer_hrds s : ag (text_sub_layer_hrds s) (dump_sub_layer_hrds s).
Proof.
  unfold text_sub_layer_hrds, dump_sub_layer_hrds. apply ag_block, ag_teach. intros e.
  apply ag_seq; apply ag_tchecked; intros ?; apply ag_sub, ag_sub_layer_hrd.
Qed.
Lemma ag_hrd c s : ag (text_hrd c s) (dump_hrd s).
Proof. unfold text_hrd, dump_hrd. apply ag_struct. askip. apply ag_seq; apply ag_tif, ag_sub_layer_hrds. Qed.
Lemma ag_vui s : ag (text_vui s) (dump_vui s).
Proof.
  unfold text_vui, dump_vui. apply ag_struct. askip. apply ag_last; [|solve [anops]].
  apply ag_tif. askip. apply ag_tif, ag_sub, ag_tderef. intros ?. apply ag_hrd.
Qed.
Lemma ag_vps s f : ag (text_vps s f) (dump_vps s).
Proof.
  unfold text_vps, dump_vps. apply ag_struct. askip. apply ag_seq; [apply ag_sub, ag_ptl|]. askip. apply ag_last; [|solve [anops]].
  apply ag_tif. askip. apply ag_sub. destruct (rev (vps_hrds s)) as [|e r]; [reflexivity|]. apply ag_hrd.
Qed.
Lemma ag_scaling s : ag (text_scaling_list_data s) nop.
Proof. unfold text_scaling_list_data. anops. Qed.
Lemma ag_rps a b s : ag (text_rps a b s) nop.
Proof. unfold text_rps. anops. Qed.
Lemma ag_sps_range s : ag (text_sps_range s) nop.
Proof. unfold text_sps_range. anops. Qed.
Lemma ag_sps_multilayer s : ag (text_sps_multilayer s) nop.
Proof. unfold text_sps_multilayer. anops. Qed.
Lemma ag_sps_3d s : ag (text_sps_3d s) nop.
Proof. unfold text_sps_3d. anops. Qed.
Lemma ag_sps_scc s : ag (text_sps_scc s) nop.
Proof. unfold text_sps_scc. anops. Qed.
Lemma ag_resolution s : ag (text_resolution s) (dump_resolution s).
Proof. unfold text_resolution, dump_resolution. destruct (getResolution s (mk_bb [])) as [[w h] b|b|e]; reflexivity. Qed.
Lemma ag_sps a s : ag (text_sps a s) (dump_sps a s).
Proof.
  unfold text_sps, dump_sps. apply ag_struct. askip. apply ag_seq; [apply ag_sub, ag_ptl|]. askip.
  apply ag_seq. { apply ag_tif. askip. apply ag_tif, ag_sub, ag_tderef. intros ?. apply ag_scaling. } askip.
  apply ag_seq. { apply ag_tupto. intros i. apply ag_sub, ag_telem. intros ?. apply ag_rps. } askip.
  apply ag_seq. { apply ag_tif, ag_sub, ag_tderef. intros ?. apply ag_vui. } askip.
  apply ag_seq. { apply ag_tif, ag_sub, ag_tderef. intros ?. apply ag_sps_range. }
  apply ag_seq. { apply ag_tif, ag_sub, ag_tderef. intros ?. apply ag_sps_multilayer. }
  apply ag_seq. { apply ag_tif, ag_sub, ag_tderef. intros ?. apply ag_sps_3d. }
  apply ag_seq. { apply ag_tif, ag_sub, ag_tderef. intros ?. apply ag_sps_scc. }
  apply ag_tif, ag_resolution.
Qed.
Lemma ag_pps_multilayer s : ag (text_pps_multilayer s) nop.
Proof. unfold text_pps_multilayer. cbv zeta. anops. Qed.
Lemma ag_pps_scc s : ag (text_pps_scc s) nop.
Proof. unfold text_pps_scc. anops. Qed.
Lemma ag_pps s : ag (text_pps s) (dump_pps s).
Proof.
  unfold text_pps, dump_pps. apply ag_struct. do 27 (apply ag_skip; [solve [anops]|]).
  apply ag_seq. { apply ag_tif, ag_tchecked. intros ?. apply ag_sub, ag_scaling. } askip.
  apply ag_seq. { apply ag_tif, ag_sub, ag_tderef. intros ?. apply ag_pps_multilayer. }
  apply ag_tif, ag_sub, ag_tderef. intros ?. apply ag_pps_scc.
Qed.
Lemma ag_pwt c s : ag (text_pwt c s) nop.
Proof. unfold text_pwt. cbv zeta. anops. Qed.
Lemma ag_lt s h i : ag (text_lt s h i) nop.
Proof. unfold text_lt. cbv zeta. anops. Qed.
#[export] Hint Resolve ag_lt : ag.
Lemma ag_slice s p nut h : ag (text_slice s p nut h) (dump_slice nut h).
Proof.
  unfold text_slice, text_slice_header, dump_slice. cbv zeta. apply ag_struct, ag_sub, ag_struct. askip. apply ag_last; [|solve [anops]].
  apply ag_tif. askip. apply ag_seq.
  - apply ag_tif. askip. apply ag_last; [|solve [anops]]. apply ag_if_only; [|solve [anops]]. apply ag_skip; [reflexivity|].
    apply ag_tchecked. intros ?. apply ag_call, ag_rps.
  - askip. apply ag_last; [|solve [anops]]. apply ag_tif. askip. apply ag_last; [|solve [anops]]. apply ag_tif, ag_sub, ag_tderef. intros ?. apply ag_pwt.
Qed.
Lemma ag_sei_payload p : ag (text_sei_payload p) (dump_sei_payload p).
Proof.
  destruct p; cbn [text_sei_payload dump_sei_payload];
    try solve [unfold text_t35, text_unregistered, text_alpha, text_light, text_knee, text_alt, text_ambient, text_unknown; cbv zeta; anops].
  - unfold text_mastering, dump_mastering. apply ag_struct, ag_last; [|solve [anops]]. apply ag_tupto. intros c. apply ag_telem. intros e. apply ag_numbers. anops.
  - unfold text_remap, dump_remap, text_lut. apply ag_struct. askip. apply ag_tif. askip. apply ag_seq.
    { apply ag_tupto. intros c. apply ag_telem. intros e. askip. apply ag_tif. anops. } askip. apply ag_seq.
    { apply ag_tif. askip. apply ag_tif, ag_tupto. intros c. apply ag_tif, ag_telem. intros e. apply ag_numbers. anops. }
    apply ag_tupto. intros c. apply ag_telem. intros e. askip. apply ag_tif. anops.
  - unfold text_ccv, dump_ccv. apply ag_struct. askip. apply ag_tif. askip. apply ag_last; [|solve [anops]]. apply ag_tif, ag_tupto. intros c. apply ag_telem. intros e.
    apply ag_numbers. anops.
Qed.
Lemma ag_sei s : ag (text_sei s) (dump_sei s).
Proof. unfold text_sei, dump_sei. apply ag_struct. askip. apply ag_tchecked. intros ?. apply ag_sub, ag_sei_payload. Qed.
Lemma ag_header s : ag (text_header s) nop.
Proof. unfold text_header. anops. Qed.
#[export] Hint Resolve ag_header : ag.
Lemma ag_payload sp o ty p : ag (text_payload sp o ty p) (dump_payload o ty p).
Proof.
  unfold text_payload, dump_payload. apply ag_struct, ag_skip; [reflexivity|].
  apply ag_if; [apply ag_tchecked; intros ?; apply ag_call, ag_slice|].
  apply ag_if; [apply ag_tchecked; intros ?; apply ag_call, ag_vps|].
  apply ag_if; [apply ag_tchecked; intros ?; apply ag_call, ag_sps|].
  apply ag_if; [apply ag_tchecked; intros ?; apply ag_call, ag_pps|].
  apply ag_if; [apply ag_call, ag_tderef; intros ?; apply ag_numbers; unfold text_aud; anops|].
  apply ag_if; [apply ag_tchecked; intros ?; apply ag_call, ag_sei|]. reflexivity.
Qed.
Lemma ag_checksum c : ag (text_checksum c) nop.
Proof. destruct (checksum_string c) as (t & _ & ->). reflexivity. Qed.
Lemma ag_nal sp o u : ag (text_nal sp o u) (dump_nal o u).
Proof.
  unfold text_nal, dump_nal. apply ag_struct. askip. apply ag_seq.
  - apply ag_tif, ag_tderef. intros c. unfold ag. rewrite dump_checksum_nop. apply ag_checksum.
  - askip. apply ag_sub, ag_payload.
Qed.
Lemma ag_bitstream_of o us : ag (text_bitstream o us) (each (map snd us) (dump_nal o)).
Proof.
  unfold text_bitstream. induction us as [|[sp u] l IH]; [reflexivity|].
  cbn [teach map each fst snd]. apply ag_seq; [|exact IH]. apply ag_last; [apply ag_call, ag_nal | reflexivity].
Qed.
Lemma ag_rtp_single sp o r : ag (text_rtp_single sp o r) (dump_rtp_single o r).
Proof. unfold text_rtp_single, dump_rtp_single. apply ag_struct. askip. apply ag_sub, ag_payload. Qed.
Lemma each_upto {A} (l : list A) d : each l d = upto (List.length l) (fun i => elem l i d).
Proof.
  assert (H : forall l (a : A) d, each (l ++ [a]) d = each l d >> d a).
  { induction l0 as [|x l0 IH]; intros a d0; cbn [app each]; [apply seq_nop|]. rewrite IH. symmetry. apply seq_assoc. }
  assert (G : forall n (l m : list A), (n <= List.length l)%nat -> upto n (fun i => elem (l ++ m) i d) = upto n (fun i => elem l i d)).
  { induction n as [|n IH]; intros l0 m L; [reflexivity|]. cbn [upto]. rewrite IH by lia. unfold elem. rewrite nth_error_app1 by lia. reflexivity. }
  induction l as [|a l IH] using rev_ind; [reflexivity|]. rewrite H, IH, app_length. cbn [List.length]. rewrite Nat.add_1_r. cbn [upto].
  rewrite G by lia. unfold elem at 3. rewrite nth_error_app2, Nat.sub_diag by lia. reflexivity.
Qed.
Lemma ag_rtp_ap sp o r : ag (text_rtp_ap sp o r) (dump_rtp_ap o r).
Proof.
  unfold text_rtp_ap, dump_rtp_ap. rewrite each_upto. apply ag_struct. askip. apply ag_tupto. intros i. apply ag_telem. intros u. askip. apply ag_sub, ag_payload.
Qed.
Lemma ag_rtp_fu sp o r : ag (text_rtp_fu sp o r) (dump_rtp_fu o r).
Proof. unfold text_rtp_fu, dump_rtp_fu. apply ag_struct. askip. apply ag_tif, ag_sub, ag_tderef. intros ?. apply ag_payload. Qed.
Lemma ag_rtp sp o r : ag (text_rtp sp o r) (dump_rtp o r).
Proof.
  unfold text_rtp, dump_rtp. cbv zeta. apply ag_struct. askip.
  apply ag_if; [apply ag_call, ag_tderef; intros ?; apply ag_rtp_single|].
  apply ag_if; [apply ag_call, ag_tderef; intros ?; apply ag_rtp_ap|].
  apply ag_if; [apply ag_call, ag_tderef; intros ?; apply ag_rtp_fu|]. reflexivity.
Qed.
Lemma ag_box sp o v : ag (text_box sp o v) (dump_box o v).
Proof.
  unfold text_box, dump_box. cbv zeta. apply ag_struct. askip. apply ag_tupto. intros j. apply ag_telem. intros a. rewrite each_upto. askip.
  apply ag_tupto. intros i. apply ag_telem. intros e. askip. apply ag_sub, ag_tderef. intros ?. apply ag_nal.
Qed.
