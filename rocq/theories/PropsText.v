(** Properties of the printed text *)
From Coq Require Import ZArith List Bool Lia ZifyBool ZifyNat String Ascii.
From Coq Require Decimal DecimalString DecimalZ.
From Verif Require Import MBase MBitBuffer Spec Syntax MCommon PropsCommon MFraming MSyntaxA MProfile MSyntaxB MSps MPps MSlice MSei MNal MRtp
  MText SpecText FactsText.
Import ListNotations.
Open Scope string_scope.
Open Scope Z_scope.

(** * Every fdump function prints one struct *)
Ltac okc_tac := rewrite ?sall_app, ?pr_i_okc, ?pr_u_okc, ?dec_okc, ?pr_x_okc, ?pr_f_okc; reflexivity.
Ltac gstep :=
  lazymatch goal with
  | |- gi (fi _ _) => apply gi_fi; reflexivity
  | |- gi (fu _ _) => apply gi_fu; reflexivity
  | |- gi (vec _ _) => apply gi_vec; reflexivity
  | |- gi (vecs _ _) => apply gi_vecs; reflexivity
  | |- gi (vecu _ _) => apply gi_vecu; reflexivity
  | |- gi (vecc _ _) => apply gi_vecc; reflexivity
  | |- gi (vecci _ _) => apply gi_vecci; reflexivity
  | |- gi (vec2 _ _) => apply gi_vec2; reflexivity
  | |- gi (vec3 _ _) => apply gi_vec3; reflexivity
  | |- gi (Done [Ind] +> _) => apply gi_ind
  | |- gi (_ +> _) => apply gi_seq
  | |- gi (tif _ _) => apply gi_tif; intros ?
  | |- gi (if _ then _ else _) => apply gi_if; intros ?
  | |- gi (tchecked _ _) => apply gi_tchecked; intros ?
  | |- gi (teach _ _) => apply gi_teach; intros ?
  | |- gi (tupto _ _) => apply gi_tupto; intros ?
  | |- gi (block _ _) => apply gi_block; [reflexivity|]
  | |- gi (call _) => apply gi_call
  | |- gi (sub _) => apply gi_sub
  | |- gi (tderef _ _) => apply gi_tderef; intros ?
  | |- gi (telem _ _ _) => apply gi_telem; intros ?
  | |- gs (struct _ _) => apply gs_struct; [reflexivity|]
  | |- gs (tderef _ _) => apply gs_tderef; intros ?
  | |- gs (telem _ _ _) => apply gs_telem; intros ?
  | |- gc (tchecked _ _) => apply gc_tchecked; intros ?
  | |- gc (if _ then _ else _) => apply gc_if
  | |- gc tnop => apply gc_nop
  | |- gc (call _) => apply gc_call
  end.
Ltac gauto := repeat gstep.

Create HintDb gdb discriminated.
#[export] Hint Constants Opaque : gdb.
Ltac gleaf := try solve [auto 1 with gdb nocore].

Lemma index_name n c : name n = true -> name (index n c) = true.
Proof.
  unfold name, index. rewrite !andb_true_iff. intros [Hp Hs]. split; [|now apply starts_app].
  rewrite !plain_app, Hp, (okc_plain _ (dec_okc _)). reflexivity.
Qed.
Lemma index2_name n j i : name n = true -> name (index2 n j i) = true.
Proof.
  intros H. apply (index_name _ j) in H. revert H. unfold index2, name. rewrite !andb_true_iff. intros [Hp Hs]. split; [|now apply starts_app].
  rewrite !plain_app, Hp, (okc_plain _ (dec_okc _)). reflexivity.
Qed.
Lemma leaf_okc s : starts s = true -> sall okc s = true -> leaf s = true.
Proof. intros Hs H. unfold leaf. now rewrite (okc_plain _ H), Hs, (okc_ends _ H). Qed.

Lemma profile_okc p : sall okc (profileTypeToString p) = true.
Proof. unfold profileTypeToString. repeat match goal with |- context [if ?b then _ else _] => destruct b; [reflexivity|] end. reflexivity. Qed.
Lemma gi_profile_info s : gi (text_profile_info s).
Proof. unfold text_profile_info. gauto. apply gi_line, leaf_okc; [reflexivity|]. rewrite sall_app, profile_okc. reflexivity. Qed.
#[export] Hint Resolve gi_profile_info : gdb.
Lemma gs_ptl a b s : gs (text_ptl a b s).
Proof. unfold text_ptl. gauto; apply gi_profile_info. Qed.
#[export] Hint Resolve gs_ptl : gdb.
Lemma gs_sub_layer_hrd s : gs (text_sub_layer_hrd s).
Proof. unfold text_sub_layer_hrd. gauto. Qed.
#[export] Hint Resolve gs_sub_layer_hrd : gdb.
Lemma gs_hrd a s : gs (text_hrd a s).
Proof. unfold text_hrd, text_sub_layer_hrds. gauto; apply gs_sub_layer_hrd. Qed.
#[export] Hint Resolve gs_hrd : gdb.
Lemma gs_vui s : gs (text_vui s).
Proof. unfold text_vui. gauto; gleaf. Qed.
#[export] Hint Resolve gs_vui : gdb.
Lemma gs_vps s f : gs (text_vps s f).
Proof.
  unfold text_vps. gauto; gleaf.
  apply gi_line, leaf_okc; [reflexivity|]. rewrite sall_app, pr_x_okc. reflexivity.
Qed.
#[export] Hint Resolve gs_vps : gdb.
Lemma gs_scaling s : gs (text_scaling_list_data s).
Proof. unfold text_scaling_list_data. gauto. Qed.
#[export] Hint Resolve gs_scaling : gdb.
Lemma gs_rps a b s : gs (text_rps a b s).
Proof. unfold text_rps. gauto. Qed.
#[export] Hint Resolve gs_rps : gdb.
Lemma gs_sps_range s : gs (text_sps_range s).
Proof. unfold text_sps_range. gauto. Qed.
#[export] Hint Resolve gs_sps_range : gdb.
Lemma gs_sps_multilayer s : gs (text_sps_multilayer s).
Proof. unfold text_sps_multilayer. gauto. Qed.
#[export] Hint Resolve gs_sps_multilayer : gdb.
Lemma gs_sps_3d s : gs (text_sps_3d s).
Proof. unfold text_sps_3d. gauto. Qed.
#[export] Hint Resolve gs_sps_3d : gdb.
Lemma gs_sps_scc s : gs (text_sps_scc s).
Proof. unfold text_sps_scc. gauto. Qed.
#[export] Hint Resolve gs_sps_scc : gdb.
Lemma gi_resolution s : gi (text_resolution s).
Proof. unfold text_resolution. destruct (getResolution s (mk_bb [])) as [[w h] b|b|e]; [gauto | gauto | discriminate]. Qed.
#[export] Hint Resolve gi_resolution : gdb.
Lemma gs_sps a s : gs (text_sps a s).
Proof.
  unfold text_sps. gauto; gleaf.
Qed.
#[export] Hint Resolve gs_sps : gdb.
Lemma gs_pps_multilayer s : gs (text_pps_multilayer s).
Proof. unfold text_pps_multilayer. gauto. Qed.
#[export] Hint Resolve gs_pps_multilayer : gdb.
Lemma gs_pps_scc s : gs (text_pps_scc s).
Proof. unfold text_pps_scc. gauto. Qed.
#[export] Hint Resolve gs_pps_scc : gdb.
Lemma gs_pps s : gs (text_pps s).
Proof. unfold text_pps. gauto; gleaf. Qed.
#[export] Hint Resolve gs_pps : gdb.
Lemma gs_pwt c s : gs (text_pwt c s).
Proof. unfold text_pwt. gauto. Qed.
#[export] Hint Resolve gs_pwt : gdb.
Lemma gs_slice_header s p nut h : gs (text_slice_header s p nut h).
Proof. unfold text_slice_header, text_lt. gauto; gleaf. Qed.
#[export] Hint Resolve gs_slice_header : gdb.
Lemma gs_slice s p nut h : gs (text_slice s p nut h).
Proof. unfold text_slice. gauto. apply gs_slice_header. Qed.
#[export] Hint Resolve gs_slice : gdb.
Lemma gs_sei_payload p : gs (text_sei_payload p).
Proof.
  destruct p; unfold text_sei_payload, text_t35, text_unregistered, text_alpha, text_mastering, text_light, text_knee, text_remap, text_lut, text_ccv, text_alt,
    text_ambient, text_unknown; gauto; try (apply gi_line, leaf_okc; [reflexivity | okc_tac]);
    try (simple apply gi_fu || simple apply gi_fi || simple apply gi_vecc || apply gi_vecci); apply index_name; reflexivity.
Qed.
#[export] Hint Resolve gs_sei_payload : gdb.
Lemma gs_sei s : gs (text_sei s).
Proof. unfold text_sei. gauto. apply gs_sei_payload. Qed.
#[export] Hint Resolve gs_sei : gdb.
Lemma gs_aud v : gs (text_aud v).
Proof. unfold text_aud. gauto. Qed.
#[export] Hint Resolve gs_aud : gdb.
Lemma gs_header s : gs (text_header s).
Proof. unfold text_header. gauto. Qed.
#[export] Hint Resolve gs_header : gdb.
Lemma gs_payload sp o ty p : gs (text_payload sp o ty p).
Proof. unfold text_payload. gauto; gleaf. Qed.
#[export] Hint Resolve gs_payload : gdb.

Lemma c_string_nonzero l q : Forall (fun x => x <> 0) l ->
  MText.c_string (l ++ 0 :: q)%list = Done (string_of_list_ascii (map (fun x => ascii_of_nat (Z.to_nat x)) l)).
Proof.
  induction l as [|x l IH]; intros H; [reflexivity|]. inversion H as [|? ? Hx H']; subst. cbn [MText.c_string app].
  destruct (Z.eqb_spec x 0) as [E|_]; [now elim Hx|]. rewrite (IH H'). reflexivity.
Qed.
Lemma hex_char_ok d : 0 <= d < 16 -> hex_char d <> 0.
Proof. unfold hex_char. destruct (Z.ltb_spec d 10); lia. Qed.
Lemma ascii_okc l : Forall (fun x => x <> 0 /\ okc (ascii_of_nat (Z.to_nat x)) = true) l ->
  sall okc (string_of_list_ascii (map (fun x => ascii_of_nat (Z.to_nat x)) l)) = true.
Proof. induction 1 as [|x l [_ Hx] _ IH]; [reflexivity|]. cbn [map string_of_list_ascii sall]. rewrite Hx. exact IH. Qed.
Lemma checksum_string c : exists t, sall okc t = true /\ text_checksum c = line ("checksum: 0x" ++ t).
Proof.
  assert (B : Forall is_byte (checksum_bytes c)) by (unfold checksum_bytes; repeat (apply Forall_cons; [unfold u8, is_byte; apply Z.mod_pos_bound; lia|]); apply Forall_nil).
  destruct (fdump_loop_spec (checksum_bytes c) [] (repeat 0 64) 64 B) as (out & E & _ & Eo); [reflexivity | cbn; lia |].
  destruct Eo as (q & ->); [cbn; lia | discriminate |]. cbn [app] in E.
  unfold text_checksum, checksum_fdump. change (Z.of_nat (List.length (@nil Z))) with 0 in E. rewrite E.
  assert (H : forall l, Forall is_byte l -> Forall (fun x => x <> 0 /\ okc (ascii_of_nat (Z.to_nat x)) = true) (flat_map hex2 l)).
  { intros l. induction 1 as [|x l Hx _ IH]; [constructor|]. cbn [flat_map hex2 app].
    assert (Hs : 0 <= Z.shiftr x 4 < 16) by (rewrite Z.shiftr_div_pow2 by lia; unfold is_byte in Hx; change (2 ^ 4) with 16; lia).
    repeat constructor; try exact IH; try (apply hex_char_ok; first [assumption | apply land15]); apply hex_okc; first [assumption | apply land15]. }
  specialize (H _ B). rewrite c_string_nonzero by (eapply Forall_impl; [|exact H]; intros ? []; assumption).
  eexists. split; [|reflexivity]. apply ascii_okc, H.
Qed.
Lemma gi_checksum c : gi (text_checksum c).
Proof. destruct (checksum_string c) as (t & Ht & ->). apply gi_line, leaf_okc; [reflexivity|]. rewrite sall_app, Ht. reflexivity. Qed.
#[export] Hint Resolve gi_checksum : gdb.
Lemma gs_nal sp o u : gs (text_nal sp o u).
Proof.
  unfold text_nal. gauto; gleaf.
  apply gi_line, leaf_okc; [reflexivity|]. rewrite sall_app, pr_x_okc. reflexivity.
Qed.
#[export] Hint Resolve gs_nal : gdb.
Lemma gs_rtp_single sp o r : gs (text_rtp_single sp o r).
Proof. unfold text_rtp_single. gauto; gleaf. Qed.
#[export] Hint Resolve gs_rtp_single : gdb.
Lemma gs_rtp_ap sp o r : gs (text_rtp_ap sp o r).
Proof. unfold text_rtp_ap. gauto; gleaf. Qed.
#[export] Hint Resolve gs_rtp_ap : gdb.
Lemma gs_rtp_fu sp o r : gs (text_rtp_fu sp o r).
Proof. unfold text_rtp_fu. gauto; gleaf. Qed.
#[export] Hint Resolve gs_rtp_fu : gdb.
Lemma gs_box sp o v : gs (text_box sp o v).
Proof. unfold text_box. gauto; try (apply gi_fi; first [apply index2_name | apply index_name]; reflexivity). apply gs_nal. Qed.
#[export] Hint Resolve gs_box : gdb.

(** * C68: the layout of the printed text *)
(** Calling fdump(outfp, level): the text, or undefined behaviour *)
Definition fdump (d : txt) (level : Z) : outcome string := match d with Done c => Done (text_of level c) | Bad e => Bad e end.

(** The states that have an fdump function which prints one block (all but ProfileInfoState, RtpState and BitstreamState, below), with the
    context they keep from the time they were parsed *)
Inductive printable : Type :=
| T_header (s : nal_header) | T_aud (v : Z)
| T_ptl (present : bool) (max_sub : Z) (s : ptl) | T_sub_layer_hrd (s : list cpb_entry) | T_hrd (common : bool) (s : hrd) | T_vui (s : vui)
| T_vps (s : vps_body) (data_flag : Z) | T_scaling (s : list (list scaling_list)) | T_rps (idx num : Z) (s : rps)
| T_sps_range (s : sps_range_ext) | T_sps_multilayer (v : Z) | T_sps_3d (s : sps_3d_ext) | T_sps_scc (s : sps_scc_ext) | T_sps (o : options) (s : sps)
| T_pps_multilayer (s : pps_ml_ext) | T_pps_scc (s : pps_scc_ext) | T_pps (s : pps)
| T_pwt (ChromaArrayType : Z) (s : pwt) | T_slice_header (s : sps) (p : pps) (nut : Z) (h : slice_header) | T_slice (s : sps) (p : pps) (nut : Z) (h : slice_header)
| T_sei_payload (p : sei_payload) | T_sei (s : sei_message)
| T_payload (sp : sps * pps) (o : options) (ty : Z) (p : nal_payload) | T_nal (sp : sps * pps) (o : options) (u : nal_unit)
| T_rtp_single (sp : sps * pps) (o : options) (r : rtp_single) | T_rtp_ap (sp : nat -> sps * pps) (o : options) (r : rtp_ap) | T_rtp_fu (sp : sps * pps) (o : options) (r : rtp_fu)
| T_box (sp : nat -> nat -> sps * pps) (o : options) (v : hvcc).
Definition text (x : printable) : txt :=
  match x with
  | T_header s => text_header s | T_aud v => text_aud v
  | T_ptl p m s => text_ptl p m s | T_sub_layer_hrd s => text_sub_layer_hrd s | T_hrd c s => text_hrd c s | T_vui s => text_vui s
  | T_vps s f => text_vps s f | T_scaling s => text_scaling_list_data s | T_rps i n s => text_rps i n s
  | T_sps_range s => text_sps_range s | T_sps_multilayer v => text_sps_multilayer v | T_sps_3d s => text_sps_3d s | T_sps_scc s => text_sps_scc s
  | T_sps o s => text_sps (add_resolution o) s
  | T_pps_multilayer s => text_pps_multilayer s | T_pps_scc s => text_pps_scc s | T_pps s => text_pps s
  | T_pwt c s => text_pwt c s | T_slice_header s p n h => text_slice_header s p n h | T_slice s p n h => text_slice s p n h
  | T_sei_payload p => text_sei_payload p | T_sei s => text_sei s
  | T_payload sp o ty p => text_payload sp o ty p | T_nal sp o u => text_nal sp o u
  | T_rtp_single sp o r => text_rtp_single sp o r | T_rtp_ap sp o r => text_rtp_ap sp o r | T_rtp_fu sp o r => text_rtp_fu sp o r
  | T_box sp o v => text_box sp o v
  end.
Lemma gs_text x : gs (text x).
Proof. destruct x; unfold text; gleaf. Qed.

(** At level -1 everything is on one line.  At any level the words are the same, and from level 0 on the text is properly indented. *)
Theorem C68_layout : forall x level t t1, -1 <= level -> fdump (text x) level = Done t -> fdump (text x) (-1) = Done t1 ->
  one_line t1 /\ words t = words t1 /\ (0 <= level -> well_indented (Z.to_nat level) t).
Proof.
  intros x l t t1 Hl Ht Ht1. pose proof (gs_text x) as G. unfold fdump in *. destruct (text x) as [c|e]; [|discriminate].
  injection Ht as <-. injection Ht1 as <-. specialize (G c eq_refl).
  destruct (struct_text c G l Hl) as (W & _ & I). destruct (struct_text c G (-1)) as (W1 & O1 & _); [lia|].
  split; [apply O1; reflexivity|]. split; [congruence | exact I].
Qed.
(** Whether fdump has undefined behaviour does not depend on the level. *)
Theorem C68_same_outcome : forall x level e, fdump (text x) level = Bad e -> forall level', fdump (text x) level' = Bad e.
Proof. intros x l e H l'. unfold fdump in *. destruct (text x); [discriminate | exact H]. Qed.

(** ProfileInfoState prints the lines of a block: each after a line break (a blank at level -1). *)
Theorem C68_profile_info : forall s level t t1, -1 <= level -> fdump (text_profile_info s) level = Done t -> fdump (text_profile_info s) (-1) = Done t1 ->
  one_line t1 /\ words t = words t1 /\ (0 <= level -> exists r, t = String newline_char (blanks (2 * Z.to_nat level) ++ r) /\ well_indented (Z.to_nat level) r).
Proof.
  intros s l t t1 Hl Ht Ht1. pose proof (gi_profile_info s) as G. unfold fdump in *. destruct (text_profile_info s) as [c|e] eqn:Ec; [|discriminate].
  injection Ht as <-. injection Ht1 as <-. specialize (G c eq_refl).
  assert (X : forall l, -1 <= l -> exists t, text_of l c = t /\ seg l t /\ words t = toks c).
  { intros l' Hl'. destruct (proj1 items_run c G l' Hl') as (t & Ht & Hs & Hw). exists t. split; [|auto].
    unfold text_of. rewrite <- (app_nil_r c), Ht. cbn [run]. apply sapp_nil. }
  destruct (X l Hl) as (t & Et & (_ & _ & S) & W), (X (-1) ltac:(lia)) as (t1 & Et1 & (_ & P & _) & W1).
  split; [rewrite Et1; apply lines_plain, P; reflexivity|]. split; [congruence|]. intros H0.
  assert (Q : exists r, t = String newline_char (blanks (2 * Z.to_nat l) ++ r)).
  { unfold text_profile_info in Ec. unfold fi at 1, line at 1 in Ec. destruct (tseq_done _ _ _ Ec) as (ca & cb & Ea & _ & ->). injection Ea as <-.
    rewrite <- Et. unfold text_of. cbn [app run]. rewrite indent_many by assumption. eexists. cbn [append]. reflexivity. }
  destruct Q as (r & ->). exists r. split; [exact Et|].
  destruct (S H0) as (ls & E & Pl & L). unfold well_indented. destruct ls as [|a ls]; [discriminate E|].
  cbn [joined fold_right] in E. fold (joined ls) in E.
  assert (E' : blanks (2 * Z.to_nat l) ++ r = a ++ joined ls) by (cbn [append] in E; injection E; auto). clear E. rename E' into E. cbn [forallb] in Pl. rewrite andb_true_iff in Pl. destruct Pl as [Pa Pl].
  unfold lvl in L. rewrite E, lines_joined by assumption. exact L.
Qed.

(** ** The whole stream: every NAL unit, followed by a newline *)
Lemma run_call_done d : forall c, call d = Done c -> exists b, d = Done b /\ c = ([Save] ++ b ++ [Restore])%list.
Proof.
  intros c E. destruct (tseq_done _ _ _ E) as (c1 & c2 & E1 & E2 & ->). injection E1 as <-.
  destruct (tseq_done _ _ _ E2) as (c3 & c4 & E3 & E4 & ->). injection E4 as <-. eauto.
Qed.
Lemma newline_eq : newline = newline_char.
Proof. reflexivity. Qed.
Definition newline_string : string := String newline_char "".
Theorem C68_bitstream : forall o us level t, -1 <= level -> fdump (text_bitstream o us) level = Done t ->
  exists ts, List.length ts = List.length us /\
    (forall i sp u, nth_error us i = Some (sp, u) -> exists ti, nth_error ts i = Some ti /\ fdump (text_nal sp o u) level = Done ti) /\
    t = String.concat "" (map (fun x => x ++ newline_string) ts).
Proof.
  intros o us l t Hl. unfold fdump, text_bitstream. revert t.
  induction us as [|[sp u] us IH]; intros t.
  - intros H. injection H as <-. exists []. split; [reflexivity|]. split; [|reflexivity]. intros [|i] ? ?; discriminate.
  - cbn [teach fst snd]. destruct ((call _ +> _) +> _) as [c|e] eqn:E; [|discriminate]. intros H. injection H as <-.
    destruct (tseq_done _ _ _ E) as (c1 & c2 & E1 & E2 & ->). destruct (tseq_done _ _ _ E1) as (c3 & c4 & E3 & E4 & ->). injection E4 as <-.
    destruct (run_call_done _ _ E3) as (b & Eb & ->). rewrite E2 in IH. destruct (IH _ eq_refl) as (ts & L & N & T).
    pose proof (gs_nal sp o u b Eb) as S. destruct (proj2 items_run b S l Hl) as (tu & P & _).
    assert (Eu : text_of l b = tu). { unfold text_of. rewrite <- (app_nil_r b), P. cbn [run]. apply sapp_nil. }
    exists (tu :: ts). split; [cbn; congruence|]. split.
    + intros [|i] sp' u' Hi; cbn [nth_error] in Hi; [injection Hi as <- <-; exists tu; rewrite Eb, Eu; auto | apply N, Hi].
    + unfold text_of in *. rewrite <- !app_assoc. cbn [app run]. rewrite P. cbn [app run append]. rewrite T, newline_eq.
      cbn [map]. destruct ts as [|t2 ts]; [cbn; reflexivity|]. cbn [map]. cbn [String.concat append]. rewrite !sapp_assoc. reflexivity.
Qed.
(** At level -1 there is exactly one line for each NAL unit. *)
Lemma lines_concat ts : Forall one_line ts -> lines (String.concat "" (map (fun x => x ++ newline_string) ts)) = (ts ++ [""])%list.
Proof.
  assert (P : forall s, one_line s -> plain s = true).
  { unfold one_line, plain. induction s as [|c s IH]; [reflexivity|]. cbn [lines sall]. destruct (is_newline c); [discriminate|].
    destruct (lines s) as [|x xs] eqn:E; [discriminate|]. intros H. injection H as -> ->. cbn [negb andb]. apply IH, eq_refl. }
  assert (J : forall s t, one_line s -> lines ((s ++ newline_string) ++ t) = s :: lines t).
  { intros s t H. rewrite sapp_assoc. apply (lines_cut s t), P, H. }
  induction ts as [|s ts IH]; intros H; [reflexivity|]. inversion H as [|? ? Hs Hts]; subst. specialize (IH Hts).
  cbn [map app]. destruct ts as [|s2 ts]; [cbn [map String.concat]; rewrite <- (sapp_nil (s ++ newline_string)), J by assumption; reflexivity|].
  cbn [map] in *. match goal with |- lines (String.concat "" (?a :: ?b :: ?r)) = _ => change (lines (a ++ String.concat "" (b :: r)) = s :: s2 :: ts ++ [""])%list end.
  rewrite J by assumption. cbn [app] in *. now rewrite IH.
Qed.
Theorem C68_one_line_per_unit : forall o us t, fdump (text_bitstream o us) (-1) = Done t ->
  exists ts, List.length ts = List.length us /\ lines t = (ts ++ [""])%list /\
    forall i sp u, nth_error us i = Some (sp, u) -> exists ti, nth_error ts i = Some ti /\ fdump (text_nal sp o u) (-1) = Done ti.
Proof.
  intros o us t H. destruct (C68_bitstream o us (-1) t ltac:(lia) H) as (ts & L & N & ->). exists ts. split; [exact L|]. split; [|exact N].
  apply lines_concat. apply Forall_forall. intros x Hx. destruct (In_nth_error _ _ Hx) as (i & Hi).
  destruct (nth_error us i) as [[sp u]|] eqn:E.
  - destruct (N _ _ _ E) as (ti & Hti & F). rewrite Hi in Hti. injection Hti as ->.
    apply (C68_layout (T_nal sp o u) (-1) ti ti ltac:(lia) F F).
  - exfalso. apply nth_error_None in E. assert (nth_error ts i <> None) by congruence. apply nth_error_Some in H0. lia.
Qed.

(** RtpState does not break the line before the packet. *)
Definition aud_header : nal_header := mkNH 0 35 0 1.
Definition aud_payload : nal_payload := mkNP None None None (Some 2) None None.
Definition rtp_case : rtp := mkRtp aud_header (Some (mkRS aud_header aud_payload)) None None.
Theorem C68_rtp_refuted : exists r, forall sp o, exists t, fdump (text_rtp sp o r) 0 = Done t /\ ~ well_indented 0 t.
Proof.
  exists rtp_case. intros sp o.
  assert (E : fdump (text_rtp sp o rtp_case) 0 = fdump (text_rtp (fun _ => sp 0%nat) o rtp_case) 0) by reflexivity. rewrite E. clear E.
  destruct (sp 0%nat) as [s p]. clear sp. eexists. split; [cbv -[words]; reflexivity|].
  unfold well_indented. vm_compute. discriminate.
Qed.

(** An access unit delimiter, on one line and at level 0 *)
Definition break (l : list string) : string := String.concat newline_string l.
Example C68_case : forall sp,
  let o := mkOpts true true true false false in
  let u := mkNU 4 3 3 None aud_header aud_payload in
  fdump (text_nal sp o u) (-1) = Done ("nal_unit { offset: 0x00000004 length: 3 parsed_length: 3 nal_unit_header { forbidden_zero_bit: 0 nal_unit_type: 35"
    ++ " nuh_layer_id: 0 nuh_temporal_id_plus1: 1 } nal_unit_payload { aud { pic_type: 2 } } }") /\
  fdump (text_nal sp o u) 0 = Done (break [
    "nal_unit {";
    "  offset: 0x00000004";
    "  length: 3";
    "  parsed_length: 3";
    "  nal_unit_header {";
    "    forbidden_zero_bit: 0";
    "    nal_unit_type: 35";
    "    nuh_layer_id: 0";
    "    nuh_temporal_id_plus1: 1";
    "  }";
    "  nal_unit_payload {";
    "    aud {";
    "      pic_type: 2";
    "    }";
    "  }";
    "}"]).
Proof. intros sp o u. split; vm_compute; reflexivity. Qed.
