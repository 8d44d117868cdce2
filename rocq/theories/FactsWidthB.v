(** Bounds on the length of the text of each structure, in terms of its size (SpecSize.v). *)
From Coq Require Import ZArith List Bool Lia ZifyBool ZifyNat String Ascii.
From Verif Require Import MBase MBitBuffer Spec Rules ReaderFacts Syntax SyntaxSe MCommon PropsCommon MSyntaxA SpecA MProfile MSyntaxB SpecB MSps SpecSps FactsSps MPps SpecPps FactsPps
  MSlice SpecSlice MSei SpecSei MNal MRtp MText SpecSize FactsWidth.
Import ListNotations.
Open Scope string_scope.
Open Scope Z_scope.

(** * Ranges *)
Lemma s64_u n x : u_ok n x -> n <= 64 -> small64 x.
Proof. intros [H1 H2] N. split; [exact H1|]. destruct (Z.le_gt_cases 0 n) as [P|P]; [pose proof (Z.pow_le_mono_r 2 n 64 ltac:(lia) ltac:(lia)); lia|]. rewrite Z.pow_neg_r in H2 by lia. lia. Qed.
Lemma s64_0 : small64 0.
Proof. unfold small64. lia. Qed.
Lemma s64_ou c n x : optf c (u_ok n) 0 x -> n <= 64 -> small64 x.
Proof. intros H N. destruct c; unfold optf in H; [exact (s64_u _ _ H N) | subst x; exact s64_0]. Qed.
Lemma s64_ue x : ue_ok x -> small64 x.
Proof. unfold ue_ok, small64. lia. Qed.
Lemma s64_oue c x : optf c ue_ok 0 x -> small64 x.
Proof. intros H. destruct c; unfold optf in H; [exact (s64_ue _ H) | subst x; exact s64_0]. Qed.
Lemma s64_nat {A} (l : list A) : len l < 2 ^ 64 -> small64 (Z.of_nat (List.length l)).
Proof. unfold len, small64. lia. Qed.
Lemma s64_us l : Forall (u_ok 8) l -> Forall small64 l.
Proof. apply Forall_impl. intros x H. apply (s64_u 8); [exact H | lia]. Qed.
Lemma s64_fs l : Forall (u_ok 1) l -> Forall small64 l.
Proof. apply Forall_impl. intros x H. apply (s64_u 1); [exact H | lia]. Qed.
Ltac rng := first [ assumption | exact s64_0 | eapply s64_u; [eassumption | lia] | eapply s64_ou; [eassumption | lia] | eapply s64_ue; eassumption | eapply s64_oue; eassumption ].
Ltac splitc := repeat match goal with H : _ /\ _ |- _ => destruct H end.

(** * Rules with rounded constants *)
Lemma z_struct d k n t : 0 <= d <= 15 -> slen n <= 70 -> tsz (d + 1) k t -> tsz d (100 + k) (struct n t).
Proof. intros D N H. eapply tsz_mono; [apply tsz_struct; [lia | exact H]|]. lia. Qed.
Lemma z_block d k n t : 0 <= d <= 15 -> slen n <= 60 -> tsz (d + 1) k t -> tsz d (100 + k) (block n t).
Proof. intros D N H. eapply tsz_mono; [apply tsz_block; [lia | exact H]|]. lia. Qed.
Lemma z_sub d k t : 0 <= d <= 16 -> tsz d k t -> tsz d (20 + k) (sub t).
Proof. intros D H. eapply tsz_mono; [apply tsz_sub; [lia | exact H]|]. lia. Qed.
Lemma z_ind d : 0 <= d <= 16 -> tsz d 20 (Done [Ind]).
Proof. intros D. eapply tsz_mono; [apply tsz_ind; lia|]. lia. Qed.
Lemma z_line d s : 0 <= d <= 16 -> slen s <= 80 -> tsz d 100 (line s).
Proof. intros D H. eapply tsz_mono; [apply tsz_line; lia|]. lia. Qed.
Lemma z_if d k c t : tsz d k t -> tsz d k (tif c t).
Proof. intros H. apply tsz_if; [intros _; exact H | exact (proj1 H)]. Qed.
(** An optional part: [c] and [m] per element of its size [g] *)
Lemma z_checked {A} d c m (g : A -> Z) (p : option A) (f : A -> txt) : 0 <= c -> (forall a, p = Some a -> tsz d (c + m * g a) (f a)) -> tsz d (c + m * osize g p) (tchecked p f).
Proof. intros C H. destruct p as [a|]; cbn [tchecked osize]; [apply H; reflexivity|]. eapply tsz_mono; [apply tsz_nop | lia]. Qed.
Lemma z_deref {A} d c m (g : A -> Z) (p : option A) (f : A -> txt) : 0 <= c -> (forall a, p = Some a -> tsz d (c + m * g a) (f a)) -> tsz d (c + m * osize g p) (tderef p f).
Proof. intros C H. destruct p as [a|]; cbn [tderef osize]; [apply H; reflexivity|]. eapply tsz_mono; [apply tsz_bad | lia]. Qed.
Lemma z_deref0 {A} d k (p : option A) (f : A -> txt) : 0 <= k -> (forall a, p = Some a -> tsz d k (f a)) -> tsz d k (tderef p f).
Proof. apply tsz_deref. Qed.

Ltac nm := vm_compute; discriminate.
Ltac tz1 :=
  lazymatch goal with
  | |- tsz _ _ (struct _ _) => apply z_struct; [lia | nm |]
  | |- tsz _ _ (block _ _) => apply z_block; [lia | nm |]
  | |- tsz _ _ (_ +> _) => eapply tsz_seq
  | |- tsz _ _ (tif _ _) => apply z_if
  | |- tsz _ _ (sub _) => apply z_sub; [lia|]
  | |- tsz _ _ (call _) => apply tsz_call
  | |- tsz _ _ (fi _ _) => apply tsz_fi; [lia | nm]
  | |- tsz _ _ (fu _ _) => apply tsz_fu; [lia | nm | try rng]
  | |- tsz _ _ (vec _ _) => apply tsz_vec; [lia | nm]
  | |- tsz _ _ (vecs _ _) => apply tsz_vecs; [lia | nm]
  | |- tsz _ _ (vecu _ _) => apply tsz_vecu; [lia | nm |]
  | |- tsz _ _ (vecc _ _) => apply tsz_vecc; [lia | nm |]
  | |- tsz _ _ (vecci _ _) => apply tsz_vecci; [lia | nm]
  | |- tsz _ _ (vec2 _ _) => apply tsz_vec2; [lia | nm]
  | |- tsz _ _ (vec3 _ _) => apply tsz_vec3; [lia | nm]
  | |- tsz _ _ (Done [Ind]) => apply z_ind; lia
  | |- tsz _ _ tnop => apply tsz_nop
  | |- tsz _ _ (if _ then _ else _) => eapply tsz_ite
  end.
Ltac tz := repeat tz1.
(** Adds that the lengths in the goal are not negative *)
Ltac nn_len := repeat match goal with |- context [len ?l] => lazymatch goal with H : 0 <= len l |- _ => fail | _ => pose proof (len_nn l) end end.
Lemma vsize_nn {A} (g : A -> Z) l : (forall x, 0 <= g x) -> 0 <= vsize g l.
Proof. intros H. apply total_nonneg. intros x. specialize (H x). lia. Qed.
Lemma vsize_len {A} (g : A -> Z) l : (forall x, 0 <= g x) -> len l <= vsize g l.
Proof. intros H. unfold vsize, total, len. induction l as [|x l IH]; cbn [fold_right List.length]; [lia|]. specialize (H x). lia. Qed.
Lemma vsize_ext {A} (g g' : A -> Z) l : (forall x, g x = g' x) -> vsize g l = vsize g' l.
Proof. intros H. unfold vsize, total. induction l as [|x l IH]; cbn [fold_right]; [reflexivity|]. rewrite H, IH. reflexivity. Qed.
Lemma vsize_le {A} (g g' : A -> Z) l : (forall x, In x l -> g x <= g' x) -> vsize g l <= vsize g' l.
Proof. intros H. unfold vsize, total. induction l as [|x l IH]; cbn [fold_right]; [lia|]. pose proof (H x (or_introl eq_refl)). specialize (IH (fun y Hy => H y (or_intror Hy))). lia. Qed.
Lemma osize_nn {A} (g : A -> Z) o : (forall x, 0 <= g x) -> 0 <= osize g o.
Proof. intros H. destruct o; cbn [osize]; [apply H | lia]. Qed.
Lemma len_flat {A B} (f : A -> list B) l : (forall x, len (f x) <= 1) -> len (flat_map f l) <= len l.
Proof. intros H. unfold len in *. induction l as [|x l IH]; [vm_compute; discriminate|]. change (flat_map f (x :: l)) with (f x ++ flat_map f l)%list. rewrite app_length. change (List.length (x :: l)) with (S (List.length l)). specialize (H x). lia. Qed.

(** * Profile, tier and level *)
Lemma w_profile p : slen (profileTypeToString p) <= 45.
Proof.
  unfold profileTypeToString. repeat match goal with |- context [if ?c then _ else _] => destruct c; [vm_compute; discriminate|] end. vm_compute; discriminate.
Qed.
Lemma tsz_profile_info d s : 0 <= d <= 12 -> profile_info_ok s -> tsz d 3000 (text_profile_info s).
Proof.
  intros D H. unfold profile_info_ok in H. cbv zeta in H. unfold text_profile_info. splitc. eapply tsz_mono; [tz|].
  - apply z_line; [lia|]. rewrite slen_app. pose proof (w_profile (GetProfileType s)). change (slen "profile: ") with 9. lia.
  - match goal with X : Syntax.vec 32 _ _ |- _ => destruct X as [X _] end. unfold len. lia.
Qed.
Lemma profile_info_size_nn p : 0 <= profile_info_size p.
Proof. apply len_nn. Qed.
Lemma profile_info_size_32 p : profile_info_ok p -> profile_info_size p = 32.
Proof. intros H. unfold profile_info_ok in H. cbv zeta in H. splitc. match goal with X : Syntax.vec 32 _ _ |- _ => destruct X as [X _] end. unfold profile_info_size, len. lia. Qed.
Lemma ptl_size_nn p : 0 <= ptl_size p.
Proof.
  unfold ptl_size. pose proof (osize_nn profile_info_size (ptl_general p) profile_info_size_nn). pose proof (len_nn (ptl_sub_layer_flags p)). pose proof (len_nn (ptl_reserved_zero_2bits p)).
  pose proof (vsize_nn (fun x : option profile_info * Z => osize profile_info_size (fst x)) (ptl_sub_layers p) (fun x => osize_nn _ _ profile_info_size_nn)). lia.
Qed.
(** Each sub-layer that is printed has a profile_info that was read. *)
Lemma sub_layers_ok std flags l : forall i, all_from i (sub_layer_ok std flags) l -> forall e, In e l -> forall p, fst e = Some p -> profile_info_ok p.
Proof.
  induction l as [|x l IH]; intros i H e He p E; [destruct He|]. cbn [all_from] in H. destruct H as [H1 H2]. destruct He as [->|He]; [|exact (IH _ H2 _ He _ E)].
  destruct H1 as [H1 _]. rewrite E in H1. destruct (nz _); unfold optf, is_some in H1; [exact H1 | discriminate H1].
Qed.
Lemma tsz_ptl d std present n s : 0 <= d <= 9 -> ptl_ok std present n s -> tsz d (3800 + 120 * ptl_size s) (text_ptl present n s).
Proof.
  intros D (H1 & _ & H3 & _ & [_ H5]). unfold text_ptl.
  eapply tsz_mono; [tz|].
  - apply (z_deref0 _ 3000); [lia | intros a Ea; apply tsz_profile_info; [lia|]].
    rewrite Ea in H1. destruct present; unfold optf, is_some in H1; [exact H1 | discriminate H1].
  - apply (tsz_each _ 100 (fun x => osize profile_info_size (fst x))). intros [o v] He. destruct o as [p|]; cbn [fst tchecked osize].
    + assert (P : profile_info_ok p) by (eapply sub_layers_ok; [exact H5 | exact He | reflexivity]). rewrite (profile_info_size_32 p P).
      eapply tsz_mono; [tz; apply tsz_profile_info; [lia | exact P]|]. lia.
    + eapply tsz_mono; [apply tsz_nop|]. lia.
  - fold (present_levels (ptl_sub_layers s)).
    assert (L : len (present_levels (ptl_sub_layers s)) <= len (ptl_sub_layers s)) by (apply len_flat; intros [[q|] v]; vm_compute; discriminate).
    pose proof (vsize_len (fun x : option profile_info * Z => osize profile_info_size (fst x)) (ptl_sub_layers s) (fun x => osize_nn _ _ profile_info_size_nn)).
    pose proof (osize_nn profile_info_size (ptl_general s) profile_info_size_nn). rewrite !len_map. unfold ptl_size. nn_len. lia.
Qed.

(** * HRD and VUI *)
Lemma hrd_sub_size_nn h : 0 <= hrd_sub_size h.
Proof. unfold hrd_sub_size. pose proof (osize_nn len (sub_layer_nal_hrd h) len_nn). pose proof (osize_nn len (sub_layer_vcl_hrd h) len_nn). lia. Qed.
Lemma hrd_size_nn h : 0 <= hrd_size h.
Proof. apply vsize_nn, hrd_sub_size_nn. Qed.
Lemma tsz_sub_layer_hrd d s : 0 <= d <= 14 -> tsz d (600 + 60 * len s) (text_sub_layer_hrd s).
Proof. intros D. unfold text_sub_layer_hrd. eapply tsz_mono; [tz|]. rewrite !len_map. lia. Qed.
Lemma tsz_sub_layer_hrds d s : 0 <= d <= 10 -> tsz d (100 + 1240 * hrd_size s) (text_sub_layer_hrds s).
Proof.
  intros D. unfold text_sub_layer_hrds. apply z_block; [lia | nm|]. unfold hrd_size. apply tsz_each. intros e _.
  eapply tsz_mono; [apply tsz_seq; (apply (z_checked _ 620 60 len); [lia | intros a _; eapply tsz_mono; [tz; apply tsz_sub_layer_hrd; lia | lia]])|].
  unfold hrd_sub_size. pose proof (osize_nn len (sub_layer_nal_hrd e) len_nn). pose proof (osize_nn len (sub_layer_vcl_hrd e) len_nn). lia.
Qed.
Lemma tsz_hrd d common s : 0 <= d <= 9 -> tsz d (2200 + 2540 * hrd_size s) (text_hrd common s).
Proof.
  intros D. unfold text_hrd. eapply tsz_mono; [tz; apply tsz_sub_layer_hrds; lia|]. rewrite !len_map.
  pose proof (vsize_len hrd_sub_size (hrd_sub_layers s) hrd_sub_size_nn). fold (hrd_size s) in *. nn_len. lia.
Qed.
Lemma vui_size_nn v : 0 <= vui_size v.
Proof. apply osize_nn, hrd_size_nn. Qed.
Lemma tsz_vui d s : 0 <= d <= 8 -> tsz d (6300 + 2540 * vui_size s) (text_vui s).
Proof.
  intros D. unfold text_vui. eapply tsz_mono; [tz; apply (z_deref _ 2200 2540 hrd_size); [lia | intros a _; apply tsz_hrd; lia]|]. unfold vui_size. lia.
Qed.
(** * VPS *)
Lemma vps_hrds_last v e : match rev (vps_hrds v) with x :: _ => Some x | [] => None end = Some e ->
  hrd_size (vps_hrd_parameters e) <= vsize (fun e => hrd_size (vps_hrd_parameters e)) (vps_hrds v).
Proof.
  intros H. assert (I : In e (vps_hrds v)) by (apply in_rev; destruct (rev (vps_hrds v)); [discriminate H | injection H as ->; left; reflexivity]). clear H.
  induction (vps_hrds v) as [|x l IH]; [destruct I|]. unfold vsize, total in *. cbn [fold_right]. pose proof (hrd_size_nn (vps_hrd_parameters x)).
  pose proof (vsize_nn (fun e => hrd_size (vps_hrd_parameters e)) l (fun e => hrd_size_nn _)) as V. unfold vsize, total in V.
  destruct I as [->|I]; [lia|]. specialize (IH I). lia.
Qed.
Lemma vps_size_nn v : 0 <= vps_size v.
Proof.
  unfold vps_size. pose proof (ptl_size_nn (vps_profile_tier_level v)). pose proof (len_nn (vps_ordering v)). pose proof (vsize_nn len (layer_id_included_flag v) len_nn).
  pose proof (vsize_nn (fun e => hrd_size (vps_hrd_parameters e)) (vps_hrds v) (fun e => hrd_size_nn _)). lia.
Qed.
Lemma tsz_vps d s x : 0 <= d <= 6 -> vps_ok false s -> tsz d (9000 + 2600 * vps_size s) (text_vps s x).
Proof.
  intros D H. unfold vps_ok in H. cbv zeta in H. splitc. unfold text_vps.
  eapply tsz_mono.
  - apply z_struct; [lia | nm|]. repeat lazymatch goal with |- tsz _ _ (sub (tderef _ _)) => fail | |- tsz _ _ (line _) => fail | |- _ => tz1 end.
    + apply z_line; [lia|]. rewrite slen_app. assert (S : small64 (vps_reserved_0xffff_16bits s)) by rng. pose proof (w_x 4 _ S ltac:(lia)).
      match goal with |- slen ?a + _ <= _ => let v := eval vm_compute in (slen a) in change (slen a) with v end. lia.
    + eapply tsz_ptl; [lia | eassumption].
    + apply z_sub; [lia|]. apply (z_deref0 _ (2200 + 2540 * vsize (fun e => hrd_size (vps_hrd_parameters e)) (vps_hrds s))).
      * pose proof (vsize_nn (fun e => hrd_size (vps_hrd_parameters e)) (vps_hrds s) (fun e => hrd_size_nn _)). lia.
      * intros e Ee. eapply tsz_mono; [apply tsz_hrd; lia|]. pose proof (vps_hrds_last _ _ Ee). lia.
  - rewrite !len_map. unfold vps_size. pose proof (ptl_size_nn (vps_profile_tier_level s)). pose proof (len_nn (vps_ordering s)). pose proof (vsize_nn len (layer_id_included_flag s) len_nn).
    pose proof (vsize_len (fun e => hrd_size (vps_hrd_parameters e)) (vps_hrds s) (fun e => hrd_size_nn _)). nn_len. lia.
Qed.
