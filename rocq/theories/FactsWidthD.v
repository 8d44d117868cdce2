(** Bounds on the length of the text: SEI messages, NAL units, bitstreams, RTP packets and boxes. *)
From Coq Require Import ZArith List Bool Lia ZifyBool ZifyNat String Ascii.
From Verif Require Import MBase MBitBuffer Spec BitsFacts Reader Rules ReaderFacts PropsBits Syntax SyntaxSe MCommon PropsCommon MSyntaxA SpecA MProfile MSyntaxB SpecB MSps SpecSps FactsSps MPps SpecPps FactsPps
  MSlice SpecSlice FactsSlice MSei SpecSei MNal FactsNal PropsSlice MRtp MText SpecSize SpecTool FactsText PropsText PropsToolD FactsWidth FactsWidthB FactsWidthC.
Import ListNotations.
Open Scope string_scope.
Open Scope Z_scope.

Lemma z_upto_lt d k n f : (forall i, (i < n)%nat -> tsz d k (f i)) -> 0 <= k -> tsz d (Z.of_nat n * k) (tupto n f).
Proof.
  intros H K. induction n as [|n IH]; cbn [tupto]; [eapply tsz_mono; [apply tsz_nop | lia]|]. eapply tsz_mono; [apply tsz_seq; [apply IH; intros i Hi; apply H; lia | apply H; lia]|]. lia.
Qed.
(** A loop with an index below a bound over the elements of [l] *)
Lemma z_elems_lt {A} d m (g : A -> Z) (l : list A) n (f : nat -> txt) : 0 <= m -> (forall a, 0 <= g a) ->
  (forall i a, (i < n)%nat -> nth_error l i = Some a -> tsz d (m * (1 + g a)) (f i)) -> (forall i, (i < n)%nat -> nth_error l i = None -> forall cs, f i <> Done cs) -> tsz d (m * vsize g l) (tupto n f).
Proof.
  intros M G H B. pose (f' := fun i => if (i <? n)%nat then f i else Bad OutOfBounds).
  assert (E : tupto n f = tupto n f').
  { assert (X : forall k, (k <= n)%nat -> tupto k f = tupto k f'); [|apply X; lia]. induction k as [|k IH]; intros Hk; [reflexivity|]. cbn [tupto]. rewrite IH by lia. f_equal. unfold f'.
    destruct (Nat.ltb_spec k n); [reflexivity | lia]. }
  rewrite E. apply tsz_elems; [exact M | exact G| |]; intros i; unfold f'; destruct (Nat.ltb_spec i n) as [L|L]; intros.
  - apply H; assumption.
  - assert (0 <= m * (1 + g a)) by (specialize (G a); nia). eapply tsz_mono; [apply tsz_bad | assumption].
  - apply B; assumption.
  - discriminate.
Qed.
Lemma telem_some {A} (l : list A) i a f : nth_error l i = Some a -> telem l i f = f a.
Proof. intros E. unfold telem. rewrite E. reflexivity. Qed.
Lemma telem_none {A} (l : list A) i f : nth_error l i = None -> forall cs, telem l i f <> Done cs.
Proof. intros E cs. unfold telem. rewrite E. discriminate. Qed.
Lemma z_telem {A} d k (l : list A) i f : 0 <= k -> (forall a, In a l -> tsz d k (f a)) -> tsz d k (telem l i f).
Proof. intros K H. unfold telem. destruct (nth_error l i) as [a|] eqn:E; [apply H, (nth_error_In _ _ E) | eapply tsz_mono; [apply tsz_bad | exact K]]. Qed.
Lemma w_index n c : Z.of_nat c < 2 ^ 64 -> slen (index n c) <= slen n + 22.
Proof. intros C. unfold index. rewrite !slen_app. change (slen "[") with 1. change (slen "]") with 1. pose proof (w_dec (Z.of_nat c) ltac:(unfold small64; lia)). lia. Qed.
Ltac slens := rewrite ?slen_app; repeat match goal with |- context [slen (String ?a ?b)] => let v := eval vm_compute in (slen (String a b)) in change (slen (String a b)) with v end.
Lemma z_long d s : 0 <= d <= 16 -> slen s <= 180 -> tsz d 200 (line s).
Proof. intros D H. eapply tsz_mono; [apply tsz_line; lia|]. lia. Qed.
(** * SEI *)
Lemma tsz_t35 d n s : 0 <= d <= 12 -> n < 2 ^ 32 -> t35_ok n s -> tsz d (500 + 21 * len (t35_payload s)) (text_t35 s).
Proof.
  intros D N (_ & _ & F & E). unfold text_t35. eapply tsz_mono; [tz|].
  - unfold small64. destruct (_ =? _) in E; lia.
  - apply s64_us, F.
  - lia.
Qed.
Lemma s64_land x k : 0 <= k <= 64 -> small64 (Z.land x (Z.ones k)).
Proof. intros K. rewrite Z.land_ones by lia. unfold small64. pose proof (Z.mod_pos_bound x (2 ^ k) ltac:(apply Z.pow_pos_nonneg; lia)). pose proof (Z.pow_le_mono_r 2 k 64 ltac:(lia) ltac:(lia)). lia. Qed.
Lemma s64_shiftr x k : 0 <= k -> small64 x -> small64 (Z.shiftr x k).
Proof. intros K [H1 H2]. rewrite Z.shiftr_div_pow2 by exact K. assert (0 < 2 ^ k) by (apply Z.pow_pos_nonneg; lia). split; [apply Z.div_pos; lia|]. apply Z.div_lt_upper_bound; [lia|]. nia. Qed.
Lemma tsz_unregistered d n s : 0 <= d <= 12 -> n < 2 ^ 32 -> unregistered_ok n s -> tsz d (500 + 21 * len (ur_payload s)) (text_unregistered s).
Proof.
  intros D N (U1 & U2 & F & E). apply (s64_u 64) in U1; [|lia]. apply (s64_u 64) in U2; [|lia]. unfold text_unregistered. cbv zeta. eapply tsz_mono; [tz|].
  - apply z_long; [lia|]. change 65535 with (Z.ones 16). change 281474976710655 with (Z.ones 48). slens.
    pose proof (w_x 8 _ (s64_shiftr _ 32 ltac:(lia) U1) ltac:(lia)). pose proof (w_x 4 _ (s64_land (Z.shiftr (uuid_iso_iec_11578_1 s) 16) 16 ltac:(lia)) ltac:(lia)).
    pose proof (w_x 4 _ (s64_land (uuid_iso_iec_11578_1 s) 16 ltac:(lia)) ltac:(lia)). pose proof (w_x 4 _ (s64_shiftr _ 48 ltac:(lia) U2) ltac:(lia)).
    pose proof (w_x 12 _ (s64_land (uuid_iso_iec_11578_2 s) 48 ltac:(lia)) ltac:(lia)). lia.
  - unfold small64. lia.
  - apply s64_us, F.
  - lia.
Qed.
Lemma tsz_alpha d s : 0 <= d <= 12 -> tsz d 1000 (text_alpha s).
Proof. intros D. unfold text_alpha. eapply tsz_mono; [tz|]. lia. Qed.
Lemma tsz_mastering d s : 0 <= d <= 12 -> mastering_ok s -> tsz d 2200 (text_mastering s).
Proof.
  intros D ([_ F] & W1 & W2 & W3 & W4). unfold text_mastering. unfold u_ok in *. cbn [Z.of_nat] in *. eapply tsz_mono; [tz|].
  - apply (z_upto_lt _ 400); [|lia]. intros i Hi. apply z_telem; [lia|]. intros e He. pose proof (proj1 (Forall_forall _ _) F e He) as [P1 P2]. unfold u_ok in *.
    eapply tsz_mono; [tz|].
    + apply z_long; [lia|]. slens. pose proof (w_dec (Z.of_nat i) ltac:(unfold small64; lia)). pose proof (w_u (fst e) ltac:(unfold small64; lia)). pose proof (w_f 5 2 (fst e) ltac:(lia) ltac:(lia) ltac:(lia)). lia.
    + apply z_long; [lia|]. slens. pose proof (w_dec (Z.of_nat i) ltac:(unfold small64; lia)). pose proof (w_u (snd e) ltac:(unfold small64; lia)). pose proof (w_f 5 2 (snd e) ltac:(lia) ltac:(lia) ltac:(lia)). lia.
    + lia.
  - apply z_long; [lia|]. slens. pose proof (w_u (white_point_x s) ltac:(unfold small64; lia)). pose proof (w_f 5 2 (white_point_x s) ltac:(lia) ltac:(lia) ltac:(lia)). lia.
  - apply z_long; [lia|]. slens. pose proof (w_u (white_point_y s) ltac:(unfold small64; lia)). pose proof (w_f 5 2 (white_point_y s) ltac:(lia) ltac:(lia) ltac:(lia)). lia.
  - apply z_long; [lia|]. slens. pose proof (w_u (max_display_mastering_luminance s) ltac:(unfold small64; lia)). pose proof (w_f 4 1 (max_display_mastering_luminance s) ltac:(lia) ltac:(lia) ltac:(lia)). lia.
  - apply z_long; [lia|]. slens. pose proof (w_u (min_display_mastering_luminance s) ltac:(unfold small64; lia)). pose proof (w_f 4 1 (min_display_mastering_luminance s) ltac:(lia) ltac:(lia) ltac:(lia)). lia.
  - lia.
Qed.
Lemma tsz_light d s : 0 <= d <= 12 -> light_ok s -> tsz d 500 (text_light s).
Proof.
  intros D (W1 & W2). unfold text_light. eapply tsz_mono; [tz|].
  - apply z_long; [lia|]. slens. pose proof (w_u (max_content_light_level s) ltac:(rng)). lia.
  - apply z_long; [lia|]. slens. pose proof (w_u (max_pic_average_light_level s) ltac:(rng)). lia.
  - lia.
Qed.
Lemma tsz_knee d s : 0 <= d <= 12 -> knee_ok s -> tsz d (1200 + 42 * len (knee_points s)) (text_knee s).
Proof.
  intros D H. unfold knee_ok in H. cbv zeta in H. splitc. unfold text_knee.
  assert (F : Forall (pair_ok 10 10) (knee_points s)).
  { match goal with X : optf ?c (Syntax.vec _ _) _ _ |- _ => destruct c; unfold optf in X; [exact (proj2 X) | rewrite X; constructor] end. }
  eapply tsz_mono; [tz|].
  - apply Forall_map. eapply Forall_impl; [|exact F]. intros x [X _]. rng.
  - apply Forall_map. eapply Forall_impl; [|exact F]. intros x [_ X]. rng.
  - rewrite !len_map. nn_len. lia.
Qed.
Lemma tsz_lut d pre n m l : 0 <= d <= 14 -> slen pre <= 4 -> Forall (lut_ok n m) l -> tsz d (300 * vsize (fun x => len (snd x)) l) (text_lut pre l).
Proof.
  intros D P F. unfold text_lut. apply z_elems_lt; [lia | intros; apply len_nn| |].
  - intros i a Hi E. rewrite (telem_some _ _ _ _ E). pose proof (proj1 (Forall_forall _ _) F a (nth_error_In _ _ E)) as [A1 A2].
    assert (F2 : Forall (lut_pair_ok n m) (snd a)) by (destruct (0 <? fst a); unfold optf in A2; [exact (proj2 A2) | rewrite A2; constructor]).
    assert (W : forall x, slen x <= 20 -> slen (index (pre ++ x) i) <= 46) by (intros x X; pose proof (w_index (pre ++ x) i ltac:(lia)) as Y; rewrite slen_app in Y; lia).
    eapply tsz_mono; [apply tsz_seq; [apply tsz_fu; [lia| |rng] | apply z_if, tsz_seq; (apply tsz_vecc; [lia| |])]|].
    + etransitivity; [apply W; nm | lia].
    + etransitivity; [apply W; nm | lia].
    + apply Forall_map. eapply Forall_impl; [|exact F2]. intros x (X1 & X2 & X & _). eapply s64_u; [exact X | lia].
    + etransitivity; [apply W; nm | lia].
    + apply Forall_map. eapply Forall_impl; [|exact F2]. intros x (X1 & X2 & _ & X). eapply s64_u; [exact X | lia].
    + rewrite !len_map. nn_len. lia.
  - intros i _ E. apply telem_none, E.
Qed.
Lemma tsz_remap d s : 0 <= d <= 12 -> remap_ok false s -> tsz d (2500 + 300 * sei_payload_size (P_remap s)) (text_remap s).
Proof.
  intros D H. unfold remap_ok in H. cbv zeta in H. splitc. unfold text_remap.
  assert (F1 : exists n m, Forall (lut_ok n m) (pre_lut s)).
  { match goal with X : optf ?c _ _ (pre_lut s) |- _ => destruct c; unfold optf in X; [exists (lut_bits (colour_remap_input_bit_depth s)), (pre_target_bits false s); exact (proj2 X) | exists 0, 0; rewrite X; constructor] end. }
  assert (F2 : exists n m, Forall (lut_ok n m) (post_lut s)).
  { match goal with X : optf ?c _ _ (post_lut s) |- _ => destruct c; unfold optf in X; [exists (lut_bits (colour_remap_output_bit_depth s)), (lut_bits (colour_remap_output_bit_depth s)); exact (proj2 X) | exists 0, 0; rewrite X; constructor] end. }
  destruct F1 as (n1 & m1 & F1). destruct F2 as (n2 & m2 & F2).
  eapply tsz_mono; [tz|].
  - eapply tsz_lut; [lia | nm | exact F1].
  - apply (z_upto_lt _ 150); [|lia]. intros i Hi. apply z_if, z_telem; [lia|]. intros a Ha.
    assert (L : len a = 3).
    { match goal with X : optf ?c _ _ (colour_remap_coeffs s) |- _ => destruct c; unfold optf in X; [|rewrite X in Ha; destruct Ha] end.
      match goal with X : Syntax.vec 3 (Syntax.vec 3 se_ok) _ |- _ => pose proof (proj1 (Forall_forall _ _) (proj2 X) a Ha) as [Y _] end. unfold len. lia. }
    eapply tsz_mono; [apply tsz_vecci; [lia|]|].
    + etransitivity; [apply w_index; lia|]. nm.
    + lia.
  - eapply tsz_lut; [lia | nm | exact F2].
  - cbn [sei_payload_size]. pose proof (vsize_nn len (colour_remap_coeffs s) len_nn). lia.
Qed.
Lemma tsz_ccv d s : 0 <= d <= 12 -> ccv_ok s -> tsz d 2000 (text_ccv s).
Proof.
  intros D H. unfold ccv_ok in H. cbv zeta in H. splitc. unfold text_ccv. eapply tsz_mono; [tz|].
  - apply (z_upto_lt _ 200); [|lia]. intros i Hi. apply z_telem; [lia|]. intros a _.
    eapply tsz_mono; [apply tsz_seq; (apply tsz_fi; [lia|])|]; [etransitivity; [apply w_index; lia|]; nm .. | lia].
  - lia.
Qed.
Lemma tsz_alt d v : 0 <= d <= 12 -> u_ok 8 v -> tsz d 200 (text_alt v).
Proof. intros D H. unfold text_alt. eapply tsz_mono; [tz|]. lia. Qed.
Lemma tsz_ambient d s : 0 <= d <= 12 -> ambient_ok s -> tsz d 400 (text_ambient s).
Proof. intros D (H1 & H2 & H3). unfold text_ambient. eapply tsz_mono; [tz|]. lia. Qed.
Lemma tsz_unknown d l n : 0 <= d <= 12 -> n < 2 ^ 32 -> n = Z.of_nat (List.length l) -> Forall (u_ok 8) l -> tsz d (300 + 21 * len l) (text_unknown l).
Proof.
  intros D N E F. unfold text_unknown. eapply tsz_mono; [tz|].
  - apply z_line; [lia|]. slens. pose proof (w_u (Z.of_nat (List.length l)) ltac:(unfold small64; lia)). lia.
  - apply s64_us, F.
  - lia.
Qed.
Lemma sei_payload_size_nn p : 0 <= sei_payload_size p.
Proof.
  destruct p; cbn [sei_payload_size]; nn_len; try lia.
  match goal with |- 0 <= ?a + ?b + ?c => assert (0 <= a /\ 0 <= b /\ 0 <= c); [|lia] end. split; [|split]; apply vsize_nn; intros; apply len_nn.
Qed.
Lemma tsz_sei_payload d ty n p : 0 <= d <= 12 -> n < 2 ^ 32 -> payload_ok false ty n p -> tsz d (2500 + 300 * sei_payload_size p) (text_sei_payload p).
Proof.
  intros D N H. pose proof (sei_payload_size_nn p). destruct p; cbn [payload_ok text_sei_payload] in *; destruct H as [_ H].
  - eapply tsz_mono; [eapply tsz_t35; eassumption | cbn [sei_payload_size] in *; lia].
  - eapply tsz_mono; [eapply tsz_unregistered; eassumption | cbn [sei_payload_size] in *; lia].
  - eapply tsz_mono; [eapply tsz_alpha; eassumption | cbn [sei_payload_size] in *; lia].
  - eapply tsz_mono; [eapply tsz_mastering; eassumption | cbn [sei_payload_size] in *; lia].
  - eapply tsz_mono; [eapply tsz_light; eassumption | cbn [sei_payload_size] in *; lia].
  - eapply tsz_mono; [eapply tsz_knee; eassumption | cbn [sei_payload_size] in *; lia].
  - eapply tsz_mono; [eapply tsz_remap; eassumption | lia].
  - eapply tsz_mono; [eapply tsz_ccv; eassumption | cbn [sei_payload_size] in *; lia].
  - eapply tsz_mono; [eapply tsz_alt; eassumption | cbn [sei_payload_size] in *; lia].
  - eapply tsz_mono; [eapply tsz_ambient; eassumption | cbn [sei_payload_size] in *; lia].
  - destruct H as (F & E & _). eapply tsz_mono; [eapply tsz_unknown; eassumption | cbn [sei_payload_size] in *; lia].
Qed.
Definition sei_text_ok (s : sei_message) : Prop := 0 <= MSei.payload_size s < 2 ^ 32 /\ forall p, sei_payload_state s = Some p -> exists ty, payload_ok false ty (MSei.payload_size s) p.
Lemma tsz_sei d s : 0 <= d <= 11 -> sei_text_ok s -> tsz d (3000 + 300 * sei_size s) (text_sei s).
Proof.
  intros D (H1 & H2). unfold text_sei. eapply tsz_mono; [tz|].
  - apply (z_checked _ 2600 300 sei_payload_size); [lia|]. intros p E. destruct (H2 p E) as [ty T]. eapply tsz_mono; [tz; eapply tsz_sei_payload; [lia | | exact T]; lia|]. lia.
  - unfold sei_size. lia.
Qed.

(** * NAL units *)
(** What the text of a payload needs to know *)
Definition payload_text_ok (p : nal_payload) : Prop :=
  (forall v, np_vps p = Some v -> vps_ok false (fst v)) /\ (forall v, np_sps p = Some v -> sps_ok_out (fst v)) /\ (forall v, np_pps p = Some v -> pps_ok_out (fst v)) /\
  (forall h, np_slice p = Some h -> slice_text_ok h) /\ (forall s, np_sei p = Some s -> sei_text_ok s).
Lemma result_wp E {A} (m : M A) Q b a : wf b -> wp E m Q -> result m b = Some a -> exists bs, Q a bs.
Proof. intros W H R. specialize (H b W). unfold result in R. destruct (m b); [|discriminate R..]. injection R as ->. destruct H as (bs & _ & H). eauto. Qed.
Lemma payload_of_text ty st b : wf b -> state_ok st -> payload_text_ok (payload_of ty st b).
Proof.
  intros W S. unfold payload_text_ok, payload_of. cbn [np_vps np_sps np_pps np_slice np_sei]. refine (conj _ (conj _ (conj _ (conj _ _)))); intros x E.
  - destruct (ty =? 32); [|discriminate E]. destruct (result_wp _ _ _ _ _ W wp_Vps E) as (bs & H & _). exact H.
  - destruct (ty =? 33); [|discriminate E]. destruct (result_wp _ _ _ _ _ W wp_Sps E) as (bs & H & _). exact H.
  - destruct (ty =? 34); [|discriminate E]. destruct (result_wp _ _ _ _ _ W wp_Pps E) as (bs & H & _). exact H.
  - destruct (slice_nut ty); [|discriminate E]. unfold result in E. destruct (ParseSliceSegmentHeader ty st b) as [h b'|b'|e] eqn:P; [|discriminate E..]. injection E as ->.
    destruct (C37_accepted _ _ _ _ _ W S P) as (p & s & _ & H & _). eapply (slice_ok_text _ _ _ _ _ _ H).
  - destruct ((ty =? 39) || (ty =? 40)); [|discriminate E]. destruct (result_wp _ _ _ _ _ W wp_Sei E) as (bs & _ & H1 & H2). split; [exact H1 | eauto].
Qed.
(** The long-term pictures of the slice header of a payload *)
Definition long_term (p : nal_payload) : Z := osize (fun h => len (sh_lt h)) (np_slice p).
Lemma long_term_nn p : 0 <= long_term p.
Proof. apply osize_nn. intros. apply len_nn. Qed.
Lemma payload_elements_nn p : 0 <= payload_elements p.
Proof.
  unfold payload_elements. pose proof (osize_nn _ (np_vps p) (fun x : vps_body * Z => vps_size_nn (fst x))). pose proof (osize_nn _ (np_sps p) (fun x : sps * Z => sps_size_nn (fst x))).
  pose proof (osize_nn _ (np_pps p) (fun x : pps * Z => pps_size_nn (fst x))). pose proof (osize_nn _ (np_slice p) slice_size_nn).
  pose proof (osize_nn sei_size (np_sei p) (fun s => osize_nn _ _ sei_payload_size_nn)). lia.
Qed.
Lemma long_term_elements p : long_term p <= payload_elements p.
Proof.
  unfold long_term, payload_elements. pose proof (osize_nn _ (np_vps p) (fun x : vps_body * Z => vps_size_nn (fst x))). pose proof (osize_nn _ (np_sps p) (fun x : sps * Z => sps_size_nn (fst x))).
  pose proof (osize_nn _ (np_pps p) (fun x : pps * Z => pps_size_nn (fst x))).
  pose proof (osize_nn sei_size (np_sei p) (fun s => osize_nn _ _ sei_payload_size_nn)).
  assert (osize (fun h => len (sh_lt h)) (np_slice p) <= osize slice_size (np_slice p)); [|lia].
  destruct (np_slice p) as [h|]; cbn [osize]; [|lia]. unfold slice_size. pose proof (osize_nn _ (sh_st_ref_pic_set h) rps_size_nn). pose proof (osize_nn _ (sh_pred_weight_table h) pwt_size_nn). nn_len. lia.
Qed.
Lemma tsz_header d h : 0 <= d <= 12 -> tsz d 500 (text_header h).
Proof. intros D. unfold text_header. eapply tsz_mono; [tz|]. lia. Qed.
Lemma tsz_payload d sp o ty p : 0 <= d <= 3 -> payload_text_ok p -> tsz d (26000 + 2600 * payload_elements p + 60 * (long_term p * long_term p)) (text_payload sp o ty p).
Proof.
  intros D (H1 & H2 & H3 & H4 & H5). unfold text_payload.
  pose proof (osize_nn _ (np_vps p) (fun x : vps_body * Z => vps_size_nn (fst x))) as N1. pose proof (osize_nn _ (np_sps p) (fun x : sps * Z => sps_size_nn (fst x))) as N2.
  pose proof (osize_nn _ (np_pps p) (fun x : pps * Z => pps_size_nn (fst x))) as N3. pose proof (osize_nn _ (np_slice p) slice_size_nn) as N4.
  pose proof (osize_nn sei_size (np_sei p) (fun s => osize_nn _ _ sei_payload_size_nn)) as N5. pose proof (long_term_nn p) as N6.
  assert (N7 : 0 <= long_term p * long_term p) by nia.
  eapply tsz_mono; [apply (z_struct _ (25500 + 2600 * payload_elements p + 60 * (long_term p * long_term p))); [lia | nm|] | lia]. unfold payload_elements.
  eapply tsz_mono; [apply (tsz_seq _ 20 (25400 + 2600 * payload_elements p + 60 * (long_term p * long_term p))); [apply z_ind; lia|] | unfold payload_elements; lia]. unfold payload_elements.
  repeat match goal with |- tsz _ _ (if ?c then _ else _) => destruct c end.
  - apply tsz_checked; [lia|]. intros h E. apply tsz_call. eapply tsz_mono; [apply tsz_slice; [lia | auto]|]. unfold long_term in *. rewrite E in *. cbn [osize] in *. lia.
  - apply tsz_checked; [lia|]. intros v E. apply tsz_call. eapply tsz_mono; [apply tsz_vps; [lia | auto]|]. rewrite E in *. cbn [osize] in *. lia.
  - apply tsz_checked; [lia|]. intros v E. apply tsz_call. eapply tsz_mono; [eapply tsz_sps; [lia | apply H2, E]|]. rewrite E in *. cbn [osize] in *. lia.
  - apply tsz_checked; [lia|]. intros v E. apply tsz_call. eapply tsz_mono; [apply tsz_pps; [lia | apply H3, E]|]. rewrite E in *. cbn [osize] in *. lia.
  - apply tsz_call, tsz_deref; [lia|]. intros a E. unfold text_aud. eapply tsz_mono; [tz|]. lia.
  - apply tsz_checked; [lia|]. intros v E. apply tsz_call. eapply tsz_mono; [apply tsz_sei; [lia | auto]|]. rewrite E in *. cbn [osize] in *. lia.
  - eapply tsz_mono; [apply tsz_nop|]. lia.
Qed.
Definition unit_text_ok (u : nal_unit) : Prop := payload_text_ok (nu_payload u) /\ small64 (nu_offset u) /\ small64 (nu_length u) /\ small64 (nu_parsed_length u).
Lemma tsz_checksum d c : 0 <= d <= 12 -> tsz d 200 (text_checksum c).
Proof.
  intros D. rewrite checksum_line. apply z_long; [lia|]. unfold checksum_bytes. cbn [map String.concat]. unfold two_hex. slens.
  repeat match goal with |- context [slen (String ?a (String ?b ""))] => change (slen (String a (String b ""))) with 2 end. nm.
Qed.
Lemma tsz_nal d sp o u : 0 <= d <= 2 -> unit_text_ok u ->
  tsz d (27500 + 2600 * unit_elements u + 60 * (long_term (nu_payload u) * long_term (nu_payload u))) (text_nal sp o u).
Proof.
  intros D (H1 & H2 & H3 & H4). unfold text_nal. eapply tsz_mono; [tz|].
  - apply z_line; [lia|]. slens. pose proof (w_x 8 _ H2 ltac:(lia)). lia.
  - apply (z_deref0 _ 200); [lia|]. intros c _. apply tsz_checksum. lia.
  - apply tsz_header. lia.
  - apply tsz_payload; [lia | exact H1].
  - unfold unit_elements. lia.
Qed.
Lemma fdump_width k t level s : tsz 0 k t -> -1 <= level -> fdump t level = Done s -> slen s <= k * (level + 2).
Proof.
  intros [K H] L E. unfold fdump in E. destruct t as [cs|]; [|discriminate E]. injection E as <-.
  destruct (H cs eq_refl level [] [] L) as (s & A & B). rewrite app_nil_r in A. unfold text_of.
  replace (lv level 0) with level in A by (unfold lv; destruct (Z.eqb_spec level (-1)); lia). rewrite A. rewrite slen_app. cbn [run]. change (slen "") with 0. lia.
Qed.
