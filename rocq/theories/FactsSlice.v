(** ParsePredWeightTable and ParseSliceSegmentHeader read the layouts of SpecSlice.v. *)
From Coq Require Import ZArith List Bool Lia ZifyBool ZifyNat.
From Verif Require Import MBase MBitBuffer Spec BitsFacts Reader ReaderFacts Rules Syntax SyntaxSe MCommon CommonFacts PropsBits
  MSyntaxA SpecA FactsA Api MSyntaxB SpecB FactsB FactsRps MSps SpecSps FactsSps PropsSps MPps SpecPps FactsPps MSlice SpecSlice.
Import ListNotations.
Open Scope Z_scope.

Global Arguments enc_luma_weight : simpl never.
Global Arguments luma_weight_ok : simpl never.
Global Arguments enc_pwt_entry : simpl never.
Global Arguments pwt_entry_ok : simpl never.
Global Arguments enc_pwt : simpl never.
Global Arguments pwt_ok : simpl never.
Global Arguments enc_lt_entry : simpl never.
Global Arguments lt_entry_ok : simpl never.
Global Arguments enc_slice : simpl never.
Global Arguments slice_ok : simpl never.
Global Arguments CAT : simpl never.
Global Arguments ep_limit : simpl never.
Global Arguments inferred : simpl never.
Global Arguments CeilLog2 : simpl never.
Global Arguments PicSizeInCtbs : simpl never.

(** * pred_weight_table *)
Lemma parses_luma_weight w : luma_weight_ok w -> parses read_luma_weight (enc_luma_weight w) w.
Proof. destruct w. unfold luma_weight_ok, enc_luma_weight. cbn. intros H. split_hyps. unfold read_luma_weight. prun. Qed.
Lemma wpa_luma_weight (E : errs) : ovf_in E -> wpa E read_luma_weight luma_weight_ok enc_luma_weight.
Proof. intros HE. unfold read_luma_weight, wpa. arun. unfold luma_weight_ok, enc_luma_weight. cbn. split; [conjs|agrees]. Qed.
#[export] Hint Resolve parses_luma_weight : parses_db.
#[export] Hint Resolve wpa_luma_weight : wpa_db.

Lemma znth_nil {A} i (d : A) : znth [] i d = d.
Proof. unfold znth. destruct (Z.to_nat i); reflexivity. Qed.
Lemma cf_read (c : bool) n (cf : list Z) i : 0 <= i < n -> optf c (vec n (u_ok 1)) [] cf ->
  (if c then at_ cf i else ret 0) = ret (znth cf i 0).
Proof.
  intros Hi H. destruct c; unfold optf in H.
  - apply at_ok. destruct H as [L _]. lia.
  - subst. rewrite znth_nil. reflexivity.
Qed.
Lemma parses_pwt_entry c n lf cf i e : 0 <= i < n -> vec n (u_ok 1) lf -> optf c (vec n (u_ok 1)) [] cf -> pwt_entry_ok lf cf i e ->
  parses (read_pwt_entry c lf cf i) (enc_pwt_entry lf cf i e) e.
Proof.
  intros Hi [Ll Hl] Hc. pose proof (cf_read c n cf i Hi Hc) as Ec. destruct e as [l cq]. unfold pwt_entry_ok, enc_pwt_entry. cbn. intros H.
  split_hyps. unfold read_pwt_entry. apply (parses_at lf i 0); [lia|]. rewrite Ec. prun.
Qed.
Lemma wpa_pwt_entry (E : errs) c n lf cf i : ovf_in E -> 0 <= i < n -> vec n (u_ok 1) lf -> optf c (vec n (u_ok 1)) [] cf ->
  wpa E (read_pwt_entry c lf cf i) (pwt_entry_ok lf cf i) (enc_pwt_entry lf cf i).
Proof.
  intros HE Hi [Ll Hl] Hc. unfold read_pwt_entry, wpa. apply (wp_at _ lf i 0); [lia|]. rewrite (cf_read c n cf i Hi Hc). arun.
  unfold pwt_entry_ok, enc_pwt_entry. cbn. split; [conjs|agrees].
Qed.
Lemma parses_pwt cat n t : pwt_ok cat n t -> parses (ParsePredWeightTable cat n) (enc_pwt cat n t) t.
Proof.
  destruct t. unfold pwt_ok, enc_pwt. cbn. intros H. split_hyps. unfold ParsePredWeightTable. do 4 pstep.
  eapply parses_bind; [eapply parses_veci; [eassumption|]|prun]. intros. eapply parses_pwt_entry; eassumption.
Qed.
Lemma wpa_pwt (E : errs) cat n : ovf_in E -> wpa E (ParsePredWeightTable cat n) (pwt_ok cat n) (enc_pwt cat n).
Proof.
  intros HE. unfold ParsePredWeightTable, wpa. do 4 astep.
  eapply wpa_bind; [apply wpa_veci; intros; eapply wpa_pwt_entry; eassumption|]. intros. arun.
  unfold pwt_ok, enc_pwt. cbn. split; [conjs|agrees].
Qed.
#[export] Hint Resolve parses_pwt : parses_db.
#[export] Hint Resolve wpa_pwt : wpa_db.

(** * What is needed of SPS and PPS *)
Lemma CeilLog2_range n : 1 < n <= 2 ^ 32 -> 0 < CeilLog2 n <= 32.
Proof.
  intros H. unfold CeilLog2. split; [apply Z.log2_up_pos; lia|]. apply Z.log2_up_le_pow2; lia.
Qed.
Lemma CeilLog2_1 n : n <= 1 -> CeilLog2 n = 0.
Proof. intros H. unfold CeilLog2. apply Z.log2_up_eqn0. exact H. Qed.

Record sps_facts (s : sps) : Prop := {
  sf_cat : ChromaArrayType_of s = CAT false s;
  sf_mv : mv_res_control s = mv_control s;
  sf_h : getPicHeightInCtbsY s = PicHeightInCtbs s;
  sf_hr : 1 <= PicHeightInCtbs s <= 2111;
  sf_size : getPicSizeInCtbsY s = PicSizeInCtbs s;
  sf_len : 0 <= CeilLog2 (PicSizeInCtbs s) <= 32;
  sf_nst : 0 <= num_short_term_ref_pic_sets s <= 64;
  sf_nlt : 0 <= num_long_term_ref_pics_sps s <= 32;
  sf_lsb : 0 <= log2_max_pic_order_cnt_lsb_minus4 s <= 12;
  sf_shift : getCtbLog2SizeY s < 32;
  sf_pos : 1 <= getPicSizeInCtbsY s }.
(** No shift or conversion is out of range with such an SPS. *)
Lemma poc_lsb_len_eq s : 0 <= log2_max_pic_order_cnt_lsb_minus4 s <= 2 ^ 32 - 5 -> poc_lsb_len s = log2_max_pic_order_cnt_lsb_minus4 s + 4.
Proof. intros H. unfold poc_lsb_len, u32. apply Z.mod_small. lia. Qed.
Lemma sf_lsb_len s : sps_facts s -> poc_lsb_len s = log2_max_pic_order_cnt_lsb_minus4 s + 4.
Proof. intros F. apply poc_lsb_len_eq. pose proof (sf_lsb s F). lia. Qed.
Lemma size_step {B} first s (m : M B) : sps_facts s -> bind (size_conversion first s) (fun _ => m) = m.
Proof.
  intros F. unfold size_conversion. destruct (nz first); [reflexivity|]. pose proof (sf_shift s F) as F1. pose proof (sf_pos s F) as F2.
  destruct (Z.leb_spec 32 (getCtbLog2SizeY s)); [lia|]. destruct (Z.leb_spec (getPicSizeInCtbsY s) 0); [lia|]. reflexivity.
Qed.
Lemma height_step {B} s p (m : M B) : sps_facts s -> bind (height_shift s p) (fun _ => m) = m.
Proof.
  intros F. unfold height_shift. pose proof (sf_shift s F) as F1. destruct (Z.leb_spec 32 (getCtbLog2SizeY s)); [lia|]. rewrite andb_false_r. reflexivity.
Qed.
Lemma is_ceil_quot q a b : 0 < b -> is_ceil q a b -> q = ceil_quot a b.
Proof.
  intros Hb [H1 H2]. unfold ceil_quot. pose proof (Z.div_mod (- a) b ltac:(lia)). pose proof (Z.mod_pos_bound (- a) b Hb). nia.
Qed.
Lemma sps_facts_of SE RPS s : sps_ok false 0 SE RPS s -> sps_facts s.
Proof.
  intros O. assert (G : geometry_range s).
  { unfold geometry_range. assert (pic_size_ok kMaxWidth (pic_width_in_luma_samples s) /\ pic_size_ok kMaxHeight (pic_height_in_luma_samples s) /\
      ue_le 3 (log2_min_luma_coding_block_size_minus3 s) /\ ue_le 3 (log2_diff_max_min_luma_coding_block_size s)) as (A1 & A2 & A3 & A4)
      by (unfold sps_ok in O; cbv zeta in O; tauto).
    apply pic_size_le in A1; [|auto]. apply pic_size_le in A2; [|auto]. unfold ue_le in *. lia. }
  destruct (geometry s G) as (_ & _ & _ & Cs & Cw & Ch & Rw & Rh & Sz & _).
  apply is_ceil_quot in Cw; [|lia]. apply is_ceil_quot in Ch; [|lia]. fold (PicWidthInCtbs s) in Cw. fold (PicHeightInCtbs s) in Ch.
  assert (A : ue_le 64 (num_short_term_ref_pic_sets s) /\ optf (nz (long_term_ref_pics_present_flag s)) (ue_le 32) 0 (num_long_term_ref_pics_sps s) /\
    ue_le 12 (log2_max_pic_order_cnt_lsb_minus4 s)) by (unfold sps_ok in O; cbv zeta in O; tauto).
  assert (Sx : optf (nz (sps_scc_extension_flag s))
    (is_some (sps_scc_ext_ok (chroma_format_idc s) (bit_depth_luma_minus8 s) (bit_depth_chroma_minus8 s))) None (sps_scc_extension s))
    by (unfold sps_ok in O; cbv zeta in O; tauto). clear O.
  destruct A as (A1 & A2 & A3). split.
  - reflexivity.
  - unfold mv_res_control, mv_control, optf in *. destruct (nz (sps_scc_extension_flag s)); [reflexivity|]. rewrite Sx. reflexivity.
  - exact Ch.
  - lia.
  - rewrite Sz. unfold PicSizeInCtbs. rewrite <- Cw, <- Ch. reflexivity.
  - assert (1 <= PicSizeInCtbs s <= 2 ^ 32) by (unfold PicSizeInCtbs; rewrite <- Cw, <- Ch; nia).
    destruct (Z.eq_dec (PicSizeInCtbs s) 1) as [E|E]; [rewrite CeilLog2_1; lia|]. pose proof (CeilLog2_range (PicSizeInCtbs s) ltac:(lia)). lia.
  - exact A1.
  - unfold optf, ue_le in *. destruct (nz (long_term_ref_pics_present_flag s)); lia.
  - exact A3.
  - destruct (log2s s G) as [_ L]. rewrite L. unfold geometry_range in G. lia.
  - rewrite Sz. nia.
Qed.

Record pps_facts (p : pps) : Prop := {
  pf_act : act_offsets_present p = ret (act_present p);
  pf_extra : 0 <= num_extra_slice_header_bits p < 8;
  pf_tiles : u_ok 1 (tiles_enabled_flag p);
  pf_sync : u_ok 1 (entropy_coding_sync_enabled_flag p);
  pf_cols : 0 <= num_tile_columns_minus1 p <= 2 ^ 32 - 2;
  pf_rows : 0 <= num_tile_rows_minus1 p <= 2 ^ 32 - 2 }.
Lemma pps_facts_of SE ML p : pps_ok false SE ML p -> pps_facts p.
Proof.
  intros O. assert (A : u_ok 3 (num_extra_slice_header_bits p) /\ u_ok 1 (tiles_enabled_flag p) /\ u_ok 1 (entropy_coding_sync_enabled_flag p) /\
    optf (nz (tiles_enabled_flag p)) ue_ok 0 (num_tile_columns_minus1 p) /\ optf (nz (tiles_enabled_flag p)) ue_ok 0 (num_tile_rows_minus1 p) /\
    optf (nz (pps_scc_extension_flag p)) (is_some (pps_scc_ext_ok false)) None (pps_scc_extension p)) by (unfold pps_ok in O; cbv zeta in O; tauto).
  clear O. destruct A as (A1 & A2 & A3 & A4 & A5 & A6). split; try assumption.
  - unfold act_offsets_present, act_present, optf, is_some in *. destruct (nz (pps_scc_extension_flag p)).
    + destruct (pps_scc_extension p); [reflexivity|contradiction].
    + rewrite A6. reflexivity.
  - unfold optf, ue_ok in *. destruct (nz (tiles_enabled_flag p)); lia.
  - unfold optf, ue_ok in *. destruct (nz (tiles_enabled_flag p)); lia.
Qed.

Lemma ep_valid s p n : sps_facts s -> pps_facts p -> 0 <= n ->
  nz (tiles_enabled_flag p) || nz (entropy_coding_sync_enabled_flag p) = true ->
  isValidNumEntryPointOffsets n s p = (n <=? ep_limit false s p).
Proof.
  intros Fs Fp Hn Hep. destruct Fs, Fp. unfold isValidNumEntryPointOffsets, ep_limit. rewrite sf_h0. cbv zeta.
  unfold nz, u_ok in *. unfold u32. rewrite (Z.mod_small (PicHeightInCtbs s - 1)) by lia.
  rewrite (Z.mod_small (num_tile_columns_minus1 p + 1)), (Z.mod_small (num_tile_rows_minus1 p + 1)) by lia.
  assert (T : tiles_enabled_flag p = 0 \/ tiles_enabled_flag p = 1) by lia.
  assert (S : entropy_coding_sync_enabled_flag p = 0 \/ entropy_coding_sync_enabled_flag p = 1) by lia.
  destruct T as [T|T], S as [S|S]; rewrite T, S in *; cbn in *; try reflexivity; try discriminate.
  rewrite Zminus_mod_idemp_l. reflexivity.
Qed.

(** * slice_segment_header *)
Lemma parses_lt_entry s nls i e : sps_facts s -> lt_entry_ok s nls i e ->
  parses (read_lt_entry nls (num_long_term_ref_pics_sps s) (log2_max_pic_order_cnt_lsb_minus4 s + 4) i) (enc_lt_entry s nls i e) e.
Proof.
  intros F. destruct F. destruct e. unfold lt_entry_ok, enc_lt_entry. cbn. intros H. split_hyps. unfold read_lt_entry. cbv zeta.
  pose proof (CeilLog2_range (num_long_term_ref_pics_sps s)) as R.
  change ceil_log2 with CeilLog2. prun.
Qed.
Lemma wp_lt_entry s nls i : sps_facts s ->
  wp no_err (read_lt_entry nls (num_long_term_ref_pics_sps s) (log2_max_pic_order_cnt_lsb_minus4 s + 4) i)
    (fun e bs => lt_entry_ok s nls i e /\ bs = enc_lt_entry s nls i e).
Proof.
  intros F. destruct F. unfold read_lt_entry. cbv zeta. pose proof (CeilLog2_range (num_long_term_ref_pics_sps s)) as R.
  change ceil_log2 with CeilLog2. wrun. unfold lt_entry_ok, enc_lt_entry. cbn. split; [conjs|reflexivity].
Qed.

Lemma nz_if (c : bool) v : nz (if c then v else 0) = c && nz v.
Proof. destruct c; reflexivity. Qed.
Lemma act_step {B} (c : bool) p (f : Z -> M B) : pps_facts p -> bind (if c then act_offsets_present p else ret 0) f = f (if c then act_present p else 0).
Proof. intros F. rewrite (pf_act _ F). destruct c; reflexivity. Qed.

(** The stored parameter sets are what the SPS and PPS parsers return. *)
Definition state_ok (st : state) : Prop :=
  (forall k s x, st_sps st k = Some (s, x) -> sps_ok_out s) /\ (forall k p x, st_pps st k = Some (p, x) -> pps_ok_out p).
(** [p] and [s] are the parameter sets a slice with slice_pic_parameter_set_id [pid] refers to. *)
Definition refers_to (st : state) (pid : Z) (p : pps) (s : sps) : Prop :=
  (exists x, st_pps st pid = Some (p, x)) /\ (exists x, st_sps st (pps_seq_parameter_set_id p) = Some (s, x)).

Definition own_rps (s : sps) : rps -> Prop := rps_ok (num_short_term_ref_pic_sets s) (num_short_term_ref_pic_sets s) (sps_st_ref_pic_set s) 15.
Definition own_rps_std (s : sps) (r : rps) : Prop := own_rps s r /\ rps_derived (num_short_term_ref_pic_sets s) (sps_st_ref_pic_set s) r.
Lemma sets_ok_out num l : 0 <= num <= 64 -> rps_sets_out num l -> sets_ok num l.
Proof. intros Hn [[L A] _]. split; [lia|]. split; [lia|]. eapply all_from_ok_shape, A. Qed.

Lemma parses_slice st nut s p h : sps_ok_out s -> pps_ok_out p -> refers_to st (slice_pic_parameter_set_id h) p s ->
  (forall r, own_rps_std s r -> parses (ParseStRefPicSet (num_short_term_ref_pic_sets s) (num_short_term_ref_pic_sets s) (sps_st_ref_pic_set s) 15)
     (enc_rps (num_short_term_ref_pic_sets s) (num_short_term_ref_pic_sets s) r) r) ->
  slice_ok false (own_rps_std s) nut s p h -> parses (ParseSliceSegmentHeader nut st) (enc_slice false nut s p h) h.
Proof.
  intros Os Op Ref PR. pose proof (sps_facts_of _ _ _ Os) as Fs. pose proof (pps_facts_of _ _ _ Op) as Fp.
  destruct h. unfold refers_to, slice_ok, enc_slice. cbn. intros O. destruct Ref as [[xp Rp] [xs Rs]]. cbn in Rp.
  pose proof (CeilLog2_range (num_short_term_ref_pic_sets s)) as R1. pose proof (sf_len s Fs) as R2. pose proof (sf_nst s Fs) as R3.
  pose proof (sf_lsb s Fs) as R4.
  split_hyps. unfold ParseSliceSegmentHeader, irap_type. do 3 pstep. rewrite Rp, Rs. unfold slice_rest, idr_type, SliceType_P, SliceType_B.
  rewrite (sf_lsb_len s Fs), (sf_size s Fs), (sf_cat s Fs), (sf_mv s Fs). change ceil_log2 with CeilLog2. cbn [orb] in *.
  unfold inferred in *. cbn [andb] in *.
  pstep. rewrite (size_step _ s _ Fs).
  repeat pstep. eapply parses_bind; [eapply parses_veci_when; [eassumption|]; intros; apply parses_lt_entry; assumption|].
  repeat pstep. rewrite (act_step _ p _ Fp). cbv beta. rewrite nz_if. repeat pstep.
  rewrite (height_step s p _ Fs). repeat pstep.
  { destruct (nz (tiles_enabled_flag p) || nz (entropy_coding_sync_enabled_flag p)) eqn:Hep; [|reflexivity]. cbn [negb orb] in *.
    rewrite (ep_valid s p); try assumption. unfold optf, ue_ok in *. lia. }
  assert (0 <= offset_len_minus1 <= 31) by (unfold optf, ue_le in H48; destruct ((nz (tiles_enabled_flag p) || nz (entropy_coding_sync_enabled_flag p)) && (0 <? num_entry_point_offsets)); lia).
  repeat pstep. subst. apply parses_ret.
Qed.

(** * The sets of a standard SPS are small enough for the slice's own set to be derived without overflow *)
Lemma in_combine_fst {A B} (l : list A) (l' : list B) a : length l = length l' -> In a l -> exists b, In (a, b) (combine l l').
Proof.
  revert l'. induction l as [|x l IH]; intros [|y l'] L H; try discriminate; [destruct H|]. cbn [combine]. destruct H as [->|H].
  - exists y. left. reflexivity.
  - destruct (IH l' ltac:(cbn in L; lia) H) as [b Hb]. exists b. right. exact Hb.
Qed.
Lemma derived_bounded B idx sets s : 0 <= B -> rps_bounded B (ref_of idx sets s) -> rps_derived idx sets s ->
  nz (inter_ref_pic_set_prediction_flag s) = true -> u_ok 1 (delta_rps_sign s) -> ue_le 32767 (abs_delta_rps_minus1 s) -> rps_bounded (B + 32768) s.
Proof.
  intros HB [B0 B1] D Hi Hs Ha. destruct (D Hi) as [D0 D1]. cbv zeta in D0, D1.
  assert (Dl : - 32768 <= delta_rps_of s <= 32768) by (unfold delta_rps_of, u_ok, ue_le in *; assert (delta_rps_sign s = 0 \/ delta_rps_sign s = 1) as [-> | ->] by lia; lia).
  rewrite Forall_forall in B0, B1.
  assert (C : forall sign l x, In x (keep sign l) ->
     (forall y, In y l -> (exists r, (In r (DeltaPocS0 (ref_of idx sets s)) \/ In r (DeltaPocS1 (ref_of idx sets s)) \/ r = 0) /\ fst y = r + delta_rps_of s)) ->
     - (B + 32768) <= fst x <= B + 32768).
  { intros sign l x H1 H2. apply in_keep in H1. destruct H1 as (y & Hy & ->). destruct (H2 y Hy) as (r & [Hr|[Hr|Hr]] & ->).
    - specialize (B0 r Hr). lia.
    - specialize (B1 r Hr). lia.
    - lia. }
  assert (S : forall f0 f1 fr y, In y (shift_by (delta_rps_of s) (DeltaPocS0 (ref_of idx sets s)) f0) \/
     In y (shift_by (delta_rps_of s) (DeltaPocS1 (ref_of idx sets s)) f1) \/ In y (shift_by (delta_rps_of s) [0] fr) ->
     exists r, (In r (DeltaPocS0 (ref_of idx sets s)) \/ In r (DeltaPocS1 (ref_of idx sets s)) \/ r = 0) /\ fst y = r + delta_rps_of s).
  { intros f0 f1 fr y [H|[H|H]]; apply in_shift in H; destruct H as (r & Hr & E); exists r; (split; [|exact E]); auto.
    destruct Hr as [<-|[]]. auto. }
  split; apply Forall_forall; intros d Hd.
  - destruct (in_combine_fst (DeltaPocS0 s) (map snd (rps_s0 s)) d) as [u Hu]; [unfold DeltaPocS0; rewrite delta_pocs_length, map_length; reflexivity|exact Hd|].
    rewrite D0 in Hu. apply (C (-1) _ (d, u) Hu). intros y Hy. eapply S. rewrite !in_app_iff, <- in_rev in Hy. destruct Hy as [Hy|[Hy|Hy]]; eauto.
  - destruct (in_combine_fst (DeltaPocS1 s) (map snd (rps_s1 s)) d) as [u Hu]; [unfold DeltaPocS1; rewrite delta_pocs_length, map_length; reflexivity|exact Hd|].
    rewrite D1 in Hu. apply (C 1 _ (d, u) Hu). intros y Hy. eapply S. rewrite !in_app_iff, <- in_rev in Hy. destruct Hy as [Hy|[Hy|Hy]]; eauto.
Qed.
Lemma std_bounded num l : (length l <= 64)%nat -> all_from 0 (fun i s => rps_ok i num l 15 s) l -> Forall poc_limits l -> rps_sets_derived l ->
  forall n, (n <= length l)%nat -> Forall (rps_bounded (bound n)) (firstn n l).
Proof.
  intros Hl Ha Hp Hd. induction n as [|n IH]; intros Hn; [constructor|].
  assert (Hx : exists x, nth_error l n = Some x) by (destruct (nth_error l n) eqn:E; [eauto|apply nth_error_None in E; lia]).
  destruct Hx as [x Hx]. specialize (IH ltac:(lia)).
  assert (El : l = firstn n l ++ x :: skipn (S n) l).
  { rewrite <- (firstn_skipn n l) at 1. f_equal. clear - Hx. revert l Hx. induction n; intros [|a l] Hx; try discriminate; cbn in *; [injection Hx as ->; reflexivity|auto]. }
  assert (En : firstn (S n) l = firstn n l ++ [x]).
  { clear - Hx. revert l Hx. induction n; intros [|a l] Hx; try discriminate; cbn in *; [injection Hx as ->; reflexivity|]. f_equal. auto. }
  assert (Ln : length (firstn n l) = n) by (apply firstn_length_le; lia).
  rewrite En. apply Forall_app. split; [eapply Forall_impl; [|exact IH]; intros a; apply rps_bounded_mono; unfold bound; lia|].
  constructor; [|constructor].
  assert (Ox : rps_ok (Z.of_nat n) num l 15 x).
  { rewrite El in Ha. apply all_from_app in Ha. destruct Ha as [_ [Ha _]]. rewrite Ln, Z.add_0_l, <- El in Ha. exact Ha. }
  assert (Dx : rps_derived (Z.of_nat n) l x).
  { unfold rps_sets_derived in Hd. rewrite El in Hd. apply all_from_app in Hd. destruct Hd as [_ [Hd _]]. rewrite Ln, Z.add_0_l, <- El in Hd. exact Hd. }
  assert (Px : poc_limits x) by (rewrite Forall_forall in Hp; apply Hp; eapply nth_error_In; exact Hx).
  apply bound_next; [apply Ox|exact Px|]. intros Hi. destruct Ox as (_ & _ & _ & Ox). rewrite Hi in Ox. destruct Ox as (_ & R & O1 & O2 & _).
  apply (derived_bounded _ (Z.of_nat n) l); try assumption; [unfold bound; lia|].
  rewrite Forall_forall in IH. apply IH. unfold ref_of, znth. replace l with (firstn n l ++ skipn n l) at 1 by apply firstn_skipn.
  rewrite app_nth1 by lia. apply nth_In. lia.
Qed.
Lemma std_sets_bounded num l : 0 <= num <= 64 -> rps_sets_std num l -> sets_bounded (bound 64) l.
Proof.
  intros Hn ((L & A) & P & D). apply sets_bounded_of; [lia|].
  pose proof (std_bounded num l ltac:(lia) A P D (length l) (le_n _)) as H. rewrite firstn_all in H.
  eapply Forall_impl; [|exact H]. intros a. apply rps_bounded_mono. unfold bound. lia.
Qed.
(** The explicitly coded reference picture sets of the stored SPS are within the limits of [poc_limits]. *)
Definition pocs_ok (st : state) : Prop := forall k s x, st_sps st k = Some (s, x) -> Forall poc_limits (sps_st_ref_pic_set s).
Lemma wp_own_rps (E : errs) num sets : 0 <= num <= 64 -> rps_sets_out num sets -> (Forall poc_limits sets \/ forall l, E SignedOverflow l) ->
  wp E (ParseStRefPicSet num num sets 15) (fun s bs => rps_ok num num sets 15 s /\ bs = enc_rps num num s).
Proof.
  intros Hn Ho HL b W. pose proof (sets_ok_out _ _ Hn Ho) as So. pose proof (wp_rps num num sets 15 So ltac:(lia) b W) as H1.
  assert (H2 : Forall poc_limits sets -> sets_bounded (bound 64) sets).
  { intros F. destruct Ho as [O D]. eapply std_sets_bounded; [exact Hn|]. split; [exact O|]. auto. }
  destruct (ParseStRefPicSet num num sets 15 b) as [s b'|b'|e] eqn:E1; [exact H1|exact H1|].
  cbn in H1. subst e. destruct HL as [F|HL]; [|apply HL].
  pose proof (wp_rps_bounded (bound 64) num num sets 15 So ltac:(lia) (H2 F) b W) as H3. rewrite E1 in H3. destruct H3.
Qed.

Lemma wp_slice (E : errs) st nut : state_ok st -> ovf_in E -> (pocs_ok st \/ forall l, E SignedOverflow l) ->
  wp E (ParseSliceSegmentHeader nut st) (fun h bs => exists p s, refers_to st (slice_pic_parameter_set_id h) p s /\
    slice_ok false (own_rps s) nut s p h /\ agree bs (enc_slice false nut s p h)).
Proof.
  intros [Hs Hp] HE HL. unfold ParseSliceSegmentHeader, irap_type. do 3 astep.
  destruct (st_pps st a1) as [[p xp]|] eqn:Ep; [|apply wp_fail]. destruct (st_sps st (pps_seq_parameter_set_id p)) as [[s xs]|] eqn:Es; [|apply wp_fail].
  pose proof (Hs _ _ _ Es) as Os. pose proof (Hp _ _ _ Ep) as Op. pose proof (sps_facts_of _ _ _ Os) as Fs. pose proof (pps_facts_of _ _ _ Op) as Fp.
  unfold slice_rest, idr_type, SliceType_P, SliceType_B. rewrite (sf_lsb_len s Fs), (sf_size s Fs), (sf_cat s Fs), (sf_mv s Fs). change ceil_log2 with CeilLog2.
  pose proof (CeilLog2_range (num_short_term_ref_pic_sets s)) as R1. pose proof (sf_len s Fs) as R2. pose proof (sf_nst s Fs) as R3.
  pose proof (sf_lsb s Fs) as R4.
  assert (Wr : wp E (ParseStRefPicSet (num_short_term_ref_pic_sets s) (num_short_term_ref_pic_sets s) (sps_st_ref_pic_set s) 15)
    (fun r bs => rps_ok (num_short_term_ref_pic_sets s) (num_short_term_ref_pic_sets s) (sps_st_ref_pic_set s) 15 r /\
       bs = enc_rps (num_short_term_ref_pic_sets s) (num_short_term_ref_pic_sets s) r)).
  { apply wp_own_rps; [exact R3| |].
    - unfold sps_ok_out, sps_ok in Os. cbv zeta in Os. tauto.
    - destruct HL as [HL|HL]; [left; eapply HL; exact Es|auto]. }
  astep. rewrite (size_step _ s _ Fs). repeat astep.
  eapply wpa_bind; [apply wpa_exact, wp_err, wp_veci_when; intros _ j Hj; apply (wp_lt_entry s a12 j Fs)|]. intros lts bl Hl Al.
  repeat astep. rewrite (act_step _ p _ Fp). cbv beta. rewrite nz_if. repeat astep. rewrite (height_step s p _ Fs). repeat astep.
  { match goal with H1 : optf ?c (ue_le 31) _ _, H2 : ?c = true |- _ => rewrite H2 in H1; unfold optf, ue_le in H1; lia end. }
  apply wp_ret. exists p, s. split; [split; cbn; eauto|]. unfold slice_ok, enc_slice, own_rps, inferred. cbn. split; [conjs|agrees].
  - destruct (nz (tiles_enabled_flag p) || nz (entropy_coding_sync_enabled_flag p)) eqn:Hep; [|reflexivity]. cbn [negb orb] in *.
    rewrite <- (ep_valid s p); try assumption. unfold optf, ue_ok in *. lia.
  - reflexivity.
  - reflexivity.
Qed.

Lemma sps_in_out s : sps_ok_in s -> sps_ok_out s.
Proof.
  intros O. unfold sps_ok_in in O. unfold sps_ok_out. assert (M : forall o, is_some (scaling_list_data_ok sl_range) o -> is_some (scaling_list_data_ok se_ok) o).
  { intros [d|]; unfold is_some; [|auto]. apply scaling_list_data_mono. unfold sl_range, se_ok. intros; lia. }
  unfold sps_ok in *. cbv zeta in *. repeat (destruct O as [?H O]). repeat (split; [first [assumption | idtac]|]); try assumption.
  - unfold optf in *. destruct (nz (scaling_list_enabled_flag s) && nz (sps_scaling_list_data_present_flag s)); auto.
  - match goal with H : rps_sets_std _ _ |- _ => apply H end.
  - match goal with H : rps_sets_std _ _ |- _ => apply H end.
  - match goal with H : rps_sets_std _ _ |- _ => intros _; apply H end.
Qed.
Lemma parses_own_rps s r : sps_ok_in s -> own_rps_std s r ->
  parses (ParseStRefPicSet (num_short_term_ref_pic_sets s) (num_short_term_ref_pic_sets s) (sps_st_ref_pic_set s) 15)
    (enc_rps (num_short_term_ref_pic_sets s) (num_short_term_ref_pic_sets s) r) r.
Proof.
  intros O [H1 H2]. assert (A : 0 <= num_short_term_ref_pic_sets s <= 64 /\ rps_sets_std (num_short_term_ref_pic_sets s) (sps_st_ref_pic_set s)).
  { unfold sps_ok_in, sps_ok in O. cbv zeta in O. change (ue_le 64 (num_short_term_ref_pic_sets s)) with (0 <= num_short_term_ref_pic_sets s <= 64) in O. tauto. }
  destruct A as [An As]. apply (parses_rps (bound 64)); try assumption; [|lia|eapply std_sets_bounded; eassumption].
  apply sets_ok_out; [exact An|]. destruct As as (? & ? & ?). split; auto.
Qed.
