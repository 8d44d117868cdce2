(** Facts about the RTP parsers, the configuration box parser and GetSliceQpY (MRtp.v). *)
From Coq Require Import ZArith List Bool Lia ZifyBool ZifyNat.
From Verif Require Import MBase MBitBuffer Spec BitsFacts Reader ReaderFacts Rules Syntax SyntaxSe MCommon CommonFacts PropsBits PropsCommon
  MFraming FramingFacts PropsFraming MSyntaxA SpecA FactsA Api PropsA MSyntaxB SpecB FactsB FactsRps PropsB MSps SpecSps FactsSps PropsSps
  MPps SpecPps FactsPps PropsPps MSlice SpecSlice FactsSlice PropsSlice MSei SpecSei FactsSei PropsSei MNal FactsNal PropsNal MRtp.
Import ListNotations.
Open Scope Z_scope.
Ltac Zify.zify_post_hook ::= Z.div_mod_to_equations.

(** * Safety of functions with a state *)
(** From any reader position and any store the parser can produce: no undefined behaviour but signed overflow, the position only moves
    forward, the new store is of the same kind; reference picture sets beyond the limits and overflows need bits with property [Z].
    (For buffers with at most [N] bits left.) *)
Definition ssafe (N : nat) (Z : list bool -> Prop) {A} (m : SM A) : Prop := forall st b, wf b -> store_ok st -> (length (rem b) <= N)%nat ->
  match m st b with
  | Ok (_, st') b' => (exists bs, steps b b' bs) /\ store_ok st' /\ (pocs_ok st -> pocs_ok st' \/ Z (rem b))
  | Fail _ => False
  | Err e => e = SignedOverflow /\ (pocs_ok st -> Z (rem b))
  end.
Definition suffix_closed (Z : list bool -> Prop) : Prop := forall l1 l2, Z l2 -> Z (l1 ++ l2).

Lemma ssafe_ret N Z {A} (a : A) : ssafe N Z (sret a).
Proof. intros st b W S L. cbn. split; [exists []; apply steps_refl, W|auto]. Qed.
Lemma ssafe_fail N Z {A} : ssafe N Z (@sfail A).
Proof. intros st b W S L. cbn. split; [exists []; apply steps_refl, W|auto]. Qed.
Lemma ssafe_bind N Z {A B} (m : SM A) (f : A -> SM B) : suffix_closed Z -> ssafe N Z m -> (forall a, ssafe N Z (f a)) -> ssafe N Z (sbind m f).
Proof.
  intros C Hm Hf st b W S L. unfold sbind, bind. specialize (Hm st b W S L). destruct (m st b) as [[[a|] st1] b1|b1|e]; [| |exact Hm|exact Hm].
  - destruct Hm as ((bs & T) & S1 & P1). assert (L1 : (length (rem b1) <= N)%nat) by (destruct T as [T _]; rewrite T, app_length in L; lia).
    specialize (Hf a st1 b1 (steps_wf _ _ _ W T) S1 L1). destruct (f a st1 b1) as [[o st2] b2|b2|e]; [| exact Hf|].
    + destruct Hf as ((bs2 & T2) & S2 & P2). split; [eexists; eapply steps_trans; eassumption|]. split; [exact S2|]. intros P. destruct T as [T _]. rewrite T.
      destruct (P1 P) as [Q|Q]; [|rewrite T in Q; right; exact Q]. destruct (P2 Q) as [Q'|Q']; [left; exact Q'|right; apply C, Q'].
    + destruct Hf as [-> P2]. split; [reflexivity|]. intros P. destruct T as [T _]. destruct (P1 P) as [Q|Q]; [|exact Q]. rewrite T. apply C. auto.
  - cbn. exact Hm.
Qed.
Lemma ssafe_lift N Z {A} (m : M A) Q : wp no_err m Q -> ssafe N Z (lift m).
Proof.
  intros H st b W S L. unfold lift, bind, attempt. specialize (H b W). destruct (m b) as [a b'|b'|e]; [| |destruct H]; cbn.
  - destruct H as (bs & T & _). split; [eexists; exact T|auto].
  - destruct H as (bs & T). split; [eexists; exact T|auto].
Qed.
Lemma ssafe_remaining N Z : ssafe N Z (lift (fun b => Ok (remaining b) b)).
Proof. intros st b W S L. cbn. split; [exists []; apply steps_refl, W|auto]. Qed.
Lemma suffix_zrun n : suffix_closed (zrun n).
Proof. intros l1 l2. apply zrun_app_r. Qed.
Lemma ssafe_payload N ty : ssafe N (zrun 24) (ParseNalUnitPayload ty).
Proof.
  intros st b W S L. rewrite payload_spec. destruct (payload_fault ty st b) as [e|] eqn:F.
  - exact (payload_fault_ovf _ _ _ _ W (store_state_ok _ S) F).
  - split; [exact (payload_stop_steps _ _ _ W (store_state_ok _ S) F)|]. split; [apply payload_store_ok; assumption|]. intros P. apply payload_pocs_ok; assumption.
Qed.
Lemma ssafe_header N Z : ssafe N Z (lift ParseNalUnitHeader).
Proof. eapply ssafe_lift, wp_nal_header. Qed.
Lemma ssafe_u N Z n : 0 < n -> ssafe N Z (lift (ReadBits n)).
Proof. intros H. eapply ssafe_lift, (wp_u_ok n H). Qed.

Lemma ssafe_single N : ssafe N (zrun 24) ParseRtpSingleBuffer.
Proof.
  unfold ParseRtpSingleBuffer. apply ssafe_bind; [apply suffix_zrun|apply ssafe_header|intros h].
  apply ssafe_bind; [apply suffix_zrun|apply ssafe_payload|intros p]. apply ssafe_ret.
Qed.
Lemma ssafe_fu N : ssafe N (zrun 24) ParseRtpFuBuffer.
Proof.
  unfold ParseRtpFuBuffer. apply ssafe_bind; [apply suffix_zrun|apply ssafe_header|intros h].
  apply ssafe_bind; [apply suffix_zrun|apply ssafe_u; lia|intros s]. apply ssafe_bind; [apply suffix_zrun|apply ssafe_u; lia|intros e].
  apply ssafe_bind; [apply suffix_zrun|apply ssafe_u; lia|intros t]. destruct (s =? 0); [apply ssafe_ret|].
  apply ssafe_bind; [apply suffix_zrun|apply ssafe_payload|intros p]. apply ssafe_ret.
Qed.

(** Reading in the middle of a buffer. *)
Lemma header_at b : wf b -> (16 <= length (rem b))%nat -> exists h, nal_header_ok h /\ firstn 16 (rem b) = enc_nal_header h /\
  ParseNalUnitHeader b = Ok h (adv b 16) /\ wf (adv b 16) /\ rem (adv b 16) = skipn 16 (rem b).
Proof.
  intros W L. destruct (proj2 (C20_succeeds_iff_16_bits b W)) as (h & b' & E); [rewrite remaining_spec by exact W; lia|].
  destruct (C20_exact b W) as [H1 H2]. pose proof (proj1 (H2 h b') E) as (Hh & (rest & Er) & ->). rewrite enc_nal_header_length in *.
  exists h. split; [exact Hh|]. split; [|split; [exact E|]].
  - rewrite Er. rewrite firstn_app, enc_nal_header_length, Nat.sub_diag, firstn_O, app_nil_r. apply firstn_all2. rewrite enc_nal_header_length. lia.
  - rewrite E in H1. split; [apply H1|apply rem_adv, W].
Qed.
Lemma header_short b : wf b -> (length (rem b) < 16)%nat -> exists b' bs, ParseNalUnitHeader b = Fail b' /\ steps b b' bs.
Proof.
  intros W L. pose proof (wp_nal_header b W) as H. destruct (ParseNalUnitHeader b) as [h b'|b'|e] eqn:E; [| |destruct H].
  - assert (16 <= remaining b) by (apply C20_succeeds_iff_16_bits; eauto). rewrite remaining_spec in * by exact W. lia.
  - destruct H as (bs & S). eauto.
Qed.
Lemma u_at n b : wf b -> 0 < n <= 32 -> (Z.to_nat n <= length (rem b))%nat -> exists v, u_ok n v /\ firstn (Z.to_nat n) (rem b) = enc_u (Z.to_nat n) v /\
  ReadBits n b = Ok v (adv b (Z.to_nat n)) /\ wf (adv b (Z.to_nat n)) /\ rem (adv b (Z.to_nat n)) = skipn (Z.to_nat n) (rem b).
Proof.
  intros W Hn L. set (l := firstn (Z.to_nat n) (rem b)). assert (Ll : length l = Z.to_nat n) by (apply firstn_length_le; exact L).
  exists (bval l). assert (E : enc_u (Z.to_nat n) (bval l) = l) by (apply enc_u_bval_n, Ll). assert (U : u_ok n (bval l)).
  { unfold u_ok. pose proof (bval_range l) as B. rewrite Ll in B. rewrite Z2Nat.id in B by lia. exact B. }
  assert (R : rem b = enc_u (Z.to_nat n) (bval l) ++ skipn (Z.to_nat n) (rem b)) by (rewrite E; symmetry; apply firstn_skipn).
  pose proof (parses_u_ok n _ Hn U b _ W R) as P. rewrite length_enc_u in P. split; [exact U|]. split; [symmetry; exact E|]. split; [exact P|].
  split; [|apply rem_adv, W]. pose proof (wf_adv_app _ _ _ W R) as W'. rewrite length_enc_u in W'. exact W'.
Qed.
Lemma u_short n b : wf b -> 0 < n -> (length (rem b) < Z.to_nat n)%nat -> exists b' bs, ReadBits n b = Fail b' /\ steps b b' bs.
Proof.
  intros W Hn L. pose proof (wp_u_ok n Hn b W) as H. destruct (ReadBits n b) as [v b'|b'|e]; [| |destruct H].
  - destruct H as (bs & [S _] & _ & ->). apply (f_equal (@length bool)) in S. rewrite app_length, length_enc_u in S. lia.
  - destruct H as (bs & S). eauto.
Qed.

(** * Aggregation packets *)
Lemma ap_loop_eq fuel st b : ap_loop fuel st b = if negb (0 <? remaining b) then sret [] st b else
  match fuel with
  | O => Err OutOfFuel
  | S f =>
    (size <~ lift (ReadBits 16) ;; rem <~ lift (fun b => Ok (remaining b) b) ;;
     (if rem <? u32 (size * 8) then sfail else
      h <~ lift ParseNalUnitHeader ;; p <~ ParseNalUnitPayload (nal_unit_type h) ;; us <~ ap_loop f ;; sret (mkAU size h p :: us)))%smonad st b
  end.
Proof. destruct fuel; reflexivity. Qed.
Lemma ssafe_ap_loop : forall fuel, ssafe fuel (zrun 24) (ap_loop fuel).
Proof.
  induction fuel as [|fuel IH]; intros st b W S L; rewrite ap_loop_eq; rewrite remaining_spec by exact W.
  - replace (0 <? Z.of_nat (length (rem b))) with false by lia. apply (ssafe_ret 0 (zrun 24) []); assumption.
  - destruct (0 <? Z.of_nat (length (rem b))) eqn:N; cbn [negb]; [|apply (ssafe_ret (Datatypes.S fuel) (zrun 24) []); assumption].
    destruct (le_lt_dec 16 (length (rem b))) as [L16|L16].
    2:{ destruct (u_short 16 b W ltac:(lia) ltac:(lia)) as (b' & bs & E & T). unfold sbind at 1, lift at 1, bind, attempt. rewrite E. cbn. split; [eauto|auto]. }
    destruct (u_at 16 b W ltac:(lia) ltac:(lia)) as (size & Hs & Es & E & W1 & R1). unfold sbind at 1, lift at 1. unfold bind at 1 2. unfold attempt. rewrite E. unfold ret at 1.
    change (Z.to_nat 16) with 16%nat in *.
    assert (T : steps b (adv b 16) (firstn 16 (rem b))) by (split; [rewrite R1; symmetry; apply firstn_skipn|rewrite firstn_length_le by lia; reflexivity]).
    assert (L1 : (length (rem (adv b 16)) <= fuel)%nat) by (rewrite R1, skipn_length; lia).
    assert (G : ssafe fuel (zrun 24) (rem <~ lift (fun b0 => Ok (remaining b0) b0);; (if rem <? u32 (size * 8) then sfail
       else h <~ lift ParseNalUnitHeader;; p <~ ParseNalUnitPayload (nal_unit_type h);; us <~ ap_loop fuel;; sret (mkAU size h p :: us)))%smonad).
    { apply ssafe_bind; [apply suffix_zrun|apply ssafe_remaining|intros r]. destruct (r <? u32 (size * 8)); [apply ssafe_fail|].
      apply ssafe_bind; [apply suffix_zrun|apply ssafe_header|intros h]. apply ssafe_bind; [apply suffix_zrun|apply ssafe_payload|intros p].
      apply ssafe_bind; [apply suffix_zrun|exact IH|intros us]. apply ssafe_ret. }
    specialize (G st (adv b 16) W1 S L1). destruct T as [T1 T2].
    match type of G with match ?x with _ => _ end => destruct x as [[o st2] b2|b2|e] end; [|exact G|].
    + destruct G as ((bs & T) & S2 & P). split; [eexists; eapply steps_trans; [split; eassumption|exact T]|]. split; [exact S2|]. intros Q.
      destruct (P Q) as [Q1|Q1]; [left; exact Q1|right]. rewrite T1. apply zrun_app_r, Q1.
    + destruct G as [-> P]. split; [reflexivity|]. intros Q. rewrite T1. apply zrun_app_r. auto.
Qed.
Lemma ssafe_ap N : ssafe N (zrun 24) ParseRtpApBuffer.
Proof.
  unfold ParseRtpApBuffer. apply ssafe_bind; [apply suffix_zrun|apply ssafe_header|intros h].
  apply ssafe_bind; [apply suffix_zrun| |intros us; apply ssafe_ret]. intros st b W S L. apply ssafe_ap_loop; try assumption. rewrite remaining_spec by exact W. lia.
Qed.

(** * Inversion and computation for functions with a state *)
Lemma sbind_some {A B} (m : SM A) (f : A -> SM B) st b r st' b' : sbind m f st b = Ok (Some r, st') b' ->
  exists a st1 b1, m st b = Ok (Some a, st1) b1 /\ f a st1 b1 = Ok (Some r, st') b'.
Proof. unfold sbind, bind. destruct (m st b) as [[[a|] st1] b1|b1|e]; intros E; try discriminate. eauto. Qed.
Lemma sbind_eq {A B} (m : SM A) (f : A -> SM B) st b a st1 b1 : m st b = Ok (Some a, st1) b1 -> sbind m f st b = f a st1 b1.
Proof. intros E. unfold sbind, bind. rewrite E. reflexivity. Qed.
Lemma sbind_none {A B} (m : SM A) (f : A -> SM B) st b st1 b1 : m st b = Ok (None, st1) b1 -> sbind m f st b = Ok (None, st1) b1.
Proof. intros E. unfold sbind, bind. rewrite E. reflexivity. Qed.
Lemma sbind_err {A B} (m : SM A) (f : A -> SM B) st b e : m st b = Err e -> sbind m f st b = Err e.
Proof. intros E. unfold sbind, bind. rewrite E. reflexivity. Qed.
Lemma lift_some {A} (m : M A) st b a st1 b1 : lift m st b = Ok (Some a, st1) b1 -> st1 = st /\ m b = Ok a b1.
Proof. unfold lift, bind, attempt. destruct (m b); intros E; try discriminate. injection E as -> -> ->. auto. Qed.
Lemma lift_eq {A} (m : M A) st b a b1 : m b = Ok a b1 -> lift m st b = Ok (Some a, st) b1.
Proof. intros E. unfold lift, bind, attempt. rewrite E. reflexivity. Qed.
Lemma lift_fail {A} (m : M A) st b b1 : m b = Fail b1 -> lift m st b = Ok (None, st) b1.
Proof. intros E. unfold lift, bind, attempt. rewrite E. reflexivity. Qed.
Lemma lift_parses {A B} (m : M A) (f : A -> SM B) st b bs a rest : wf b -> rem b = bs ++ rest -> parses m bs a ->
  sbind (lift m) f st b = f a st (adv b (length bs)).
Proof. intros W R P. apply sbind_eq, lift_eq, (P b rest W R). Qed.

(** * Configuration box *)
(** ISO/IEC 14496-15 8.3.2.1.2 HEVCDecoderConfigurationRecord *)
Definition enc_hvcc_header (h : hvcc_header) : list bool := concat [
  enc_u 8 1; enc_u 2 (general_profile_space h); enc_u 1 (general_tier_flag h); enc_u 5 (general_profile_idc h);
  flat_map (enc_u 1) (general_profile_compatibility_flags h); enc_u 48 (general_constraint_indicator_flags h);
  enc_u 8 (general_level_idc h); enc_u 4 15; enc_u 12 (min_spatial_segmentation_idc h); enc_u 6 63; enc_u 2 (parallelismType h);
  enc_u 6 63; enc_u 2 (hvcc_chroma_format_idc h); enc_u 5 31; enc_u 3 (hvcc_bit_depth_luma_minus8 h);
  enc_u 5 31; enc_u 3 (hvcc_bit_depth_chroma_minus8 h); enc_u 16 (avgFrameRate h); enc_u 2 (constantFrameRate h);
  enc_u 3 (numTemporalLayers h); enc_u 1 (temporalIdNested h); enc_u 2 (lengthSizeMinusOne h); enc_u 8 (numOfArrays h)].
Definition hvcc_header_ok (h : hvcc_header) : Prop :=
  u_ok 2 (general_profile_space h) /\ u_ok 1 (general_tier_flag h) /\ u_ok 5 (general_profile_idc h) /\
  vec 32 (u_ok 1) (general_profile_compatibility_flags h) /\ u_ok 48 (general_constraint_indicator_flags h) /\
  u_ok 8 (general_level_idc h) /\ u_ok 12 (min_spatial_segmentation_idc h) /\ u_ok 2 (parallelismType h) /\
  u_ok 2 (hvcc_chroma_format_idc h) /\ u_ok 3 (hvcc_bit_depth_luma_minus8 h) /\ u_ok 3 (hvcc_bit_depth_chroma_minus8 h) /\
  u_ok 16 (avgFrameRate h) /\ u_ok 2 (constantFrameRate h) /\ u_ok 3 (numTemporalLayers h) /\ u_ok 1 (temporalIdNested h) /\
  u_ok 2 (lengthSizeMinusOne h) /\ u_ok 8 (numOfArrays h).
Record box_array : Type := mkBA { ba_completeness : Z; ba_type : Z; ba_nals : list (list Z) }.
Definition enc_box_nal (x : list Z) : list bool := enc_u 16 (Z.of_nat (length x)) ++ bits_of x.
Definition enc_box_array (a : box_array) : list bool :=
  enc_u 1 (ba_completeness a) ++ enc_u 1 0 ++ enc_u 6 (ba_type a) ++ enc_u 16 (Z.of_nat (length (ba_nals a))) ++ flat_map enc_box_nal (ba_nals a).
Definition box_nal_ok (x : list Z) : Prop := Forall is_byte x /\ Z.of_nat (length x) < 2 ^ 16.
Definition box_array_ok (a : box_array) : Prop :=
  u_ok 1 (ba_completeness a) /\ u_ok 6 (ba_type a) /\ Z.of_nat (length (ba_nals a)) < 2 ^ 16 /\ Forall box_nal_ok (ba_nals a).
Definition enc_box (h : hvcc_header) (arrs : list box_array) : list bool := enc_hvcc_header h ++ flat_map enc_box_array arrs.
Definition box_ok (h : hvcc_header) (arrs : list box_array) : Prop :=
  hvcc_header_ok h /\ numOfArrays h = Z.of_nat (length arrs) /\ Forall box_array_ok arrs.

Lemma parses_u64 n v : 0 < n <= 64 -> u_ok n v -> parses (ReadBits64 n) (enc_u (Z.to_nat n) v) v.
Proof.
  intros Hn Hv b rest W R. rewrite ReadBits64_spec by (assumption || lia). rewrite R, app_length, length_enc_u.
  replace (_ && _) with true by lia. rewrite firstn_app, length_enc_u, Nat.sub_diag, firstn_O, app_nil_r, firstn_all2 by (rewrite length_enc_u; lia).
  rewrite bval_enc_u, Z2Nat.id by lia. unfold u_ok in Hv. rewrite Z.mod_small by exact Hv. reflexivity.
Qed.
Lemma wp_u64 n : 0 < n -> wp no_err (ReadBits64 n) (fun v bs => u_ok n v /\ bs = enc_u (Z.to_nat n) v).
Proof.
  intros Hn b W. rewrite ReadBits64_spec by (assumption || lia). destruct (_ && _) eqn:C; [|exists []; apply steps_refl, W].
  assert (Ll : length (firstn (Z.to_nat n) (rem b)) = Z.to_nat n) by (apply firstn_length_le; lia).
  exists (firstn (Z.to_nat n) (rem b)). split; [split; [rewrite rem_adv by exact W; symmetry; apply firstn_skipn|rewrite Ll; reflexivity]|].
  split; [|symmetry; apply enc_u_bval_n, Ll]. unfold u_ok. pose proof (bval_range (firstn (Z.to_nat n) (rem b))) as B. rewrite Ll, Z2Nat.id in B by lia. exact B.
Qed.
Lemma parses_fixed n v : 0 < n <= 32 -> u_ok n v -> parses (ReadFixed n v) (enc_u (Z.to_nat n) v) tt.
Proof.
  intros Hn Hv. unfold ReadFixed. rewrite <- (app_nil_r (enc_u _ _)). eapply parses_bind; [apply parses_u_ok; assumption|].
  unfold guard. rewrite Z.eqb_refl. apply parses_ret.
Qed.
Lemma wp_fixed n v : 0 < n -> wp no_err (ReadFixed n v) (fun _ bs => bs = enc_u (Z.to_nat n) v).
Proof.
  intros Hn. unfold ReadFixed. eapply wp_bind; [apply wp_u_ok, Hn|]. cbv beta. intros x bs [Hx ->]. unfold guard. destruct (Z.eqb_spec x v) as [->|N].
  - apply wp_ret. rewrite app_nil_r. reflexivity.
  - apply wp_fail.
Qed.
Lemma parses_hvcc_header h : hvcc_header_ok h -> parses ParseHvccHeader (enc_hvcc_header h) h.
Proof.
  destruct h as [f1 f2 f3 f4 f5 f6 f7 f8 f9 f10 f11 f12 f13 f14 f15 f16 f17]. unfold hvcc_header_ok, enc_hvcc_header. cbn [general_profile_space general_tier_flag general_profile_idc general_profile_compatibility_flags
    general_constraint_indicator_flags general_level_idc min_spatial_segmentation_idc parallelismType hvcc_chroma_format_idc hvcc_bit_depth_luma_minus8
    hvcc_bit_depth_chroma_minus8 avgFrameRate constantFrameRate numTemporalLayers temporalIdNested lengthSizeMinusOne numOfArrays].
  intros H. split_hyps. unfold ParseHvccHeader. cbn [concat].
  repeat (first
    [ eapply parses_bind; [first [apply (parses_u_ok 2); [lia|assumption]|apply (parses_u_ok 1); [lia|assumption]|apply (parses_u_ok 5); [lia|assumption]|
        apply (parses_u_ok 8); [lia|assumption]|apply (parses_u_ok 12); [lia|assumption]|apply (parses_u_ok 3); [lia|assumption]|apply (parses_u_ok 16); [lia|assumption]
        |apply (parses_fixed 8); [lia|unfold u_ok; lia]|apply (parses_fixed 4); [lia|unfold u_ok; lia]|apply (parses_fixed 6); [lia|unfold u_ok; lia]|apply (parses_fixed 5); [lia|unfold u_ok; lia]
        |apply (parses_u64 48); [lia|assumption]
        |eapply (parses_vec _ _ (u_ok 1)); [eassumption|intros i a Ha; apply (parses_u_ok 1); [lia|exact Ha]]]|] ]).
  apply parses_ret.
Qed.
Lemma wp_hvcc_header : wp no_err ParseHvccHeader (fun h bs => hvcc_header_ok h /\ bs = enc_hvcc_header h).
Proof.
  unfold ParseHvccHeader.
  Ltac hstep := first
   [ eapply wp_bind; [apply wp_fixed; lia|]; cbv beta; intros ? ? ->
   | eapply wp_bind; [apply wp_u_ok; lia|]; cbv beta; intros ? ? [? ->]
   | eapply wp_bind; [apply wp_u64; lia|]; cbv beta; intros ? ? [? ->]
   | eapply wp_bind; [apply (wp_vec no_err 32 (fun _ => ReadBits 1) (u_ok 1) (enc_u 1)); intros; apply (wp_u_ok 1); lia|]; cbv beta; intros ? ? [? ->] ].
  repeat hstep. apply wp_ret. unfold hvcc_header_ok, enc_hvcc_header. cbn [general_profile_space general_tier_flag general_profile_idc general_profile_compatibility_flags
    general_constraint_indicator_flags general_level_idc min_spatial_segmentation_idc parallelismType hvcc_chroma_format_idc hvcc_bit_depth_luma_minus8
    hvcc_bit_depth_chroma_minus8 avgFrameRate constantFrameRate numTemporalLayers temporalIdNested lengthSizeMinusOne numOfArrays concat].
  split; [repeat (split; [assumption|]); assumption|]. reflexivity.
Qed.
Lemma byte_bits_enc x : byte_bits x = enc_u 8 x.
Proof. reflexivity. Qed.
Lemma bits_of_enc l : bits_of l = flat_map (enc_u 8) l.
Proof. reflexivity. Qed.
Lemma is_byte_ok l : Forall is_byte l <-> Forall (u_ok 8) l.
Proof. split; intros H; eapply Forall_impl; try exact H; intros a; unfold is_byte, u_ok; lia. Qed.

Lemma nalu_parses opts st b x rest : wf b -> box_nal_ok x -> rem b = enc_box_nal x ++ rest -> ParseHvccNalu opts st b =
  match ParseNalUnit opts x st with
  | Bad e => Err e
  | Done (u, st') => Ok (Some (Z.of_nat (length x), u), st') (adv b (length (enc_box_nal x)))
  end.
Proof.
  intros W [F L] R. unfold enc_box_nal in *. rewrite <- app_assoc in R. unfold ParseHvccNalu.
  rewrite (lift_parses _ _ _ _ _ (Z.of_nat (length x)) _ W R) by (apply (parses_u_ok 16); [lia|unfold u_ok; lia]).
  pose proof (wf_adv_app _ _ _ W R) as W1. pose proof (rem_adv_app _ _ _ W R) as R1.
  rewrite (lift_parses _ _ _ _ _ x _ W1 R1) by (rewrite bits_of_enc; apply parses_bytes; [apply is_byte_ok, F|reflexivity]).
  rewrite adv_adv. rewrite <- app_length. unfold sbind, scall, bind. destruct (ParseNalUnit opts x st) as [[u st']|e]; reflexivity.
Qed.
Lemma nalu_sound opts st b r st' b' : wf b -> ParseHvccNalu opts st b = Ok (Some r, st') b' -> exists x rest, box_nal_ok x /\ rem b = enc_box_nal x ++ rest.
Proof.
  intros W E. unfold ParseHvccNalu in E. apply sbind_some in E. destruct E as (len & st1 & b1 & E1 & E). apply lift_some in E1. destruct E1 as [-> E1].
  apply sbind_some in E. destruct E as (x & st2 & b2 & E2 & _). apply lift_some in E2. destruct E2 as [-> E2].
  pose proof (wp_u_ok 16 ltac:(lia) b W) as H1. rewrite E1 in H1. destruct H1 as (bs1 & S1 & U1 & ->).
  pose proof (wp_bytes len b1 (steps_wf _ _ _ W S1)) as H2. unfold ReadBytes in E2. rewrite E2 in H2. destruct H2 as (bs2 & [S2 _] & [L2 F2] & ->).
  exists x, (rem b2). unfold u_ok in U1. split; [split; [apply is_byte_ok, F2|lia]|]. destruct S1 as [-> _]. rewrite S2. unfold enc_box_nal. rewrite <- app_assoc.
  replace (Z.of_nat (length x)) with len by lia. reflexivity.
Qed.
Lemma nalus_parses opts : forall nals st b rest, wf b -> Forall box_nal_ok nals -> rem b = flat_map enc_box_nal nals ++ rest ->
  scollect (length nals) (ParseHvccNalu opts) st b =
  match parse_all opts nals st with
  | Bad e => Err e
  | Done (us, st') => Ok (Some (combine (map (fun x => Z.of_nat (length x)) nals) us), st') (adv b (length (flat_map enc_box_nal nals)))
  end.
Proof.
  induction nals as [|x nals IH]; intros st b rest W F R.
  - cbn. rewrite adv_0 by exact W. reflexivity.
  - inversion F as [|? ? Fx F']; subst. change (flat_map enc_box_nal (x :: nals)) with (enc_box_nal x ++ flat_map enc_box_nal nals) in *. rewrite <- app_assoc in R.
    cbn [length scollect]. pose proof (nalu_parses opts st b x _ W Fx R) as E. cbn [parse_all]. destruct (ParseNalUnit opts x st) as [[u st1]|e].
    + rewrite (sbind_eq _ _ _ _ _ _ _ E). specialize (IH st1 _ _ (wf_adv_app _ _ _ W R) F' (rem_adv_app _ _ _ W R)).
      destruct (parse_all opts nals st1) as [[us st2]|e].
      * rewrite (sbind_eq _ _ _ _ _ _ _ IH). rewrite adv_adv. rewrite <- app_length. reflexivity.
      * apply sbind_err, IH.
    + apply sbind_err, E.
Qed.
Lemma nalus_sound opts : forall n st b r st' b', wf b -> scollect n (ParseHvccNalu opts) st b = Ok (Some r, st') b' ->
  exists nals rest, length nals = n /\ Forall box_nal_ok nals /\ rem b = flat_map enc_box_nal nals ++ rest.
Proof.
  induction n as [|n IH]; intros st b r st' b' W E.
  - exists [], (rem b). auto.
  - cbn [scollect] in E. apply sbind_some in E. destruct E as (y & st1 & b1 & E1 & E). apply sbind_some in E. destruct E as (l & st2 & b2 & E2 & _).
    destruct (nalu_sound _ _ _ _ _ _ W E1) as (x & rest & Hx & R). rewrite (nalu_parses opts st b x rest W Hx R) in E1.
    destruct (ParseNalUnit opts x st) as [[u st3]|e]; [|discriminate]. injection E1 as <- <- <-.
    destruct (IH _ _ _ _ _ (wf_adv_app _ _ _ W R) E2) as (nals & rest' & Hl & F & R'). exists (x :: nals), rest'. split; [cbn; lia|]. split; [constructor; assumption|].
    rewrite (rem_adv_app _ _ _ W R) in R'. rewrite R, R'. change (flat_map enc_box_nal (x :: nals)) with (enc_box_nal x ++ flat_map enc_box_nal nals). apply app_assoc.
Qed.

Definition array_of (a : box_array) (us : list (option nal_unit)) : hvcc_array :=
  mkHA (ba_completeness a) (ba_type a) (combine (map (fun x => Z.of_nat (length x)) (ba_nals a)) us).
Lemma array_parses opts st b a rest : wf b -> box_array_ok a -> rem b = enc_box_array a ++ rest -> ParseHvccArray opts st b =
  match parse_all opts (ba_nals a) st with
  | Bad e => Err e
  | Done (us, st') => Ok (Some (array_of a us), st') (adv b (length (enc_box_array a)))
  end.
Proof.
  intros W (H1 & H2 & H3 & H4) R. unfold enc_box_array in *. rewrite <- !app_assoc in R. unfold ParseHvccArray.
  rewrite (lift_parses _ _ _ _ _ _ _ W R) by (apply (parses_u_ok 1); [lia|exact H1]).
  pose proof (wf_adv_app _ _ _ W R) as W1. pose proof (rem_adv_app _ _ _ W R) as R1.
  rewrite (lift_parses _ _ _ _ _ _ _ W1 R1) by (apply (parses_fixed 1); [lia|unfold u_ok; lia]).
  pose proof (wf_adv_app _ _ _ W1 R1) as W2. pose proof (rem_adv_app _ _ _ W1 R1) as R2.
  rewrite (lift_parses _ _ _ _ _ _ _ W2 R2) by (apply (parses_u_ok 6); [lia|exact H2]).
  pose proof (wf_adv_app _ _ _ W2 R2) as W3. pose proof (rem_adv_app _ _ _ W2 R2) as R3.
  rewrite (lift_parses _ _ _ _ _ (Z.of_nat (length (ba_nals a))) _ W3 R3) by (apply (parses_u_ok 16); [lia|unfold u_ok; lia]).
  pose proof (wf_adv_app _ _ _ W3 R3) as W4. pose proof (rem_adv_app _ _ _ W3 R3) as R4.
  rewrite Nat2Z.id. pose proof (nalus_parses opts (ba_nals a) st _ _ W4 H4 R4) as E. destruct (parse_all opts (ba_nals a) st) as [[us st1]|e].
  - rewrite (sbind_eq _ _ _ _ _ _ _ E). rewrite !adv_adv. rewrite !app_length. unfold sret, ret. do 2 f_equal.
  - apply sbind_err, E.
Qed.
Lemma array_sound opts st b r st' b' : wf b -> ParseHvccArray opts st b = Ok (Some r, st') b' -> exists a rest, box_array_ok a /\ rem b = enc_box_array a ++ rest.
Proof.
  intros W E. unfold ParseHvccArray in E.
  apply sbind_some in E. destruct E as (c & st1 & b1 & E1 & E). apply lift_some in E1. destruct E1 as [-> E1].
  apply sbind_some in E. destruct E as ([] & st2 & b2 & E2 & E). apply lift_some in E2. destruct E2 as [-> E2].
  apply sbind_some in E. destruct E as (t & st3 & b3 & E3 & E). apply lift_some in E3. destruct E3 as [-> E3].
  apply sbind_some in E. destruct E as (n & st4 & b4 & E4 & E). apply lift_some in E4. destruct E4 as [-> E4].
  apply sbind_some in E. destruct E as (l & st5 & b5 & E5 & _).
  pose proof (wp_u_ok 1 ltac:(lia) b W) as H1. rewrite E1 in H1. destruct H1 as (bs1 & S1 & U1 & ->). pose proof (steps_wf _ _ _ W S1) as W1.
  pose proof (wp_fixed 1 0 ltac:(lia) b1 W1) as H2. rewrite E2 in H2. destruct H2 as (bs2 & S2 & ->). pose proof (steps_wf _ _ _ W1 S2) as W2.
  pose proof (wp_u_ok 6 ltac:(lia) b2 W2) as H3. rewrite E3 in H3. destruct H3 as (bs3 & S3 & U3 & ->). pose proof (steps_wf _ _ _ W2 S3) as W3.
  pose proof (wp_u_ok 16 ltac:(lia) b3 W3) as H4. rewrite E4 in H4. destruct H4 as (bs4 & S4 & U4 & ->). pose proof (steps_wf _ _ _ W3 S4) as W4.
  destruct (nalus_sound _ _ _ _ _ _ _ W4 E5) as (nals & rest & Hl & F & R). exists (mkBA c t nals), rest. unfold u_ok in U4. split.
  - unfold box_array_ok. cbn [ba_completeness ba_type ba_nals]. repeat (split; [assumption|]). split; [lia|exact F].
  - unfold enc_box_array. cbn [ba_completeness ba_type ba_nals]. destruct S1 as [-> _], S2 as [-> _], S3 as [-> _], S4 as [-> _]. rewrite R, <- !app_assoc.
    replace (Z.of_nat (length nals)) with n by lia. reflexivity.
Qed.

Fixpoint arrays_of (arrs : list box_array) (us : list (option nal_unit)) : list hvcc_array :=
  match arrs with
  | [] => []
  | a :: r => array_of a (firstn (length (ba_nals a)) us) :: arrays_of r (skipn (length (ba_nals a)) us)
  end.
Lemma arrays_parses opts : forall arrs st b rest, wf b -> Forall box_array_ok arrs -> rem b = flat_map enc_box_array arrs ++ rest ->
  scollect (length arrs) (ParseHvccArray opts) st b =
  match parse_all opts (flat_map ba_nals arrs) st with
  | Bad e => Err e
  | Done (us, st') => Ok (Some (arrays_of arrs us), st') (adv b (length (flat_map enc_box_array arrs)))
  end.
Proof.
  induction arrs as [|a arrs IH]; intros st b rest W F R.
  - cbn. rewrite adv_0 by exact W. reflexivity.
  - inversion F as [|? ? Fx F']; subst. change (flat_map enc_box_array (a :: arrs)) with (enc_box_array a ++ flat_map enc_box_array arrs) in *. rewrite <- app_assoc in R.
    change (flat_map ba_nals (a :: arrs)) with (ba_nals a ++ flat_map ba_nals arrs). rewrite parse_all_app.
    cbn [length scollect]. pose proof (array_parses opts st b a _ W Fx R) as E. destruct (parse_all opts (ba_nals a) st) as [[us1 st1]|e] eqn:E1.
    + rewrite (sbind_eq _ _ _ _ _ _ _ E). specialize (IH st1 _ _ (wf_adv_app _ _ _ W R) F' (rem_adv_app _ _ _ W R)).
      destruct (parse_all opts (flat_map ba_nals arrs) st1) as [[us2 st2]|e].
      * rewrite (sbind_eq _ _ _ _ _ _ _ IH). rewrite adv_adv. rewrite <- app_length. cbn [arrays_of]. apply parse_all_length in E1.
        rewrite <- E1, firstn_app, skipn_app, Nat.sub_diag, firstn_O, app_nil_r, firstn_all, skipn_all. reflexivity.
      * apply sbind_err, IH.
    + apply sbind_err, E.
Qed.
Lemma arrays_sound opts : forall n st b r st' b', wf b -> scollect n (ParseHvccArray opts) st b = Ok (Some r, st') b' ->
  exists arrs rest, length arrs = n /\ Forall box_array_ok arrs /\ rem b = flat_map enc_box_array arrs ++ rest.
Proof.
  induction n as [|n IH]; intros st b r st' b' W E.
  - exists [], (rem b). auto.
  - cbn [scollect] in E. apply sbind_some in E. destruct E as (y & st1 & b1 & E1 & E). apply sbind_some in E. destruct E as (l & st2 & b2 & E2 & _).
    destruct (array_sound _ _ _ _ _ _ W E1) as (a & rest & Ha & R). rewrite (array_parses opts st b a rest W Ha R) in E1.
    destruct (parse_all opts (ba_nals a) st) as [[us st3]|e]; [|discriminate]. injection E1 as <- <- <-.
    destruct (IH _ _ _ _ _ (wf_adv_app _ _ _ W R) E2) as (arrs & rest' & Hl & F & R'). exists (a :: arrs), rest'. split; [cbn; lia|]. split; [constructor; assumption|].
    rewrite (rem_adv_app _ _ _ W R) in R'. rewrite R, R'. change (flat_map enc_box_array (a :: arrs)) with (enc_box_array a ++ flat_map enc_box_array arrs). apply app_assoc.
Qed.
Lemma box_parses opts h arrs st b rest : wf b -> box_ok h arrs -> rem b = enc_box h arrs ++ rest -> ParseConfigurationBoxBuffer opts st b =
  match parse_all opts (flat_map ba_nals arrs) st with
  | Bad e => Err e
  | Done (us, st') => Ok (Some (mkHV h (arrays_of arrs us)), st') (adv b (length (enc_box h arrs)))
  end.
Proof.
  intros W (H1 & H2 & H3) R. unfold enc_box in *. rewrite <- app_assoc in R. unfold ParseConfigurationBoxBuffer.
  rewrite (lift_parses _ _ _ _ _ _ _ W R) by (apply parses_hvcc_header, H1).
  pose proof (wf_adv_app _ _ _ W R) as W1. pose proof (rem_adv_app _ _ _ W R) as R1. rewrite H2, Nat2Z.id.
  pose proof (arrays_parses opts arrs st _ _ W1 H3 R1) as E. destruct (parse_all opts (flat_map ba_nals arrs) st) as [[us st1]|e].
  - rewrite (sbind_eq _ _ _ _ _ _ _ E). rewrite adv_adv. rewrite <- app_length. reflexivity.
  - apply sbind_err, E.
Qed.
Lemma box_sound opts st b r st' b' : wf b -> ParseConfigurationBoxBuffer opts st b = Ok (Some r, st') b' ->
  exists h arrs rest, box_ok h arrs /\ rem b = enc_box h arrs ++ rest.
Proof.
  intros W E. unfold ParseConfigurationBoxBuffer in E. apply sbind_some in E. destruct E as (h & st1 & b1 & E1 & E). apply lift_some in E1. destruct E1 as [-> E1].
  apply sbind_some in E. destruct E as (l & st2 & b2 & E2 & _). pose proof (wp_hvcc_header b W) as H. rewrite E1 in H. destruct H as (bs & S & Hh & ->).
  destruct (arrays_sound _ _ _ _ _ _ _ (steps_wf _ _ _ W S) E2) as (arrs & rest & Hl & F & R). exists h, arrs, rest.
  split; [|unfold enc_box; destruct S as [-> _]; rewrite R; apply app_assoc]. split; [exact Hh|]. split; [|exact F].
  unfold hvcc_header_ok in Hh. assert (U : u_ok 8 (numOfArrays h)) by tauto. unfold u_ok in U. lia.
Qed.

(** Safety of the box parser: the units are escaped. *)
(** [nal] is a NAL unit at its place in a (possibly incomplete) box. *)
Definition unit_in_box (bits : list bool) (nal : list Z) : Prop := exists h arrs c t n nals rest,
  hvcc_header_ok h /\ Forall box_array_ok arrs /\ Z.of_nat (length arrs) < numOfArrays h /\ u_ok 1 c /\ u_ok 6 t /\ u_ok 16 n /\
  Forall box_nal_ok nals /\ Z.of_nat (length nals) < n /\ box_nal_ok nal /\
  bits = enc_hvcc_header h ++ flat_map enc_box_array arrs ++ (enc_u 1 c ++ enc_u 1 0 ++ enc_u 6 t ++ enc_u 16 n) ++
         flat_map enc_box_nal nals ++ enc_box_nal nal ++ rest.
(** Its RBSP has 24 zero bits in a row. *)
Definition rbsp_run (nal : list Z) : Prop := exists rbsp, UnescapeRbsp nal = Done rbsp /\ zrun 24 (bits_of rbsp).
Definition nal_run (bits : list bool) : Prop := exists nal, unit_in_box bits nal /\ rbsp_run nal.

(** [ssafe] with a postcondition on the bits consumed by a successful call. *)
Definition sspec (Z : list bool -> Prop) {A} (m : SM A) (Q : A -> list bool -> Prop) : Prop := forall st b, wf b -> store_ok st ->
  match m st b with
  | Ok (o, st') b' => (exists bs, steps b b' bs /\ forall a, o = Some a -> Q a bs) /\ store_ok st' /\ (pocs_ok st -> pocs_ok st' \/ Z (rem b))
  | Fail _ => False
  | Err e => e = SignedOverflow /\ (pocs_ok st -> Z (rem b))
  end.
Lemma sspec_ret Z {A} (a : A) (Q : A -> list bool -> Prop) : Q a [] -> sspec Z (sret a) Q.
Proof. intros H st b W S. cbn. split; [exists []; split; [apply steps_refl, W|intros x E; injection E as <-; exact H]|auto]. Qed.
Lemma sspec_lift Z {A} (m : M A) Q : wp no_err m Q -> sspec Z (lift m) Q.
Proof.
  intros H st b W S. unfold lift, bind, attempt. specialize (H b W). destruct (m b) as [a b'|b'|e]; [| |destruct H]; cbn.
  - destruct H as (bs & T & HQ). split; [exists bs; split; [exact T|intros x E; injection E as <-; exact HQ]|auto].
  - destruct H as (bs & T). split; [exists bs; split; [exact T|discriminate]|auto].
Qed.
Lemma sspec_bind (Z1 Z : list bool -> Prop) {A B} (Z2 : A -> list bool -> Prop) (m : SM A) (f : A -> SM B) (Q1 : A -> list bool -> Prop) (Q2 : A -> B -> list bool -> Prop) (Q : B -> list bool -> Prop) :
  sspec Z1 m Q1 -> (forall a, sspec (Z2 a) (f a) (Q2 a)) -> (forall l, Z1 l -> Z l) -> (forall a l1 l2, Q1 a l1 -> Z2 a l2 -> Z (l1 ++ l2)) ->
  (forall a x l1 l2, Q1 a l1 -> Q2 a x l2 -> Q x (l1 ++ l2)) -> sspec Z (sbind m f) Q.
Proof.
  intros Hm Hf C1 C2 C3 st b W S. unfold sbind, bind. specialize (Hm st b W S). destruct (m st b) as [[[a|] st1] b1|b1|e]; [| |exact Hm|].
  - destruct Hm as ((bs & T & HQ) & S1 & P1). specialize (HQ a eq_refl). specialize (Hf a st1 b1 (steps_wf _ _ _ W T) S1).
    destruct (f a st1 b1) as [[o st2] b2|b2|e]; [| exact Hf|].
    + destruct Hf as ((bs2 & T2 & HQ2) & S2 & P2). split; [eexists; split; [eapply steps_trans; eassumption|]|].
      { intros x E. eapply C3; [exact HQ|]. apply HQ2, E. }
      split; [exact S2|]. intros P. destruct (P1 P) as [R|R]; [|right; apply C1, R]. destruct (P2 R) as [R'|R']; [left; exact R'|right].
      destruct T as [T _]. rewrite T. eapply C2; eassumption.
    + destruct Hf as [-> P2]. split; [reflexivity|]. intros P. destruct (P1 P) as [R|R]; [|apply C1, R]. destruct T as [T _]. rewrite T. eapply C2; [exact HQ|auto].
  - destruct Hm as ((bs & T & _) & S1 & P1). cbn. split; [exists bs; split; [exact T|discriminate]|]. split; [exact S1|]. intros P. destruct (P1 P); auto.
  - destruct Hm as [-> P]. split; [reflexivity|]. auto.
Qed.
Lemma sspec_collect {A T} (ok : T -> Prop) (enc : T -> list bool) (Z : list bool -> Prop) (m : SM A) :
  sspec Z m (fun _ bs => exists x, ok x /\ bs = enc x) -> forall n,
  sspec (fun l => exists xs l2, Forall ok xs /\ (length xs < n)%nat /\ Z l2 /\ l = flat_map enc xs ++ l2) (scollect n m)
    (fun _ bs => exists xs, length xs = n /\ Forall ok xs /\ bs = flat_map enc xs).
Proof.
  intros H. induction n as [|n IH]; cbn [scollect].
  - apply sspec_ret. exists []. cbn. auto.
  - eapply (sspec_bind Z _ (fun _ l => exists xs l2, Forall ok xs /\ (length xs < n)%nat /\ Z l2 /\ l = flat_map enc xs ++ l2) _ _ _
      (fun _ _ bs => exists xs, length xs = n /\ Forall ok xs /\ bs = flat_map enc xs)); [exact H| | | |].
    + intros x. eapply (sspec_bind _ _ (fun _ _ => False) _ _ _ (fun _ _ bs => bs = [])); [exact IH|intros l; apply sspec_ret; reflexivity|auto|intros ? ? ? ? []|].
      cbv beta. intros l y l1 l2 Hx ->. rewrite app_nil_r. exact Hx.
    + intros l HZ. exists [], l. cbn. split; [constructor|]. split; [lia|auto].
    + intros a l1 l2 (x & Hx & ->) (xs & l3 & F & L & HZ & ->). exists (x :: xs), l3. change (flat_map enc (x :: xs)) with (enc x ++ flat_map enc xs). rewrite <- app_assoc. cbn [length]. split; [constructor; assumption|]. split; [lia|auto].
    + intros a y l1 l2 (x & Hx & ->) (xs & L & F & ->). exists (x :: xs). cbn [length]. split; [lia|]. split; [constructor; assumption|reflexivity].
Qed.
Lemma sspec_nalu opts : sspec (fun l => exists x rest, box_nal_ok x /\ rbsp_run x /\ l = enc_box_nal x ++ rest) (ParseHvccNalu opts)
  (fun _ bs => exists x, box_nal_ok x /\ bs = enc_box_nal x).
Proof.
  intros st b W S. unfold ParseHvccNalu. pose proof (wp_u_ok 16 ltac:(lia) b W) as H1.
  unfold sbind at 1, lift at 1, bind at 1 2, attempt. destruct (ReadBits 16 b) as [len b1|b1|e]; [| |destruct H1]; unfold ret at 1; cbv iota.
  2:{ destruct H1 as (bs & T). cbn. split; [exists bs; split; [exact T|discriminate]|auto]. }
  destruct H1 as (bs1 & S1 & U1 & ->). pose proof (steps_wf _ _ _ W S1) as W1. pose proof (wp_bytes len b1 W1) as H2. unfold sbind at 1, lift at 1, bind at 1 2, attempt, ReadBytes.
  destruct (collect len (fun _ => ReadUInt8) b1) as [x b2|b2|e]; [| |destruct H2]; unfold ret at 1; cbv iota.
  2:{ destruct H2 as (bs & T). cbn. split; [eexists; split; [eapply steps_trans; eassumption|discriminate]|auto]. }
  destruct H2 as (bs2 & S2 & [L2 F2] & ->). unfold u_ok in U1. apply is_byte_ok in F2. assert (D : byte_string x) by (split; [exact F2|lia]).
  assert (Hx : box_nal_ok x) by (split; [exact F2|lia]).
  assert (Eb : enc_u (Z.to_nat 16) len ++ bits_of x = enc_box_nal x) by (unfold enc_box_nal; replace (Z.of_nat (length x)) with len by lia; reflexivity).
  assert (T : steps b b2 (enc_box_nal x)) by (rewrite <- bits_of_enc in S2; rewrite <- Eb; eapply steps_trans; [exact S1|exact S2]).
  pose proof (proj1 T) as R.
  destruct (Unescape_byte_string x D) as (rbsp & Er & Dr). unfold sbind, scall, bind. destruct (ParseNalUnit opts x st) as [[u st1]|e] eqn:E.
  - cbn. split; [exists (enc_box_nal x); split; [exact T|intros _ _; exists x; auto]|]. split; [exact (C22_invariant _ _ _ _ _ D S E)|]. intros P.
    destruct (nal_unit_pocs _ _ _ _ _ _ D Er S P E) as [Q|Q]; [left; exact Q|right]. exists x, (rem b2). split; [exact Hx|]. split; [exists rbsp; auto|exact R].
  - destruct (C21_safe _ _ _ _ _ D (store_state_ok _ S) Er E) as [-> Q]. split; [reflexivity|]. intros P. exists x, (rem b2). split; [exact Hx|]. split; [exists rbsp; auto|exact R].
Qed.
Definition unit_in_array (l : list bool) (x : list Z) : Prop := exists c t n nals rest, u_ok 1 c /\ u_ok 6 t /\ u_ok 16 n /\
  Forall box_nal_ok nals /\ Z.of_nat (length nals) < n /\ box_nal_ok x /\
  l = (enc_u 1 c ++ enc_u 1 0 ++ enc_u 6 t ++ enc_u 16 n) ++ flat_map enc_box_nal nals ++ enc_box_nal x ++ rest.
Lemma sspec_array opts : sspec (fun l => exists x, unit_in_array l x /\ rbsp_run x) (ParseHvccArray opts) (fun _ bs => exists a, box_array_ok a /\ bs = enc_box_array a).
Proof.
  unfold ParseHvccArray.
  eapply (sspec_bind (fun _ => False) _ (fun c l => u_ok 1 c -> exists x, unit_in_array (enc_u 1 c ++ l) x /\ rbsp_run x) _ _ _
    (fun c _ bs => u_ok 1 c -> exists a, box_array_ok a /\ enc_u 1 c ++ bs = enc_box_array a)); [apply sspec_lift, (wp_u_ok 1); lia| |intros ? []| |].
  3:{ cbv beta. intros c y l1 l2 (Hc & ->) H. apply H, Hc. }
  2:{ cbv beta. intros c l1 l2 (Hc & ->) H. apply H, Hc. }
  intros c.
  eapply (sspec_bind (fun _ => False) _ (fun _ l => u_ok 1 c -> exists x, unit_in_array (enc_u 1 c ++ enc_u 1 0 ++ l) x /\ rbsp_run x) _ _ _
    (fun _ _ bs => u_ok 1 c -> exists a, box_array_ok a /\ enc_u 1 c ++ enc_u 1 0 ++ bs = enc_box_array a)); [apply sspec_lift, (wp_fixed 1 0); lia| |intros ? []| |].
  3:{ cbv beta. intros _ y l1 l2 -> H Hc. apply H, Hc. }
  2:{ cbv beta. intros _ l1 l2 -> H Hc. apply H, Hc. }
  intros _.
  eapply (sspec_bind (fun _ => False) _ (fun t l => u_ok 6 t -> u_ok 1 c -> exists x, unit_in_array (enc_u 1 c ++ enc_u 1 0 ++ enc_u 6 t ++ l) x /\ rbsp_run x) _ _ _
    (fun t _ bs => u_ok 6 t -> u_ok 1 c -> exists a, box_array_ok a /\ enc_u 1 c ++ enc_u 1 0 ++ enc_u 6 t ++ bs = enc_box_array a)); [apply sspec_lift, (wp_u_ok 6); lia| |intros ? []| |].
  3:{ cbv beta. intros t y l1 l2 (Ht & ->) H Hc. apply H; assumption. }
  2:{ cbv beta. intros t l1 l2 (Ht & ->) H Hc. apply H; assumption. }
  intros t.
  eapply (sspec_bind (fun _ => False) _ (fun n l => u_ok 16 n -> u_ok 6 t -> u_ok 1 c -> exists x, unit_in_array (enc_u 1 c ++ enc_u 1 0 ++ enc_u 6 t ++ enc_u 16 n ++ l) x /\ rbsp_run x) _ _ _
    (fun n _ bs => u_ok 16 n -> u_ok 6 t -> u_ok 1 c -> exists a, box_array_ok a /\ enc_u 1 c ++ enc_u 1 0 ++ enc_u 6 t ++ enc_u 16 n ++ bs = enc_box_array a));
    [apply sspec_lift, (wp_u_ok 16); lia| |intros ? []| |].
  3:{ cbv beta. intros n y l1 l2 (Hn & ->) H Ht Hc. apply H; assumption. }
  2:{ cbv beta. intros n l1 l2 (Hn & ->) H Ht Hc. apply H; assumption. }
  intros n.
  eapply (sspec_bind _ _ (fun _ _ => False) _ _ _ (fun _ _ bs => bs = [])); [apply (sspec_collect box_nal_ok enc_box_nal _ _ (sspec_nalu opts))|intros l; apply sspec_ret; reflexivity| |intros ? ? ? ? []|]; cbv beta.
  - intros l (xs & l2 & F & L & (x & rest & Hx & Rx & ->) & ->) Hn Ht Hc. exists x. split; [|exact Rx]. exists c, t, n, xs, rest. rewrite <- !app_assoc.
    unfold u_ok in Hn. repeat (split; [first [assumption|lia]|]). reflexivity.
  - intros l y l1 l2 (xs & L & F & ->) -> Hn Ht Hc. rewrite app_nil_r. exists (mkBA c t xs). unfold box_array_ok, enc_box_array. cbn. unfold u_ok in Hn.
    split; [repeat (split; [first [assumption|lia]|]); assumption|]. replace (Z.of_nat (length xs)) with n by lia. reflexivity.
Qed.
Lemma sspec_box opts : sspec nal_run (ParseConfigurationBoxBuffer opts) (fun _ _ => True).
Proof.
  unfold ParseConfigurationBoxBuffer.
  eapply (sspec_bind (fun _ => False) _ (fun h l => hvcc_header_ok h -> nal_run (enc_hvcc_header h ++ l)) _ _ _ (fun _ _ _ => True));
    [apply sspec_lift, wp_hvcc_header| |intros ? []| |auto].
  2:{ cbv beta. intros h l1 l2 (Hh & ->) H. apply H, Hh. }
  intros h.
  eapply (sspec_bind _ _ (fun _ _ => False) _ _ _ (fun _ _ _ => True)); [apply (sspec_collect box_array_ok enc_box_array _ _ (sspec_array opts))|intros l; apply sspec_ret; exact I| |intros ? ? ? ? []|auto].
  cbv beta. intros l (arrs & l2 & F & L & (x & (c & t & n & nals & rest & H) & Rx) & ->) Hh. exists x. split; [|exact Rx].
  exists h, arrs, c, t, n, nals, rest. destruct H as (H1 & H2 & H3 & H4 & H5 & H6 & ->). assert (U : u_ok 8 (numOfArrays h)) by (unfold hvcc_header_ok in Hh; tauto). unfold u_ok in U.
  repeat (split; [first [assumption|lia]|]). reflexivity.
Qed.
