(** C93: states in which the caller has put parameter sets of its own. *)
From Coq Require Import ZArith List Bool Lia ZifyBool ZifyNat.
From Verif Require Import MBase MBitBuffer Spec BitsFacts Reader ReaderFacts Rules Syntax SyntaxSe MCommon CommonFacts PropsBits PropsCommon
  MFraming FramingFacts PropsFraming MSyntaxA SpecA FactsA Api PropsA MSyntaxB SpecB FactsB FactsRps PropsB MSps SpecSps FactsSps PropsSps
  MPps SpecPps FactsPps PropsPps MSlice SpecSlice FactsSlice PropsSlice MSei SpecSei FactsSei PropsSei MNal FactsNal PropsNal MRtp FactsRtp PropsRtp PropsQp FactsTame PropsSafe
  PropsEntry.
Import ListNotations.
Open Scope Z_scope.
Ltac Zify.zify_post_hook ::= Z.div_mod_to_equations.

(** * Which parameter sets may be put in a state *)
(** H265BitstreamParserState (include/h265_bitstream_parser_state.h:20-40) has public maps of shared pointers to structs with public
    members: the caller may store any struct.  A slice header reads of them: *)
(** (a) of the SPS.  [sized]: getPicSizeInCtbsY() is not 0.  log2_max_pic_order_cnt_lsb_minus4 + 4 (uint32_t) must not wrap to 0. *)
Record usable_sps (sized : bool) (s : sps) : Prop := {
  us_shift : getCtbLog2SizeY s < 32;
  us_size : sized = true -> getPicSizeInCtbsY s <> 0;
  us_sets : 0 <= num_short_term_ref_pic_sets s < 2 ^ 32 /\ num_short_term_ref_pic_sets s <= Z.of_nat (length (sps_st_ref_pic_set s));
  us_counts : Forall set_ok (sps_st_ref_pic_set s);
  us_lsb : (log2_max_pic_order_cnt_lsb_minus4 s + 4) mod 2 ^ 32 <> 0 }.
(** (b) of the PPS: pps_scc_extension is not null if the flag is set. *)
Definition usable_pps (p : pps) : Prop := nz (pps_scc_extension_flag p) = true -> pps_scc_extension p <> None.
(** The keys of the maps need not be the ids of the sets. *)
Definition planted (sized : bool) (st : state) : Prop :=
  (forall k s x, st_sps st k = Some (s, x) -> usable_sps sized s) /\ (forall k p x, st_pps st k = Some (p, x) -> usable_pps p).
(** What may happen in such a state *)
Definition mishap (sized : bool) (x : err) : Prop := x = SignedOverflow \/ sized = false /\ x = BadConversion.

(** * Parsed sets are usable *)
Lemma pic_size_u32 s : 0 <= getPicSizeInCtbsY s.
Proof. unfold getPicSizeInCtbsY, u32. lia. Qed.
Lemma parsed_usable sized s : sps_ok_out s -> usable_sps sized s.
Proof.
  intros O. pose proof (sps_facts_of _ _ _ O) as F. assert (A : rps_sets_out (num_short_term_ref_pic_sets s) (sps_st_ref_pic_set s)).
  { unfold sps_ok_out, sps_ok in O. cbv zeta in O. tauto. }
  destruct (sets_ok_out _ _ (sf_nst _ F) A) as (L & L2 & Fa). destruct F. split; [exact sf_shift|lia| | |rewrite Z.mod_small by lia; lia].
  - split; [exact L|exact L2].
  - eapply Forall_impl; [|exact Fa]. apply shape_set_ok.
Qed.
Lemma parsed_usable_pps p : pps_ok_out p -> usable_pps p.
Proof.
  intros O E. assert (A : optf (nz (pps_scc_extension_flag p)) (is_some (pps_scc_ext_ok false)) None (pps_scc_extension p)) by (unfold pps_ok_out, pps_ok in O; cbv zeta in O; tauto).
  rewrite E in A. unfold optf, is_some in A. destruct (pps_scc_extension p); [discriminate|destruct A].
Qed.
Lemma planted_parsed sized st : store_ok st -> planted sized st.
Proof.
  intros (_ & H1 & H2). split; intros k x y E; [apply parsed_usable, (H1 _ _ _ E)|apply parsed_usable_pps, (H2 _ _ _ E)].
Qed.

(** * Slice headers *)
Definition mishaps (sized : bool) : errs := mkErrs (fun e _ => mishap sized e) (fun _ _ _ H => H).
Lemma ovf_in_mishaps sized : ovf_in (mishaps sized).
Proof. intros l _. left. reflexivity. Qed.
Lemma wp_bits_any E n : 0 < n -> wp E (ReadBits n) any.
Proof. intros H. eapply wp_any, wp_err, wp_u_ok, H. Qed.
Lemma wp_ue_any E : wp E ReadExponentialGolomb any.
Proof. eapply wp_any, wp_err, wp_ue. Qed.
Lemma wp_se_any E : ovf_in E -> wp E ReadSignedExponentialGolomb any.
Proof. intros H. eapply wp_any, (wpa_se E H). Qed.
Lemma wp_ret_any E {A} (a : A) : wp E (ret a) any.
Proof. apply wp_ret. exact I. Qed.
Lemma wp_some_any E {A} (m : M A) : wp E m any -> wp E (some m) any.
Proof. intros H. unfold some. apply wp_bind_any; [exact H|]. intros a. apply wp_ret_any. Qed.
Lemma wp_bind_post E {A B} (m : M A) (f : A -> M B) Q : wp E m Q -> (forall a bs, Q a bs -> wp E (f a) any) -> wp E (bind m f) any.
Proof. intros H G. eapply wp_bind; [exact H|]. intros a bs q. eapply wp_any, G, q. Qed.
Lemma log2_up_pos n : negb (ceil_log2 n =? 0) = true -> 0 < ceil_log2 n.
Proof. unfold ceil_log2. pose proof (Z.log2_up_nonneg n). lia. Qed.
Lemma usable_weak sized s : usable_sps sized s -> usable_sps false s.
Proof. intros []. split; try assumption. discriminate. Qed.
Lemma wp_size_conversion sized first s : usable_sps false s -> (sized = true -> nz first = false -> getPicSizeInCtbsY s <> 0) -> wp (mishaps sized) (size_conversion first s) any.
Proof.
  intros U H. unfold size_conversion. destruct (nz first) eqn:Ef; [apply wp_ret_any|]. pose proof (us_shift _ _ U). destruct (Z.leb_spec 32 (getCtbLog2SizeY s)); [lia|].
  destruct (Z.leb_spec (getPicSizeInCtbsY s) 0) as [Hs|Hs]; [|apply wp_ret_any]. intros b W. cbn. right. split; [|reflexivity].
  destruct sized; [|reflexivity]. pose proof (H eq_refl eq_refl). pose proof (pic_size_u32 s). lia.
Qed.
Lemma wp_height_shift E sized s p : usable_sps sized s -> wp E (height_shift s p) any.
Proof.
  intros U. unfold height_shift. pose proof (us_shift _ _ U). destruct (Z.leb_spec 32 (getCtbLog2SizeY s)); [lia|]. rewrite andb_false_r. apply wp_ret_any.
Qed.
Lemma wp_lt_any E s nls n j : 0 < n ->
  wp E (read_lt_entry nls (num_long_term_ref_pics_sps s) n j) any.
Proof.
  intros H. unfold read_lt_entry. cbv zeta.
  apply wp_bind_any.
  { destruct (Z.ltb_spec 1 (num_long_term_ref_pics_sps s)) as [G|G]; [|rewrite andb_false_r; apply wp_ret_any].
    apply wp_when_any, wp_bits_any. unfold ceil_log2. apply Z.log2_up_pos. exact G. }
  intros idx. apply wp_bind_any; [apply wp_when_any, wp_bits_any; lia|]. intros lsb. apply wp_bind_any; [apply wp_when_any, wp_bits_any; lia|]. intros used.
  apply wp_bind_any; [apply wp_bits_any; lia|]. intros mf. apply wp_bind_any; [apply wp_when_any, wp_ue_any|]. intros m. apply wp_ret_any.
Qed.
Lemma wp_slice_rest_any sized nut s p first noout pid : usable_sps false s -> (sized = true -> nz first = false -> getPicSizeInCtbsY s <> 0) -> usable_pps p ->
  wp (mishaps sized) (slice_rest nut s p first noout pid) any.
Proof.
  intros U US P. pose proof (ovf_in_mishaps sized) as HE. destruct (us_sets _ _ U) as [N1 N2]. pose proof (us_counts _ _ U) as N3. pose proof (us_lsb _ _ U) as N4.
  assert (N5 : 0 < poc_lsb_len s) by (unfold poc_lsb_len, u32; pose proof (Z.mod_pos_bound (log2_max_pic_order_cnt_lsb_minus4 s + 4) (2 ^ 32) ltac:(lia)); lia).
  unfold slice_rest. cbv zeta.
  apply wp_bind_any; [apply wp_when_any, wp_bits_any; lia|]. intros dep.
  apply wp_bind_any; [apply wp_size_conversion; [exact U|exact US]|]. intros _.
  eapply wp_any, wp_guard. intros G.
  apply wp_bind_any.
  { destruct (nz first); cbn [orb negb] in G; [apply wp_ret_any|]. apply wp_when_any, wp_bits_any, log2_up_pos, G. }
  intros addr. apply wp_bind_any; [apply wp_when_any, wp_collect_any; intros; apply wp_bits_any; lia|]. intros rsv.
  apply wp_bind_any; [apply wp_when_any, wp_ue_any|]. intros ty. apply wp_bind_any; [apply wp_when_any, wp_bits_any; lia|]. intros outp.
  apply wp_bind_any; [apply wp_when_any, wp_bits_any; lia|]. intros plane. apply wp_bind_any; [apply wp_when_any, wp_bits_any; lia|]. intros lsb.
  apply wp_bind_any; [apply wp_when_any, wp_bits_any; lia|]. intros stf.
  apply wp_bind_any.
  { apply wp_when_any, wp_some_any. intros b W.
    pose proof (wp_rps_any ovf_any _ (num_short_term_ref_pic_sets s) (num_short_term_ref_pic_sets s) (sps_st_ref_pic_set s) 15 N1 ltac:(unfold uint32; lia) N2 N3 (derives_weak _) b W) as R.
    destruct (ParseStRefPicSet _ _ _ 15 b); [|exact R|left; exact R]. destruct R as (bs & S & _). exists bs. split; [exact S|exact I]. }
  intros st. apply wp_bind_any.
  { destruct (Z.ltb_spec 1 (num_short_term_ref_pic_sets s)) as [H|H]; [|rewrite andb_false_r; apply wp_ret_any].
    apply wp_when_any, wp_bits_any. unfold ceil_log2. apply Z.log2_up_pos. exact H. }
  intros sti. apply wp_bind_any; [apply wp_when_any, wp_ue_any|]. intros nls. apply wp_bind_any; [apply wp_when_any, wp_ue_any|]. intros nlp.
  apply wp_bind_any; [apply wp_when_any, wp_collect_any; intros; apply wp_lt_any; lia|]. intros lts.
  apply wp_bind_any; [apply wp_when_any, wp_bits_any; lia|]. intros mvp. apply wp_bind_any; [apply wp_when_any, wp_bits_any; lia|]. intros saol.
  apply wp_bind_any; [apply wp_when_any, wp_bits_any; lia|]. intros saoc. apply wp_bind_any; [apply wp_when_any, wp_bits_any; lia|]. intros ovr.
  apply wp_bind_any; [apply wp_when_any, wp_ue_any|]. intros l0. apply wp_bind_any; [apply wp_when_any, wp_ue_any|]. intros l1.
  apply wp_bind_any; [apply wp_when_any, wp_bits_any; lia|]. intros mvd. apply wp_bind_any; [apply wp_when_any, wp_bits_any; lia|]. intros cab.
  apply wp_bind_any; [apply wp_when_any, wp_bits_any; lia|]. intros col0. apply wp_bind_any; [apply wp_when_any, wp_ue_any|]. intros colr.
  apply wp_bind_any; [apply wp_when_any, wp_some_any; eapply wp_any, wpa_pwt, HE|]. intros pw.
  apply wp_bind_any; [apply wp_when_any, wp_ue_any|]. intros merge. apply wp_bind_any; [apply wp_when_any, wp_bits_any; lia|]. intros imv.
  apply wp_bind_any; [apply wp_when_any, wp_se_any, HE|]. intros qp. apply wp_bind_any; [apply wp_when_any, wp_se_any, HE|]. intros cb.
  apply wp_bind_any; [apply wp_when_any, wp_se_any, HE|]. intros cr.
  apply wp_bind_any.
  { destruct (nz dep); cbn [negb]; [apply wp_ret_any|]. unfold act_offsets_present. destruct (nz (pps_scc_extension_flag p)) eqn:Ef; [|apply wp_ret_any].
    pose proof (P Ef) as N. destruct (pps_scc_extension p); [apply wp_ret_any|destruct (N eq_refl)]. }
  intros act. apply wp_bind_any; [apply wp_when_any, wp_se_any, HE|]. intros ay. apply wp_bind_any; [apply wp_when_any, wp_se_any, HE|]. intros acb.
  apply wp_bind_any; [apply wp_when_any, wp_se_any, HE|]. intros acr.
  apply wp_bind_any; [apply wp_when_any, wp_bits_any; lia|]. intros dbo. apply wp_bind_any; [apply wp_when_any, wp_bits_any; lia|]. intros dbd.
  apply wp_bind_any; [apply wp_when_any, wp_se_any, HE|]. intros beta. apply wp_bind_any; [apply wp_when_any, wp_se_any, HE|]. intros tc.
  apply wp_bind_any; [apply wp_when_any, wp_bits_any; lia|]. intros lfa. apply wp_bind_any; [apply wp_when_any, wp_ue_any|]. intros nep.
  apply wp_bind_any; [eapply wp_height_shift, U|]. intros _. eapply wp_any, wp_guard. intros _.
  apply (wp_bind_post _ _ _ (fun v bs => (if (nz (tiles_enabled_flag p) || nz (entropy_coding_sync_enabled_flag p)) && (0 <? nep) then 0 <= v else v = 0))).
  { eapply wp_weaken; [apply wp_when_rel; intros _; apply wp_err, wp_ue_max|]. cbv beta. intros a bs.
    destruct ((nz (tiles_enabled_flag p) || nz (entropy_coding_sync_enabled_flag p)) && (0 <? nep)); [intros [H _]; unfold ue_le in H; lia|intros [H _]; exact H]. }
  cbv beta. intros ol bs Hol. apply wp_bind_any.
  { destruct ((nz (tiles_enabled_flag p) || nz (entropy_coding_sync_enabled_flag p)) && (0 <? nep)); [|apply wp_ret_any].
    apply wp_when_any, wp_collect_any. intros. apply wp_bits_any. lia. }
  intros eps. apply wp_bind_any; [apply wp_when_any, wp_ue_any|]. intros xl. apply wp_bind_any; [apply wp_when_any, wp_collect_any; intros; apply wp_bits_any; lia|]. intros xb.
  apply wp_ret_any.
Qed.
Lemma wp_slice_any sized nut st : planted sized st -> wp (mishaps sized) (ParseSliceSegmentHeader nut st) any.
Proof.
  intros [P1 P2]. unfold ParseSliceSegmentHeader. apply wp_bind_any; [apply wp_bits_any; lia|]. intros f. apply wp_bind_any; [apply wp_when_any, wp_bits_any; lia|]. intros z.
  apply wp_bind_any; [apply wp_ue_any|]. intros pid. destruct (st_pps st pid) as [[p x]|] eqn:Ep; [|apply wp_fail]. destruct (st_sps st (pps_seq_parameter_set_id p)) as [[s y]|] eqn:Es; [|apply wp_fail].
  pose proof (P1 _ _ _ Es) as U. apply wp_slice_rest_any; [eapply usable_weak, U|intros H _; exact (us_size _ _ U H)|eapply P2, Ep].
Qed.

(** * Everything that keeps a state *)
(** From any reader position and any such state: an allowed mishap, or a position not further from the end and such a state.  (For buffers
    with at most [N] bits left.) *)
Definition psafe (sized : bool) (N : nat) {A} (m : SM A) : Prop := forall st b, wf b -> planted sized st -> (length (rem b) <= N)%nat ->
  match m st b with
  | Ok (_, st') b' => wf b' /\ (length (rem b') <= length (rem b))%nat /\ planted sized st'
  | Fail _ => False
  | Err e => mishap sized e
  end.
Lemma psafe_ret sized N {A} (a : A) : psafe sized N (sret a).
Proof. intros st b W S L. split; [exact W|]. split; [lia|exact S]. Qed.
Lemma psafe_fail sized N {A} : psafe sized N (@sfail A).
Proof. intros st b W S L. split; [exact W|]. split; [lia|exact S]. Qed.
Lemma psafe_bind sized N {A B} (m : SM A) (f : A -> SM B) : psafe sized N m -> (forall a, psafe sized N (f a)) -> psafe sized N (sbind m f).
Proof.
  intros Hm Hf st b W S L. unfold sbind, bind. specialize (Hm st b W S L). destruct (m st b) as [[[a|] st1] b1|b1|e]; [| |exact Hm|exact Hm].
  - destruct Hm as (W1 & L1 & S1). specialize (Hf a st1 b1 W1 S1 ltac:(lia)). destruct (f a st1 b1) as [[o st2] b2|b2|e]; [|exact Hf|exact Hf].
    destruct Hf as (W2 & L2 & S2). split; [exact W2|]. split; [lia|exact S2].
  - exact Hm.
Qed.
Lemma steps_shorter b b' bs : steps b b' bs -> (length (rem b') <= length (rem b))%nat.
Proof. intros [E _]. rewrite E, app_length. lia. Qed.
Lemma lift_ok {A B} (m : M A) (f : A -> SM B) st b a b' : m b = Ok a b' -> sbind (lift m) f st b = f a st b'.
Proof. intros E. unfold sbind, lift, bind, attempt. rewrite E. reflexivity. Qed.
Lemma lift_fail {A B} (m : M A) (f : A -> SM B) st b b' : m b = Fail b' -> sbind (lift m) f st b = Ok (None, st) b'.
Proof. intros E. unfold sbind, lift, bind, attempt. rewrite E. reflexivity. Qed.
Lemma psafe_lift_bind sized N {A B} (m : M A) (f : A -> SM B) Q : wp no_err m Q -> (forall a bs, Q a bs -> psafe sized N (f a)) -> psafe sized N (sbind (lift m) f).
Proof.
  intros H Hf st b W S L. specialize (H b W). destruct (m b) as [a b'|b'|e] eqn:Em; [| |destruct H].
  - destruct H as (bs & T & q). pose proof (steps_shorter _ _ _ T) as L1. specialize (Hf a bs q st b' (steps_wf _ _ _ W T) S ltac:(lia)).
    assert (E : sbind (lift m) f st b = f a st b') by (unfold sbind, lift, bind, attempt; rewrite Em; reflexivity). rewrite E.
    destruct (f a st b') as [[o st2] b2|b2|e]; [|exact Hf|exact Hf]. destruct Hf as (W2 & L2 & S2). split; [exact W2|]. split; [lia|exact S2].
  - destruct H as (bs & T). pose proof (steps_shorter _ _ _ T) as L1.
    assert (E : sbind (lift m) f st b = Ok (None, st) b') by (unfold sbind, lift, bind, attempt; rewrite Em; reflexivity). rewrite E.
    split; [eapply steps_wf; eassumption|]. split; [exact L1|exact S].
Qed.
Lemma psafe_lift sized N {A B} (m : M A) (f : A -> SM B) Q : wp no_err m Q -> (forall a, psafe sized N (f a)) -> psafe sized N (sbind (lift m) f).
Proof. intros H G. eapply psafe_lift_bind; [exact H|]. intros a bs _. apply G. Qed.

Lemma stored_planted sized ty st b : wf b -> planted sized st -> planted sized (stored' (payload_of ty st b) st).
Proof.
  intros W (H2 & H3). destruct (stored_eq (payload_of ty st b) st) as (_ & E2 & E3). unfold planted. unfold stored in *. cbn [st_vps st_sps st_pps] in *.
  split; intros k v x; rewrite ?E2, ?E3; unfold payload_of; cbn [np_vps np_sps np_pps].
  - destruct (ty =? 33); [|apply H2]. destruct (result ParseSps b) as [r|] eqn:R; [|apply H2].
    destruct (result_wp _ _ _ _ _ W wp_Sps R) as (bs & _ & Q1 & Q2 & _). destruct (k =? sps_seq_parameter_set_id (fst r)); [|apply H2].
    intros E. injection E as ->. cbn [fst snd] in *. apply parsed_usable, Q1.
  - destruct (ty =? 34); [|apply H3]. destruct (result ParsePps b) as [r|] eqn:R; [|apply H3].
    destruct (result_wp _ _ _ _ _ W wp_Pps R) as (bs & _ & Q1 & Q2). destruct (k =? pps_pic_parameter_set_id (fst r)); [|apply H3].
    intros E. injection E as ->. cbn [fst snd] in *. apply parsed_usable_pps, Q1.
Qed.
Lemma stop_shorter E {A} (m : M A) Q b : wf b -> wp E m Q -> fault m b = None -> wf (stop m b) /\ (length (rem (stop m b)) <= length (rem b))%nat.
Proof. intros W H F. destruct (stop_wp _ _ _ _ W H F) as (bs & T). split; [eapply steps_wf; eassumption|eapply steps_shorter, T]. Qed.
Lemma psafe_payload sized N ty : psafe sized N (ParseNalUnitPayload ty).
Proof.
  intros st b W S L. rewrite payload_spec. unfold payload_fault, payload_stop.
  assert (G : forall E (A : Type) (m : M A) Q, wp E m Q -> (forall e, err_in E e (rem b) -> mishap sized e) ->
    match (match fault m b with Some e => Err e | None => Ok (Some (payload_of ty st b), stored' (payload_of ty st b) st) (stop m b) end) with
    | Ok (_, st') b' => wf b' /\ (length (rem b') <= length (rem b))%nat /\ planted sized st' | Fail _ => False | Err e => mishap sized e end).
  { intros E A m Q H HE. destruct (fault m b) as [e|] eqn:F; [apply HE, (fault_wp _ _ _ _ _ W H F)|]. destruct (stop_shorter _ _ _ _ W H F) as [W1 L1].
    split; [exact W1|]. split; [exact L1|apply stored_planted; assumption]. }
  destruct (slice_nut ty); [apply (G (mishaps sized) _ _ any); [apply wp_slice_any, S|auto]|].
  destruct (ty =? 32); [eapply G; [apply wp_Vps|intros e []]|].
  destruct (ty =? 33); [eapply G; [apply wp_Sps|intros e [H _]; left; exact H]|].
  destruct (ty =? 34); [eapply G; [apply wp_Pps|intros e [H _]; left; exact H]|].
  destruct (ty =? 35); [eapply G; [apply wp_Aud|intros e []]|].
  destruct ((ty =? 39) || (ty =? 40)); [eapply G; [apply wp_Sei|intros e [H _]; left; exact H]|].
  split; [exact W|]. split; [lia|apply stored_planted; assumption].
Qed.
Lemma psafe_single sized N : psafe sized N ParseRtpSingleBuffer.
Proof.
  unfold ParseRtpSingleBuffer. eapply psafe_lift; [apply wp_nal_header|intros h]. apply psafe_bind; [apply psafe_payload|intros p]. apply psafe_ret.
Qed.
Lemma psafe_fu sized N : psafe sized N ParseRtpFuBuffer.
Proof.
  unfold ParseRtpFuBuffer. eapply psafe_lift; [apply wp_nal_header|intros h].
  eapply psafe_lift; [apply wp_u_ok; lia|intros s]. eapply psafe_lift; [apply wp_u_ok; lia|intros e]. eapply psafe_lift; [apply wp_u_ok; lia|intros t].
  destruct (s =? 0); [apply psafe_ret|]. apply psafe_bind; [apply psafe_payload|intros p]. apply psafe_ret.
Qed.
Lemma wp_remaining : wp no_err (fun b => Ok (remaining b) b) any.
Proof. intros b W. exists []. split; [apply steps_refl, W|exact I]. Qed.
Lemma psafe_ap_loop sized : forall fuel, psafe sized fuel (ap_loop fuel).
Proof.
  induction fuel as [|fuel IH]; intros st b W S L; rewrite ap_loop_eq; rewrite remaining_spec by exact W.
  - replace (0 <? Z.of_nat (length (rem b))) with false by lia. apply (psafe_ret sized 0 []); assumption.
  - destruct (0 <? Z.of_nat (length (rem b))) eqn:N; cbn [negb]; [|apply (psafe_ret sized (Datatypes.S fuel) []); assumption].
    destruct (le_lt_dec 16 (length (rem b))) as [L16|L16].
    2:{ destruct (u_short 16 b W ltac:(lia) ltac:(lia)) as (b' & bs & E & T). rewrite (lift_fail _ _ _ _ _ E).
        split; [eapply steps_wf; eassumption|]. split; [eapply steps_shorter, T|exact S]. }
    destruct (u_at 16 b W ltac:(lia) ltac:(lia)) as (size & Hs & Es & E & W1 & R1). rewrite (lift_ok _ _ _ _ _ _ E).
    change (Z.to_nat 16) with 16%nat in *.
    assert (L0 : (length (rem (adv b 16)) + 16 = length (rem b))%nat) by (rewrite R1, skipn_length; lia).
    assert (G : psafe sized fuel (rem <~ lift (fun b0 => Ok (remaining b0) b0);; (if rem <? u32 (size * 8) then sfail
       else h <~ lift ParseNalUnitHeader;; p <~ ParseNalUnitPayload (nal_unit_type h);; us <~ ap_loop fuel;; sret (mkAU size h p :: us)))%smonad).
    { eapply psafe_lift; [apply wp_remaining|intros r]. destruct (r <? u32 (size * 8)); [apply psafe_fail|].
      eapply psafe_lift; [apply wp_nal_header|intros h]. apply psafe_bind; [apply psafe_payload|intros p].
      apply psafe_bind; [exact IH|intros us]. apply psafe_ret. }
    specialize (G st (adv b 16) W1 S ltac:(lia)).
    match type of G with match ?x with _ => _ end => destruct x as [[o st2] b2|b2|e] end; [|exact G|exact G].
    destruct G as (W2 & L2 & S2). split; [exact W2|]. split; [lia|exact S2].
Qed.
Lemma psafe_ap sized N : psafe sized N ParseRtpApBuffer.
Proof.
  unfold ParseRtpApBuffer. eapply psafe_lift; [apply wp_nal_header|intros h].
  apply psafe_bind; [|intros us; apply psafe_ret]. intros st b W S L. apply psafe_ap_loop; try assumption. rewrite remaining_spec by exact W. lia.
Qed.
Lemma psafe_rtp_at sized rbsp st : byte_string rbsp -> planted sized st ->
  match ParseRtpBuffer st (mk_bb rbsp) with Ok (_, st') _ => planted sized st' | Fail _ => False | Err e => mishap sized e end.
Proof.
  intros [F L] S. pose proof (wf_mk _ F L) as W. unfold ParseRtpBuffer.
  destruct (le_lt_dec 16 (length (rem (mk_bb rbsp)))) as [L16|L16].
  2:{ destruct (header_short _ W L16) as (b' & bs & E & T). rewrite (lift_fail _ _ _ _ _ E). exact S. }
  destruct (header_at _ W L16) as (h & Hh & _ & E & W1 & _). rewrite (lift_ok _ _ _ _ _ _ E).
  assert (Es : attempt (Seek 0 0) (adv (mk_bb rbsp) 16) = Ok (Some tt) (mk_bb rbsp)) by (unfold attempt; rewrite seek_back; reflexivity).
  rewrite (lift_ok _ _ _ _ _ _ Es).
  set (N := length (rem (mk_bb rbsp))).
  assert (G : psafe sized N (if nal_unit_type h <=? 47 then s <~ ParseRtpSingleBuffer ;; sret (mkRtp h (Some s) None None)
    else if nal_unit_type h =? AP then a <~ ParseRtpApBuffer ;; sret (mkRtp h None (Some a) None)
    else if nal_unit_type h =? FU then f <~ ParseRtpFuBuffer ;; sret (mkRtp h None None (Some f)) else sret (mkRtp h None None None))%smonad).
  { destruct (nal_unit_type h <=? 47); [apply psafe_bind; [apply psafe_single|intros; apply psafe_ret]|].
    destruct (nal_unit_type h =? AP); [apply psafe_bind; [apply psafe_ap|intros; apply psafe_ret]|].
    destruct (nal_unit_type h =? FU); [apply psafe_bind; [apply psafe_fu|intros; apply psafe_ret]|apply psafe_ret]. }
  specialize (G st (mk_bb rbsp) W S (le_n _)).
  match type of G with match ?x with _ => _ end => destruct x as [[o st2] b2|b2|e] end; [|exact G|exact G]. apply G.
Qed.
Lemma psafe_unit sized opts N : psafe sized N (h <~ lift ParseNalUnitHeader ;; p <~ ParseNalUnitPayload (nal_unit_type h) ;; len <~ lift (fun b => Ok (get_current_offset b) b) ;;
  sret (mkNU 0 0 len opts h p))%smonad.
Proof.
  eapply psafe_lift; [apply wp_nal_header|intros h]. apply psafe_bind; [apply psafe_payload|intros p].
  eapply psafe_lift; [|intros len; apply psafe_ret]. intros b W. exists []. split; [apply steps_refl, W|instantiate (1 := any); exact I].
Qed.

(** * Calls *)
Definition pgood (sized : bool) (o : outcome state) : Prop := match o with Done st' => planted sized st' | Bad e => mishap sized e end.
Lemma sbind_some_ok {A B} (m : SM A) (f : A -> SM B) st b a st1 b1 : m st b = Ok (Some a, st1) b1 -> sbind m f st b = f a st1 b1.
Proof. intros E. unfold sbind, bind. rewrite E. reflexivity. Qed.
Lemma pgood_buffer {A} sized (m : SM A) data st : byte_string data ->
  (match m st (mk_bb data) with Ok (_, st') _ => planted sized st' | Fail _ => False | Err e => mishap sized e end) ->
  pgood sized (new_state (on_buffer_st m data st)).
Proof.
  intros [F L] H. unfold on_buffer_st, init_ok. replace (Z.of_nat (length data) <=? u32_max) with true by (unfold u32_max; lia).
  destruct (m st (mk_bb data)) as [[o st']|b|e]; [exact H|destruct H|exact H].
Qed.
Lemma pgood_psafe {A} sized (m : SM A) data st : byte_string data -> planted sized st -> (forall N, psafe sized N m) -> pgood sized (new_state (on_buffer_st m data st)).
Proof.
  intros D S H. apply pgood_buffer; [exact D|]. destruct D as [F L]. pose proof (H _ st (mk_bb data) (wf_mk _ F L) S (le_n _)) as G.
  destruct (m st (mk_bb data)) as [[o st'] b|b|e]; [apply G|exact G|exact G].
Qed.
Lemma pgood_data {A} sized (m : SM A) data st : byte_string data -> planted sized st -> (forall N, psafe sized N m) -> pgood sized (new_state (on_data_st m data st)).
Proof.
  intros D S H. destruct (Unescape_byte_string data D) as (rbsp & Er & D'). unfold on_data_st. rewrite Er. apply pgood_psafe; assumption.
Qed.
Lemma pgood_unescaped sized opts data st : byte_string data -> planted sized st -> pgood sized (new_state (ParseNalUnitUnescaped opts data st)).
Proof.
  intros D S. apply pgood_buffer; [exact D|]. pose proof D as [F L]. pose proof (wf_mk _ F L) as W. unfold ParseNalUnitBuffer.
  assert (E : exists cs, (if add_checksum opts then c <~ lift GetNaluChecksum ;; sret (Some c) else sret None)%smonad st (mk_bb data) = Ok (Some cs, st) (mk_bb data)).
  { destruct (add_checksum opts); [|eexists; reflexivity]. eexists. unfold sbind, lift, bind, attempt. rewrite GetNaluChecksum_spec by (assumption || reflexivity). reflexivity. }
  destruct E as (cs & E). rewrite (sbind_some_ok _ _ _ _ _ _ _ E). pose proof (psafe_unit sized cs (length (rem (mk_bb data))) st (mk_bb data) W S (le_n _)) as G.
  match type of G with match ?x with _ => _ end => destruct x as [[o st2] b2|b2|e] end; [apply G|exact G|exact G].
Qed.
Lemma pgood_unit sized opts data st : byte_string data -> planted sized st -> pgood sized (new_state (ParseNalUnit opts data st)).
Proof.
  intros D S. destruct (Unescape_byte_string data D) as (rbsp & Er & D'). rewrite (nal_unit_unesc _ _ _ _ Er). apply pgood_unescaped; assumption.
Qed.
Lemma pgood_all sized opts : forall ds st, Forall byte_string ds -> planted sized st -> pgood sized (new_state (parse_all opts ds st)).
Proof.
  induction ds as [|d ds IH]; intros st F S; cbn [parse_all]; [exact S|]. inversion F as [|? ? D F']; subst.
  pose proof (pgood_unit sized opts d st D S) as G. destruct (ParseNalUnit opts d st) as [[u st1]|e]; [|exact G]. specialize (IH st1 F' G).
  destruct (parse_all opts ds st1) as [[us st2]|e]; exact IH.
Qed.
Lemma psafe_nalu sized opts N : psafe sized N (ParseHvccNalu opts).
Proof.
  unfold ParseHvccNalu. eapply psafe_lift_bind; [apply (wp_u_ok 16); lia|]. intros len bs1 [Ul _].
  eapply psafe_lift_bind; [apply wp_bytes|]. cbv beta. intros x bs2 [[L2 F2] _]. apply is_byte_ok in F2. unfold u_ok in Ul. assert (D : byte_string x) by (split; [exact F2|lia]).
  apply psafe_bind; [|intros; apply psafe_ret]. intros st b W S L. unfold scall. pose proof (pgood_unit sized opts x st D S) as G.
  destruct (ParseNalUnit opts x st) as [[u st1]|e]; [|exact G]. split; [exact W|]. split; [lia|exact G].
Qed.
Lemma psafe_collect {A} sized N (m : SM A) n : psafe sized N m -> psafe sized N (scollect n m).
Proof.
  intros H. induction n as [|n IH]; cbn [scollect]; [apply psafe_ret|]. apply psafe_bind; [exact H|intros x]. apply psafe_bind; [exact IH|intros l]. apply psafe_ret.
Qed.
Lemma psafe_array sized opts N : psafe sized N (ParseHvccArray opts).
Proof.
  unfold ParseHvccArray. eapply psafe_lift; [apply (wp_u_ok 1); lia|intros c]. eapply psafe_lift; [apply (wp_fixed 1 0); lia|intros _].
  eapply psafe_lift; [apply (wp_u_ok 6); lia|intros t]. eapply psafe_lift; [apply (wp_u_ok 16); lia|intros n].
  apply psafe_bind; [apply psafe_collect, psafe_nalu|intros l]. apply psafe_ret.
Qed.
Lemma psafe_box sized opts N : psafe sized N (ParseConfigurationBoxBuffer opts).
Proof.
  unfold ParseConfigurationBoxBuffer. eapply psafe_lift; [apply wp_hvcc_header|intros h]. apply psafe_bind; [apply psafe_collect, psafe_array|intros l]. apply psafe_ret.
Qed.
Lemma pgood_annexb sized opts data st : byte_string data -> planted sized st -> pgood sized (new_state (ParseBitstream opts data st)).
Proof.
  intros H S. pose proof H as [F L]. rewrite ParseBitstream_spec by lia. pose proof (annexb_in_bounds data ltac:(lia)) as B.
  assert (Fb : Forall byte_string (map (payload data) (annexb_units data))).
  { apply Forall_map. eapply Forall_impl; [|exact B]. intros ix. apply sub_bytes, H. }
  pose proof (pgood_all sized opts _ st Fb S) as G. destruct (parse_all opts (map (payload data) (annexb_units data)) st) as [[us st1]|e]; exact G.
Qed.
Lemma pgood_rtp sized data st : byte_string data -> planted sized st -> pgood sized (new_state (ParseRtp data st)).
Proof.
  intros D S. destruct (Unescape_byte_string data D) as (rbsp & Er & D'). unfold ParseRtp, on_data_st. rewrite Er. apply pgood_buffer; [exact D'|]. apply psafe_rtp_at; assumption.
Qed.
Lemma pgood_call sized c st : call_ok c -> planted sized st -> pgood sized (perform c st).
Proof.
  intros H S. destruct c as [opts data|opts data|opts data n|opts data|data]; cbn [perform call_ok] in *.
  - apply pgood_unit; assumption.
  - apply pgood_annexb; assumption.
  - destruct H as [[F L] Hn]. destruct (C24_length_prefixed opts data n st F ltac:(lia) Hn) as (nals & tail & E & Fu & I & ->).
    assert (Fb : Forall byte_string nals) by (apply (framed_bytes n nals tail); rewrite <- E; split; assumption).
    pose proof (pgood_all sized opts _ st Fb S) as G. destruct (parse_all opts nals st) as [[us st1]|e]; exact G.
  - apply pgood_psafe; [exact H|exact S|]. intros N. apply psafe_box.
  - apply pgood_rtp; assumption.
Qed.
Lemma pgood_pure sized (E : errs) {A} (m : M A) Q data st : wp E m Q -> (forall e l, err_in E e l -> mishap sized e) -> byte_string data -> planted sized st ->
  pgood sized (unchanged (on_data m data) st).
Proof.
  intros H HE D S. destruct (on_data_wp _ _ _ _ H D) as (rbsp & _ & G). destruct (on_data m data) as [o|x]; [exact S|]. eapply HE, G.
Qed.
Lemma no_mishap sized e l : err_in no_err e l -> mishap sized e.
Proof. intros []. Qed.
Lemma ovf_mishap sized e l : err_in ovf_only e l -> mishap sized e.
Proof. intros [H _]. left. exact H. Qed.
Lemma any_mishap sized e l : err_in ovf_any e l -> mishap sized e.
Proof. intros H. left. exact H. Qed.
Lemma all_mishaps sized e l : err_in (mishaps sized) e l -> mishap sized e.
Proof. intros H. exact H. Qed.
Lemma run_planted sized e data st : entry_ok e data -> planted sized st -> pgood sized (run e data st).
Proof.
  intros H S. pose proof (no_mishap sized) as M0. pose proof (ovf_mishap sized) as M1. destruct e; cbn [run]; try (destruct H as [D H]).
  - apply pgood_call; assumption.
  - apply pgood_unescaped; assumption.
  - apply pgood_data; [exact D|exact S|]. intros N. apply psafe_payload.
  - apply pgood_data; [exact D|exact S|]. intros N. apply psafe_single.
  - apply pgood_data; [exact D|exact S|]. intros N. apply psafe_ap.
  - apply pgood_data; [exact D|exact S|]. intros N. apply psafe_fu.
  - eapply pgood_pure; [apply wp_slice_any, S|apply all_mishaps|exact D|exact S].
  - eapply pgood_pure; [apply wp_slice_any, S|apply all_mishaps|exact D|exact S].
  - eapply pgood_pure; [apply wp_nal_header|exact M0| |]; assumption.
  - unfold GetNalUnitType, on_buffer, init_ok. pose proof D as [F L]. replace (Z.of_nat (length data) <=? u32_max) with true by (unfold u32_max; lia).
    assert (W : wp no_err (bind ParseNalUnitHeader (fun h => ret (nal_unit_type h))) any).
    { apply wp_bind_any; [eapply wp_any, wp_nal_header|]. intros h. apply wp_ret. exact I. }
    specialize (W _ (wf_mk _ F L)). destruct (bind ParseNalUnitHeader (fun h => ret (nal_unit_type h)) (mk_bb data)); [exact S|exact S|destruct W].
  - eapply pgood_pure; [apply wp_Aud|exact M0| |]; assumption.
  - eapply pgood_pure; [apply wp_Vps|exact M0| |]; assumption.
  - eapply pgood_pure; [apply wp_Sps|exact M1| |]; assumption.
  - eapply pgood_pure; [apply wp_Pps|exact M1| |]; assumption.
  - eapply pgood_pure; [apply wp_Sei|exact M1| |]; assumption.
  - eapply pgood_pure; [apply wp_ptl|exact M0| |]; assumption.
  - eapply pgood_pure; [apply wp_profile_info|exact M0| |]; assumption.
  - eapply pgood_pure; [apply wp_sub_layer_hrd|exact M0| |]; assumption.
  - eapply pgood_pure; [apply wp_hrd|exact M0| |]; assumption.
  - eapply pgood_pure; [apply wp_vui|exact M0| |]; assumption.
  - eapply pgood_pure; [apply wp_sps_range_ext|exact M0| |]; assumption.
  - eapply pgood_pure; [apply wp_u1_ext|exact M0| |]; assumption.
  - eapply pgood_pure; [apply wp_sps_3d_ext|exact M0| |]; assumption.
  - destruct H as (H1 & H2 & H3 & H4 & H5). eapply pgood_pure; [apply wp_scc_any; assumption|exact M0| |]; assumption.
  - eapply pgood_pure; [apply wpa_pps_ml_ext|exact M1| |]; assumption.
  - eapply pgood_pure; [apply wpa_pps_scc_ext|exact M1| |]; assumption.
  - eapply pgood_pure; [apply (wpa_pwt ovf_only _ _ ovf_in_only)|exact M1| |]; assumption.
  - eapply pgood_pure; [apply (wpa_scaling_list_data ovf_only ovf_in_only)|exact M1| |]; assumption.
  - destruct H as (Hi & Hn & Hm & Hl & F). eapply pgood_pure; [apply (wp_rps_any ovf_any _ idx num sets max_num_pics Hi Hm Hl F (derives_weak sets))|apply any_mishap| |]; assumption.
Qed.

(** * C93 *)
(** What a caller can do with a state: call any entry point, or put (or remove) a parameter set of its own under any key. *)
Definition put {A} (m : Z -> option A) (k : Z) (o : option A) : Z -> option A := fun i => if i =? k then o else m i.
Inductive visited (sized : bool) : state -> Prop :=
| v_new : visited sized empty_state
| v_call st e data st' : visited sized st -> entry_ok e data -> run e data st = Done st' -> visited sized st'
| v_vps st k o : visited sized st -> visited sized (mkState (put (st_vps st) k o) (st_sps st) (st_pps st))
| v_sps st k o : visited sized st -> (forall s x, o = Some (s, x) -> usable_sps sized s) -> visited sized (mkState (st_vps st) (put (st_sps st) k o) (st_pps st))
| v_pps st k o : visited sized st -> (forall p x, o = Some (p, x) -> usable_pps p) -> visited sized (mkState (st_vps st) (st_sps st) (put (st_pps st) k o)).
Lemma visited_planted sized st : visited sized st -> planted sized st.
Proof.
  intros V. induction V as [|st e data st' V IH H E|st k o V IH|st k o V IH H|st k o V IH H].
  - apply planted_parsed, empty_store_ok.
  - pose proof (run_planted sized e data st H IH) as G. rewrite E in G. exact G.
  - exact IH.
  - destruct IH as [P1 P2]. split; [|exact P2]. intros i s x. cbn [st_sps]. unfold put. destruct (i =? k); [apply H|apply P1].
  - destruct IH as [P1 P2]. split; [exact P1|]. intros i s x. cbn [st_pps]. unfold put. destruct (i =? k); [apply H|apply P2].
Qed.
(** With usable sets of its own, a caller meets no other undefined behaviour than without: signed overflow. *)
Theorem C93_only_overflow : forall st e data x, visited true st -> entry_ok e data -> run e data st = Bad x -> x = SignedOverflow.
Proof.
  intros st e data x V H E. pose proof (run_planted true e data st H (visited_planted _ _ V)) as G. rewrite E in G. destruct G as [G|[G _]]; [exact G|discriminate G].
Qed.
(** If the planted sets may have a picture size of 0: also the conversion of the logarithm of 0. *)
Theorem C93_unsized : forall st e data x, visited false st -> entry_ok e data -> run e data st = Bad x -> x = SignedOverflow \/ x = BadConversion.
Proof.
  intros st e data x V H E. pose proof (run_planted false e data st H (visited_planted _ _ V)) as G. rewrite E in G. destruct G as [G|[_ G]]; auto.
Qed.
(** The QPs of a stream and of a packet, with the state after it or with any other: the last has the known defect of the empty aggregation packet. *)
Lemma qp_unit_mishap ty p st x : GetSliceQpYInternal ty p st = Bad x -> x = SignedOverflow.
Proof.
  unfold GetSliceQpYInternal, add_i32. intros H. destruct (negb (IsSliceSegment ty)); [discriminate H|]. destruct (np_slice p) as [h|]; [|discriminate H].
  destruct (st_pps st (slice_pic_parameter_set_id h)) as [[q y]|]; [|discriminate H]. destruct (in_i32 (26 + init_qp_minus26 q)); [|injection H as <-; reflexivity].
  destruct (in_i32 (26 + init_qp_minus26 q + slice_qp_delta h)); [discriminate H|injection H as <-; reflexivity].
Qed.
Lemma qp_loop_mishap us st x : qp_loop us st = Bad x -> x = SignedOverflow.
Proof.
  induction us as [|u us IH]; cbn [qp_loop]; intros H; [discriminate H|]. destruct (GetSliceQpYInternal (nal_unit_type (nu_header u)) (nu_payload u) st) as [o|e] eqn:E.
  - destruct (qp_loop us st) as [l|e]; [discriminate H|]. apply IH. exact H.
  - injection H as <-. eapply qp_unit_mishap, E.
Qed.
Theorem C93_qp : forall sized st data, visited sized st -> byte_string data ->
  match GetSliceQpY data st with Done (_, st') => planted sized st' | Bad x => x = SignedOverflow \/ sized = false /\ x = BadConversion end.
Proof.
  intros sized st data V D. unfold GetSliceQpY. pose proof (pgood_annexb sized qp_options data st D (visited_planted _ _ V)) as G.
  destruct (ParseBitstream qp_options data st) as [[bs st']|e]; [|exact G]. destruct (qp_loop (bs_units bs) st') as [l|e] eqn:E; [exact G|]. left. eapply qp_loop_mishap, E.
Qed.
Theorem C93_rtp_qp : forall st0 data r st1 st x, byte_string data -> ParseRtp data st0 = Done (Some r, st1) ->
  GetSliceQpYRtp r st = Bad x -> x = SignedOverflow \/ x = OutOfBounds /\ exists a, r_ap r = Some a /\ ra_units a = [].
Proof.
  intros st0 data r st1 st x D E H. destruct (C43_shape _ _ _ _ D E) as (S1 & S2 & S3 & _). unfold GetSliceQpYRtp, AP, FU in H.
  destruct (Z.leb_spec (nal_unit_type (rtp_header r)) 47) as [L|L].
  - destruct (S1 L) as (_ & _ & s & Es & _). rewrite Es in H. left. eapply qp_unit_mishap, H.
  - destruct (Z.eqb_spec (nal_unit_type (rtp_header r)) 48) as [Ea|Ea].
    + destruct (S2 Ea) as (_ & _ & a & Er & _). rewrite Er in H. destruct (rev (ra_units a)) as [|u l] eqn:Eu; [|left; eapply qp_unit_mishap, H].
      right. injection H as <-. split; [reflexivity|]. exists a. split; [exact Er|]. apply (f_equal (@rev _)) in Eu. rewrite rev_involutive in Eu. exact Eu.
    + destruct (Z.eqb_spec (nal_unit_type (rtp_header r)) 49) as [Ef|Ef]; [|discriminate H]. destruct (S3 Ef) as (_ & _ & f & Er & _). rewrite Er in H.
      destruct (s_bit f =? 0); [discriminate H|]. destruct (rf_payload f); [|discriminate H]. left. eapply qp_unit_mishap, H.
Qed.
(** When exactly a slice header meets the conversion: a segment that is not the first of its picture, whose parameter sets are there and give a picture
    size of 0, up to the flag before slice_segment_address. *)
Definition header_start (ty : Z) (st : state) (l : list bool) (s : sps) : Prop := exists z pid p x y d rest,
  l = [false] ++ z ++ enc_ue pid ++ d ++ rest /\ 0 <= pid < 2 ^ 32 - 1 /\ st_pps st pid = Some (p, x) /\ st_sps st (pps_seq_parameter_set_id p) = Some (s, y) /\
  length z = (if (16 <=? ty) && (ty <=? 23) then 1%nat else 0%nat) /\ length d = (if dependent_slice_segments_enabled_flag p =? 0 then 0%nat else 1%nat).
Lemma read_bit x b rest : wf b -> rem b = x :: rest -> ReadBits 1 b = Ok (Z.b2z x) (adv b 1) /\ wf (adv b 1) /\ rem (adv b 1) = rest.
Proof.
  intros W R. assert (E : enc_u (Z.to_nat 1) (Z.b2z x) = [x]) by (destruct x; reflexivity).
  assert (R' : rem b = enc_u (Z.to_nat 1) (Z.b2z x) ++ rest) by (rewrite E; exact R).
  pose proof (parses_u 1 (Z.b2z x) ltac:(lia) ltac:(destruct x; cbn; lia) b rest W R') as P. pose proof (wf_adv_app _ _ _ W R') as W'. pose proof (rem_adv_app _ _ _ W R') as R2.
  rewrite E in *. auto.
Qed.
Lemma bit_steps v b b' : u_ok 1 v -> steps b b' (enc_u (Z.to_nat 1) v) -> exists x, v = Z.b2z x /\ rem b = x :: rem b'.
Proof.
  intros U [E _]. unfold u_ok in U. assert (v = 0 \/ v = 1) as [->| ->] by lia; [exists false|exists true]; (split; [reflexivity|exact E]).
Qed.
Lemma bind_ok' {A B} (m : M A) (f : A -> M B) b a b' : m b = Ok a b' -> bind m f b = f a b'.
Proof. intros E. unfold bind. rewrite E. reflexivity. Qed.
Lemma header_conversion ty st b : wf b -> planted false st -> (ParseSliceSegmentHeader ty st b = Err BadConversion <-> exists s, header_start ty st (rem b) s /\ getPicSizeInCtbsY s = 0).
Proof.
  intros W [P1 P2]. split.
  - intros E. unfold ParseSliceSegmentHeader in E. unfold bind at 1 in E.
    pose proof (wp_u_ok 1 ltac:(lia) b W) as H1. destruct (ReadBits 1 b) as [f b1|b1|e]; [|discriminate E|destruct H1].
    destruct H1 as (bs1 & S1 & U1 & ->). pose proof (steps_wf _ _ _ W S1) as W1. destruct (bit_steps _ _ _ U1 S1) as (f0 & -> & R1).
    assert (H2 : wp no_err (when (irap_type ty) (ReadBits 1) 0) (fun _ bs => length bs = (if (16 <=? ty) && (ty <=? 23) then 1%nat else 0%nat))).
    { unfold irap_type. destruct ((16 <=? ty) && (ty <=? 23)); cbn [when]; [eapply wp_weaken; [apply (wp_u_ok 1); lia|]; cbv beta; intros a bs [_ ->]; apply length_enc_u|].
      apply wp_ret. reflexivity. }
    unfold bind at 1 in E. specialize (H2 b1 W1). destruct (when (irap_type ty) (ReadBits 1) 0 b1) as [no b2|b2|e]; [|discriminate E|destruct H2].
    destruct H2 as (z & S2 & Lz). pose proof (steps_wf _ _ _ W1 S2) as W2.
    unfold bind at 1 in E. pose proof (wp_ue b2 W2) as H3. destruct (ReadExponentialGolomb b2) as [pid b3|b3|e]; [|discriminate E|destruct H3].
    destruct H3 as (bs3 & S3 & Hp & ->). pose proof (steps_wf _ _ _ W2 S3) as W3.
    destruct (st_pps st pid) as [[p x]|] eqn:Ep; [|discriminate E]. destruct (st_sps st (pps_seq_parameter_set_id p)) as [[s y]|] eqn:Es; [|discriminate E].
    pose proof (P1 _ _ _ Es) as Us. pose proof (P2 _ _ _ Ep) as Up.
    assert (K : (true = true -> nz (Z.b2z f0) = false -> getPicSizeInCtbsY s <> 0) -> False).
    { intros US. pose proof (wp_slice_rest_any true ty s p (Z.b2z f0) no pid Us US Up b3 W3) as G. rewrite E in G. destruct G as [G|[G _]]; discriminate G. }
    assert (D : f0 = false /\ getPicSizeInCtbsY s = 0).
    { destruct f0; [exfalso; apply K; intros _ H; discriminate H|]. split; [reflexivity|]. destruct (Z.eq_dec (getPicSizeInCtbsY s) 0) as [D|D]; [exact D|]. destruct K. intros _ _. exact D. }
    clear K. destruct D as [-> D]. exists s. split; [|exact D]. unfold slice_rest in E. cbv zeta in E. unfold bind at 1 in E.
    assert (H4 : wp no_err (when (negb (nz (Z.b2z false)) && nz (dependent_slice_segments_enabled_flag p)) (ReadBits 1) 0)
      (fun _ bs => length bs = (if dependent_slice_segments_enabled_flag p =? 0 then 0%nat else 1%nat))).
    { unfold nz. cbn [Z.b2z Z.eqb negb andb]. destruct (dependent_slice_segments_enabled_flag p =? 0); cbn [negb when]; [apply wp_ret; reflexivity|].
      eapply wp_weaken; [apply (wp_u_ok 1); lia|]. cbv beta. intros a bs [_ ->]. apply length_enc_u. }
    specialize (H4 b3 W3). destruct (when (negb (nz (Z.b2z false)) && nz (dependent_slice_segments_enabled_flag p)) (ReadBits 1) 0 b3) as [dep b4|b4|e]; [|discriminate E|destruct H4].
    destruct H4 as (d & S4 & Ld). exists z, pid, p, x, y, d, (rem b4). split; [|auto 10].
    rewrite R1. destruct S2 as [-> _]. destruct S3 as [-> _]. destruct S4 as [-> _]. reflexivity.
  - intros (s & (z & pid & p & x & y & d & rest & R & Hp & Ep & Es & Lz & Ld) & D). unfold ParseSliceSegmentHeader.
    destruct (read_bit false b _ W R) as (E1 & W1 & R1). rewrite (bind_ok' _ _ _ _ _ E1). set (b1 := adv b 1) in *. cbn [app] in R1.
    assert (H2 : exists no b2, when (irap_type ty) (ReadBits 1) 0 b1 = Ok no b2 /\ wf b2 /\ rem b2 = enc_ue pid ++ d ++ rest).
    { unfold irap_type. destruct ((16 <=? ty) && (ty <=? 23)); cbn [when].
      - destruct z as [|z0 [|z1 z]]; try discriminate Lz. destruct (read_bit z0 b1 _ W1 R1) as (E2 & W2 & R2). eauto.
      - destruct z; [|discriminate Lz]. exists 0, b1. auto. }
    destruct H2 as (no & b2 & E2 & W2 & R2). rewrite (bind_ok' _ _ _ _ _ E2). rewrite (bind_ok' _ _ _ _ _ (parses_ue pid Hp b2 _ W2 R2)).
    pose proof (wf_adv_app _ _ _ W2 R2) as W3. pose proof (rem_adv_app _ _ _ W2 R2) as R3. set (b3 := adv b2 (length (enc_ue pid))) in *.
    rewrite Ep, Es. unfold slice_rest. cbv zeta.
    assert (H4 : exists dep b4, when (negb (nz (Z.b2z false)) && nz (dependent_slice_segments_enabled_flag p)) (ReadBits 1) 0 b3 = Ok dep b4).
    { unfold nz. cbn [Z.b2z Z.eqb negb andb]. destruct (dependent_slice_segments_enabled_flag p =? 0); cbn [negb when]; [eexists; eexists; reflexivity|].
      destruct d as [|d0 [|d1 d]]; try discriminate Ld. destruct (read_bit d0 b3 _ W3 R3) as (E4 & _). eauto. }
    destruct H4 as (dep & b4 & E4). rewrite (bind_ok' _ _ _ _ _ E4). unfold size_conversion. change (nz (Z.b2z false)) with false. cbv iota.
    pose proof (us_shift _ _ (P1 _ _ _ Es)). destruct (Z.leb_spec 32 (getCtbLog2SizeY s)); [lia|]. rewrite D. reflexivity.
Qed.
Theorem C93_conversion : forall ty data rbsp st, visited false st -> byte_string data -> UnescapeRbsp data = Done rbsp ->
  (run (SliceHeader ty) data st = Bad BadConversion <-> exists s, header_start ty st (bits_of rbsp) s /\ getPicSizeInCtbsY s = 0).
Proof.
  intros ty data rbsp st V D Er. destruct (Unescape_byte_string data D) as (rbsp' & Er' & [F L]). rewrite Er in Er'. injection Er' as <-.
  rewrite <- (header_conversion ty st (mk_bb rbsp) (wf_mk _ F L) (visited_planted _ _ V)). cbn [run]. unfold on_data. rewrite Er. unfold on_buffer, init_ok.
  replace (Z.of_nat (length rbsp) <=? u32_max) with true by (unfold u32_max; lia).
  destruct (ParseSliceSegmentHeader ty st (mk_bb rbsp)); cbn [unchanged]; (split; intros E; [first [discriminate E|injection E as ->; reflexivity]|first [discriminate E|injection E as ->; reflexivity]]).
Qed.
(** The sets that the parsers return are usable. *)
Theorem C93_parsed : forall data, byte_string data ->
  (forall s x, on_data ParseSps data = Done (Some (s, x)) -> usable_sps true s) /\ (forall p x, on_data ParsePps data = Done (Some (p, x)) -> usable_pps p).
Proof.
  intros data D. split; intros s x E.
  - destruct (on_data_wp _ _ _ _ wp_Sps D) as (rbsp & _ & G). rewrite E in G. destruct G as (bs & H & _). apply parsed_usable, H.
  - destruct (on_data_wp _ _ _ _ wp_Pps D) as (rbsp & _ & G). rewrite E in G. destruct G as (bs & H & _). apply parsed_usable_pps, H.
Qed.

(** ** Each condition is needed *)
(** include/h265_sps_parser.h:74-150: a SpsState after construction, with the fields of the conditions set *)
Definition mock_sps (log2_min_cb width height num lsb sao chroma : Z) (sets : list rps) : sps :=
  mkSPS 0 0 0 (mkPTL None 0 [] [] []) 0 chroma 0 width height 0 0 0 0 0 0 0 lsb 0 [] log2_min_cb 0 0 0 0 0 0 0 None 0 sao 0 0 0 0 0 0 num sets 0 0 [] 0 0 0 None 0 0 0 0 0 0 None None None None.
(** include/h265_pps_parser.h: a PpsState after construction, with pps_scc_extension_flag *)
Definition mock_pps (scc : Z) : pps :=
  mkPPS 0 0 0 0 0 0 0 0 0 0 0 0 0 0 0 0 0 0 0 0 0 0 0 0 0 [] [] 0 0 0 0 0 0 0 0 None 0 0 0 0 0 0 0 scc 0 None None.
Definition mock_state (s : sps) (p : pps) : state := mkState (fun _ => None) (put (fun _ => None) 0 (Some (s, 0))) (put (fun _ => None) 0 (Some (p, 0))).
Lemma mock_planted sized s p : usable_sps sized s -> usable_pps p -> planted sized (mock_state s p).
Proof.
  intros H1 H2. split; intros k v x; unfold mock_state; cbn [st_sps st_pps]; unfold put; destruct (k =? 0); try discriminate; intros E; injection E as <- <-; assumption.
Qed.
Lemma mock_usable sized log2 w h lsb sao c : getCtbLog2SizeY (mock_sps log2 w h 0 lsb sao c []) < 32 -> (sized = true -> getPicSizeInCtbsY (mock_sps log2 w h 0 lsb sao c []) <> 0) ->
  (lsb + 4) mod 2 ^ 32 <> 0 -> usable_sps sized (mock_sps log2 w h 0 lsb sao c []).
Proof. intros H1 H2 H3. split; [exact H1|exact H2| |constructor|exact H3]. cbn. lia. Qed.
(** The sizes of coding blocks, of the picture, the number of sets, the numbers of entries of a set, the bits of the picture order count, the SCC extension. *)
Theorem C93_needs_shift : ~ getCtbLog2SizeY (mock_sps 29 64 64 0 0 0 1 []) < 32 /\ run (SliceHeader 1) [0x60] (mock_state (mock_sps 29 64 64 0 0 0 1 []) (mock_pps 0)) = Bad BadShift.
Proof. split; [vm_compute; discriminate|vm_compute; reflexivity]. Qed.
Theorem C93_needs_size : getPicSizeInCtbsY (mock_sps 0 0 0 0 0 1 1 []) = 0 /\ planted false (mock_state (mock_sps 0 0 0 0 0 1 1 []) (mock_pps 0)) /\
  run (SliceHeader 1) [0x60] (mock_state (mock_sps 0 0 0 0 0 1 1 []) (mock_pps 0)) = Bad BadConversion.
Proof.
  split; [vm_compute; reflexivity|]. split; [|vm_compute; reflexivity]. apply mock_planted; [apply mock_usable; [vm_compute; reflexivity|discriminate|lia]|intros H; discriminate H].
Qed.
Theorem C93_needs_sets : run (SliceHeader 1) [0xe0; 0xff; 0xff; 0xff] (mock_state (mock_sps 0 64 64 2 0 0 1 []) (mock_pps 0)) = Bad OutOfBounds.
Proof. vm_compute. reflexivity. Qed.
Definition C93_set (n : Z) : rps := mkRPS 0 0 0 0 [] n 0 [(0, 1)] [].
(** The length of slice_pic_order_cnt_lsb wraps to 0, which the reader refuses by an assertion. *)
Theorem C93_needs_lsb : ~ usable_sps false (mock_sps 0 64 64 0 (2 ^ 32 - 4) 0 1 []) /\
  run (SliceHeader 1) [0xe0; 0xff; 0xff; 0xff] (mock_state (mock_sps 0 64 64 0 (2 ^ 32 - 4) 0 1 []) (mock_pps 0)) = Bad AssertFail.
Proof. split; [intros H; apply (us_lsb _ _ H); reflexivity|]. vm_compute. reflexivity. Qed.
Theorem C93_needs_counts : ~ set_ok (C93_set 3) /\
  run (SliceHeader 1) [0xe0; 0xff; 0xff; 0xff] (mock_state (mock_sps 0 64 64 1 0 0 1 [C93_set 3]) (mock_pps 0)) = Bad OutOfBounds.
Proof. split; [intros (H & _); vm_compute in H; discriminate H|]. vm_compute. reflexivity. Qed.
Theorem C93_needs_scc : ~ usable_pps (mock_pps 1) /\ run (SliceHeader 1) [0xe0; 0xff; 0xff; 0xff] (mock_state (mock_sps 0 64 64 0 0 0 1 []) (mock_pps 1)) = Bad NullDeref.
Proof. split; [intros H; exact (H eq_refl eq_refl)|]. vm_compute. reflexivity. Qed.
(** Usable sets that the caller has filled in by hand: no bytes were parsed, and a slice header that predicts its reference set from the planted one is read. *)
Definition C93_state : state := mock_state (mock_sps 0 64 64 1 0 0 1 [C93_set 1]) (mock_pps 0).
Example C93_case : visited true C93_state /\ entry_ok (SliceHeader 1) [0xe0; 0xff; 0xff; 0xff; 0xff; 0xff] /\
  match on_data (ParseSliceSegmentHeader 1 C93_state) [0xe0; 0xff; 0xff; 0xff; 0xff; 0xff] with
  | Done (Some h) => sh_st_ref_pic_set h = Some (mkRPS 1 0 1 0 [(1, 1); (1, 1)] 2 0 [(0, 1); (0, 1)] [])
  | _ => False
  end.
Proof.
  split; [|split].
  - refine (v_pps true (mkState (st_vps empty_state) (put (st_sps empty_state) 0 (Some (mock_sps 0 64 64 1 0 0 1 [C93_set 1], 0))) (st_pps empty_state)) 0 (Some (mock_pps 0, 0)) _ _).
    + refine (v_sps true empty_state 0 _ (v_new true) _).
      intros s x E. injection E as <- <-. split; [vm_compute; reflexivity|intros _; vm_compute; discriminate| | |].
      * cbn. lia.
      * apply Forall_cons; [|constructor]. split; [reflexivity|]. split; [reflexivity|]. split; [unfold uint32; cbn; lia|]. cbn. repeat constructor; cbn; unfold uint32; lia.
      * cbn. lia.
    + intros p x E. injection E as <- <-. intros H. discriminate H.
  - split; [apply bytesb_ok; vm_compute; reflexivity|]. unfold uint32. lia.
  - vm_compute. reflexivity.
Qed.
