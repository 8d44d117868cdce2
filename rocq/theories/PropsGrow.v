(** C50: the vectors of what the parsers return hold at most two elements per bit of the input. *)
From Coq Require Import ZArith List Bool Lia ZifyBool ZifyNat.
From Verif Require Import MBase MBitBuffer Spec BitsFacts Reader ReaderFacts Rules Syntax SyntaxSe MCommon CommonFacts PropsBits PropsCommon
  MFraming FramingFacts PropsFraming MSyntaxA SpecA FactsA Api PropsA MSyntaxB SpecB FactsB FactsRps PropsB MSps SpecSps FactsSps PropsSps
  MPps SpecPps FactsPps PropsPps MSlice SpecSlice FactsSlice PropsSlice MSei SpecSei FactsSei PropsSei MNal FactsNal PropsNal MRtp FactsRtp PropsRtp PropsQp
  FactsTame PropsSafe FactsLocal SpecSize FactsGrow.
Import ListNotations.
Open Scope Z_scope.
Ltac Zify.zify_post_hook ::= Z.div_mod_to_equations.

(** * The stores that calls produce *)
Lemma store_store_counts st : store_ok st -> store_counts st.
Proof.
  intros (_ & H & _) k s x E. destruct (H k s x E) as (_ & O & _). unfold sps_ok_out, sps_ok in O. cbv zeta in O.
  assert (Hr : rps_sets_out (num_short_term_ref_pic_sets s) (sps_st_ref_pic_set s)) by tauto.
  destruct Hr as ((_ & Hr) & _). apply all_from_ok_shape in Hr. eapply Forall_impl; [|exact Hr]. intros r (H1 & H2 & _). split; lia.
Qed.

(** * One structure *)
(** All vectors together hold at most two elements for every bit consumed (vectors that one loop fills in parallel are counted as one). *)
Definition at_most_twice {A} (size : A -> Z) (m : M A) : Prop :=
  forall b a b', wf b -> m b = Ok a b' -> size a <= 2 * (pos b' - pos b).
Lemma grows_twice {A} P (g : A -> Z) m : grows P g m -> at_most_twice g m.
Proof. intros H b a b' W E. apply (H b a b' W E). Qed.
Theorem C50_parameter_sets :
  at_most_twice (fun v => vps_size (fst v)) ParseVps /\ at_most_twice (fun s => sps_size (fst s)) ParseSps /\ at_most_twice (fun p => pps_size (fst p)) ParsePps.
Proof.
  split; [eapply grows_twice, grows_finish, grows_vps|]. split; [eapply grows_twice, grows_finish, grows_sps|eapply grows_twice, grows_finish, grows_pps].
Qed.
Theorem C50_parts :
  (forall present n, at_most_twice ptl_size (ParseProfileTierLevel present n)) /\
  (forall common n, at_most_twice hrd_size (ParseHrdParameters common n)) /\
  (forall n, at_most_twice vui_size (ParseVuiParameters n)) /\
  at_most_twice scaling_list_data_size ParseScalingListData /\
  at_most_twice pps_ml_size ParsePpsMultilayerExtension /\ at_most_twice pps_scc_size ParsePpsSccExtension /\
  (forall cat n, at_most_twice pwt_size (ParsePredWeightTable cat n)) /\
  at_most_twice sei_size ParseSei.
Proof.
  split; [intros; eapply grows_twice, grows_ptl|]. split; [intros; eapply grows_twice, grows_hrd|]. split; [intros; eapply grows_twice, grows_vui|].
  split; [eapply grows_twice, grows_scaling_list_data|]. split; [eapply grows_twice, grows_pps_ml|]. split; [eapply grows_twice, grows_pps_scc|].
  split; [intros; eapply grows_twice, grows_pwt|eapply grows_twice, grows_sei].
Qed.
Theorem C50_slice : forall st nut, reached call_ok st -> at_most_twice slice_size (ParseSliceSegmentHeader nut st).
Proof. intros st nut R. eapply grows_twice, grows_slice, store_store_counts, reached_store, R. Qed.

(** * NAL units *)
Lemma twice_result {A} (m : M A) (E : errs) Q P g b : wf b -> wp E m Q -> grows P g m -> fault m b = None -> osize g (result m b) <= 2 * (pos (stop m b) - pos b).
Proof.
  intros W H G F. destruct (stop_wp _ _ _ _ W H F) as (bs & [_ S]). unfold fault, result, stop in *. destruct (m b) as [a b'|b'|e] eqn:R; [|subst b'; rewrite pos_adv; cbn [osize]; lia|discriminate F].
  apply (G b a b' W R).
Qed.
Lemma payload_twice ty st b : wf b -> store_ok st -> payload_fault ty st b = None ->
  0 <= pos (payload_stop ty st b) - pos b /\ payload_elements (payload_of ty st b) <= 2 * (pos (payload_stop ty st b) - pos b).
Proof.
  intros W S F. split. { destruct (payload_stop_steps ty st b W (store_state_ok _ S) F) as (bs & [_ ->]). rewrite pos_adv. lia. }
  unfold payload_elements, payload_of, payload_stop, payload_fault in *. cbn [np_vps np_sps np_pps np_slice np_sei].
  destruct (slice_nut ty) eqn:N.
  { unfold slice_nut in N. replace (ty =? 32) with false by lia. replace (ty =? 33) with false by lia. replace (ty =? 34) with false by lia. replace ((ty =? 39) || (ty =? 40)) with false by lia.
    pose proof (twice_result _ _ _ _ _ _ W (wp_Slice st ty (store_state_ok _ S)) (grows_slice ty st (store_store_counts _ S)) F). cbn [osize]. lia. }
  destruct (Z.eqb_spec ty 32) as [K|N1]; [assert (osize (fun x => vps_size (fst x)) (result ParseVps b) <= 2 * (pos (stop ParseVps b) - pos b)) by exact (twice_result _ _ _ _ _ _ W wp_Vps (grows_finish _ _ _ _ grows_vps) F); repeat match goal with |- context[ty =? ?k] => replace (ty =? k) with false by lia end; unfold orb, osize in *; lia|].
  destruct (Z.eqb_spec ty 33) as [K|N2]; [assert (osize (fun x => sps_size (fst x)) (result ParseSps b) <= 2 * (pos (stop ParseSps b) - pos b)) by exact (twice_result _ _ _ _ _ _ W wp_Sps (grows_finish _ _ _ _ grows_sps) F); repeat match goal with |- context[ty =? ?k] => replace (ty =? k) with false by lia end; unfold orb, osize in *; lia|].
  destruct (Z.eqb_spec ty 34) as [K|N3]; [assert (osize (fun x => pps_size (fst x)) (result ParsePps b) <= 2 * (pos (stop ParsePps b) - pos b)) by exact (twice_result _ _ _ _ _ _ W wp_Pps (grows_finish _ _ _ _ grows_pps) F); repeat match goal with |- context[ty =? ?k] => replace (ty =? k) with false by lia end; unfold orb, osize in *; lia|].
  destruct (Z.eqb_spec ty 35) as [K|N4]; [destruct (stop_wp _ _ _ _ W wp_Aud F) as (bs & [_ ->]); rewrite pos_adv; repeat match goal with |- context[ty =? ?k] => replace (ty =? k) with false by lia end; unfold orb, osize; lia|].
  destruct ((ty =? 39) || (ty =? 40)); [|cbn [osize]; lia].
  pose proof (twice_result _ _ _ _ _ _ W wp_Sei grows_sei F). cbn [osize]. lia.
Qed.
Lemma steps_pos b b' bs : wf b -> steps b b' bs -> pos b <= pos b' <= 8 * Z.of_nat (length (bb_bytes b)).
Proof.
  intros W S. pose proof (steps_wf _ _ _ W S) as W'. destruct S as [_ ->]. split; [rewrite pos_adv; lia|].
  destruct W' as (_ & H2 & _ & _ & _ & H6). rewrite H2 in H6. exact H6.
Qed.
Lemma unit_twice opts data st u st' : byte_string data -> store_ok st -> ParseNalUnit opts data st = Done (Some u, st') ->
  0 <= 16 * len data - 32 /\ unit_elements u <= 16 * len data - 32.
Proof.
  intros D S E. destruct (Unescape_byte_string data D) as (rbsp & Er & D'). rewrite (nal_unit_unesc _ _ _ _ Er) in E.
  destruct (C10_unescape_only_removes data) as (o & Eo & _ & L & _). rewrite Er in Eo. injection Eo as <-.
  destruct (le_lt_dec 2 (length rbsp)) as [H|H]; [|rewrite (nal_unit_short opts rbsp st D' H) in E; discriminate E].
  destruct (nal_unit_long opts rbsp st D' (store_state_ok _ S) H) as (h & _ & _ & W & E2). rewrite E2 in E.
  destruct (payload_fault _ _ _) eqn:F; [discriminate E|]. injection E as <- <-. unfold unit_elements, unit_of. cbn [nu_payload].
  destruct (payload_twice _ _ _ W S F) as [_ G]. destruct (payload_stop_steps _ _ _ W (store_state_ok _ S) F) as (bs & T).
  pose proof (steps_pos _ _ _ W T) as P. rewrite pos_adv in *. change (pos (mk_bb rbsp)) with 0 in *. cbn [adv mk_bb bb_bytes] in P. unfold len. lia.
Qed.
(** A NAL unit of [n] bytes gives at most [16 n] elements: whatever counts it claims, and whatever was parsed before with the state. *)
Theorem C50_nal_unit : forall st opts data u st', reached call_ok st -> byte_string data -> ParseNalUnit opts data st = Done (Some u, st') ->
  unit_elements u <= 16 * Z.of_nat (length data).
Proof. intros st opts data u st' R D E. pose proof (unit_twice _ _ _ _ _ D (reached_store _ R) E) as [H1 H2]. unfold len in *. lia. Qed.

(** * Streams *)
Lemma all_twice opts : forall ds st us st', Forall byte_string ds -> store_ok st -> parse_all opts ds st = Done (us, st') ->
  Forall2 (fun d u => osize (fun u => 1 + unit_elements u) u <= 16 * len d) ds us.
Proof.
  induction ds as [|d ds IH]; intros st us st' F S E; cbn [parse_all] in E; [injection E as <- <-; constructor|]. inversion F as [|? ? D F']; subst.
  destruct (ParseNalUnit opts d st) as [[u st1]|e] eqn:E1; [|discriminate E]. destruct (parse_all opts ds st1) as [[us1 st2]|e] eqn:E2; [|discriminate E]. injection E as <- <-.
  pose proof (C22_invariant _ _ _ _ _ D S E1) as S1. constructor; [|eapply IH; eassumption].
  destruct u as [u|]; [pose proof (unit_twice _ _ _ _ _ D S E1); cbn [osize]; lia|cbn [osize]; pose proof (len_nonneg d); lia].
Qed.
Lemma placed_twice data ixs us : Forall2 (fun d u => osize (fun u => 1 + unit_elements u) u <= 16 * len d) (map (payload data) ixs) us ->
  vsize unit_elements (placed ixs us) <= 16 * total (fun ix => len (payload data ix)) ixs.
Proof.
  revert us. induction ixs as [|ix ixs IH]; intros us F; [inversion F; cbn; lia|]. inversion F as [|? u ? us' H F']; subst. specialize (IH us' F'). cbn [placed].
  unfold vsize. rewrite total_app. fold (vsize unit_elements (placed ixs us')). unfold total at 2. cbn [fold_right]. fold (total (fun ix => len (payload data ix)) ixs).
  destruct u as [u|]; unfold place; [|cbn [osize] in H; cbn [total fold_right]; lia].
  replace (total _ [set_range _ _ u]) with (1 + unit_elements u + 0) by reflexivity. cbn [osize] in H. lia.
Qed.
Lemma chained_total data stop ixs : chained stop ixs -> stop <= Z.of_nat (length data) ->
  match ixs with [] => True | ix :: _ => total (fun ix => len (payload data ix)) ixs <= stop - start_offset ix end.
Proof.
  induction ixs as [|ix ixs IH]; [auto|]. intros (H1 & H2 & H3 & H4 & H5) L. specialize (IH H5 L). unfold total. cbn [fold_right]. fold (total (fun ix => len (payload data ix)) ixs).
  assert (len (payload data ix) <= MFraming.payload_size ix) by (unfold len, payload; pose proof (firstn_le_length (Z.to_nat (MFraming.payload_size ix)) (skipn (Z.to_nat (payload_start_offset ix)) data)); lia).
  destruct ixs as [|nx ixs]; [cbn [total fold_right]; lia|lia].
Qed.
Lemma annexb_total data : Z.of_nat (length data) < 2 ^ 64 -> total (fun ix => len (payload data ix)) (annexb_units data) <= len data.
Proof.
  intros L. destruct (C15_ranges data (annexb_units data) L (C15_exact data L)) as [H _]. pose proof (chained_total data _ _ H ltac:(lia)) as G. unfold len at 2.
  destruct (annexb_units data) as [|ix l]; [cbn; lia|]. destruct H as (H & _). lia.
Qed.
(** All NAL units of a stream together hold at most 16 elements per byte of the stream. *)
Theorem C50_annexb : forall st opts data bs st', reached call_ok st -> byte_string data -> ParseBitstream opts data st = Done (bs, st') ->
  bitstream_elements bs <= 16 * Z.of_nat (length data).
Proof.
  intros st opts data bs st' R [F L] E. rewrite ParseBitstream_spec in E by lia. destruct (parse_all _ _ _) as [[us st1]|e] eqn:P; [|discriminate E]. injection E as <- <-.
  unfold bitstream_elements. cbn [bs_units].
  assert (Fb : Forall byte_string (map (payload data) (annexb_units data))).
  { apply Forall_map. eapply Forall_impl; [|apply annexb_in_bounds; lia]. intros ix. apply sub_bytes. split; assumption. }
  pose proof (placed_twice _ _ _ (all_twice _ _ _ _ _ Fb (reached_store _ R) P)) as G. pose proof (annexb_total data ltac:(lia)). unfold len in *. lia.
Qed.
Lemma placed_nl_twice n nals us : forall off, Forall2 (fun d u => osize (fun u => 1 + unit_elements u) u <= 16 * len d) nals us ->
  vsize unit_elements (placed_nl (Z.of_nat n) (framed_ranges n off nals) us) <= 16 * len (framed n nals).
Proof.
  intros off F. revert off. induction F as [|d u nals us H F IH]; intros off; [change (0 <= 16 * len (framed n [])); pose proof (len_nonneg (framed n [])); lia|]. cbn [framed_ranges placed_nl]. rewrite framed_cons. unfold len at 1. rewrite !app_length.
  match goal with |- vsize _ (_ ++ placed_nl _ (framed_ranges _ ?o _) _) <= _ => specialize (IH o) end.
  unfold vsize. rewrite total_app. unfold vsize in IH. unfold len in *.
  destruct u as [u|]; [replace (total _ [set_range _ _ u]) with (1 + unit_elements u + 0) by reflexivity|cbn [total fold_right]]; cbn [osize] in H; lia.
Qed.
Theorem C50_length_prefixed : forall st opts data n bs st', reached call_ok st -> byte_string data -> (0 < n <= 7)%nat ->
  ParseBitstreamNALULength opts data (Z.of_nat n) st = Done (bs, st') -> bitstream_elements bs <= 16 * Z.of_nat (length data).
Proof.
  intros st opts data n bs st' R [F L] Hn E. destruct (C24_length_prefixed opts data n st F ltac:(lia) Hn) as (nals & tail & Ed & Fu & I & Ep). rewrite Ep in E.
  destruct (parse_all _ _ _) as [[us st1]|e] eqn:P; [|discriminate E]. injection E as <- <-. unfold bitstream_elements. cbn [bs_units].
  assert (Fb : Forall byte_string nals) by (apply (framed_bytes n nals tail); rewrite <- Ed; split; assumption).
  pose proof (placed_nl_twice n _ _ 0 (all_twice _ _ _ _ _ Fb (reached_store _ R) P)) as G. rewrite Ed, app_length. unfold len in *. lia.
Qed.
Theorem C50_no_state : forall opts data bs, byte_string data -> ParseBitstreamNoState opts data = Done bs -> bitstream_elements bs <= 16 * Z.of_nat (length data).
Proof.
  intros opts data bs D E. unfold ParseBitstreamNoState in E. destruct (ParseBitstream _ _ _) as [[bs0 st']|e] eqn:P; [|discriminate E]. injection E as <-.
  exact (C50_annexb _ _ _ _ _ (reached_new _) D P).
Qed.
Theorem C50_length_prefixed_no_state : forall opts data n bs, byte_string data -> (0 < n <= 7)%nat ->
  ParseBitstreamNALULengthNoState opts data (Z.of_nat n) = Done bs -> bitstream_elements bs <= 16 * Z.of_nat (length data).
Proof.
  intros opts data n bs D Hn E. unfold ParseBitstreamNALULengthNoState in E. destruct (ParseBitstreamNALULength _ _ _ _) as [[bs0 st']|e] eqn:P; [|discriminate E]. injection E as <-.
  exact (C50_length_prefixed _ _ _ _ _ _ (reached_new _) D Hn P).
Qed.

(** * RTP packets and configuration boxes *)
Definition sgrows {A} (P : A -> Prop) (g : A -> Z) (m : SM A) : Prop := forall st b r st' b', wf b -> store_ok st -> m st b = Ok (r, st') b' ->
  wf b' /\ store_ok st' /\ pos b <= pos b' /\ osize g r <= 2 * (pos b' - pos b) /\ forall a, r = Some a -> P a.
Lemma sgrows_ret {A} (P : A -> Prop) (g : A -> Z) a : P a -> g a <= 0 -> sgrows P g (sret a).
Proof. intros Pa G st b r st' b' W S E. unfold sret, ret in E. injection E as <- <- <-. split; [exact W|]. split; [exact S|]. cbn [osize]. split; [lia|]. split; [lia|]. intros a' [= <-]. exact Pa. Qed.
Lemma sgrows_fail {A} (P : A -> Prop) (g : A -> Z) : sgrows P g sfail.
Proof. intros st b r st' b' W S E. unfold sfail, ret in E. injection E as <- <- <-. split; [exact W|]. split; [exact S|]. cbn [osize]. split; [lia|]. split; [lia|]. discriminate. Qed.
Lemma sgrows_bind {A B} (P1 : A -> Prop) (g : A -> Z) (P : B -> Prop) (f : B -> Z) (m : SM A) (k : A -> SM B) :
  sgrows P1 g m -> (forall a, P1 a -> sgrows P (fun c => f c - g a) (k a)) -> sgrows P f (sbind m k).
Proof.
  intros Hm Hk st b r st' b' W S E. unfold sbind, bind in E. destruct (m st b) as [[[a|] st1] b1|b1|e] eqn:E1; try discriminate E; destruct (Hm _ _ _ _ _ W S E1) as (W1 & S1 & F1 & G1 & P1').
  - destruct (Hk a (P1' a eq_refl) _ _ _ _ _ W1 S1 E) as (W2 & S2 & F2 & G2 & P2). split; [exact W2|]. split; [exact S2|]. split; [lia|]. split; [|exact P2]. destruct r; cbn [osize] in *; lia.
  - unfold ret in E. injection E as <- <- <-. cbn [osize] in *. split; [exact W1|]. split; [exact S1|]. split; [lia|]. split; [lia|]. discriminate.
Qed.
Lemma sgrows_lift {A} E Q P (g : A -> Z) (m : M A) : wp E m Q -> grows P g m -> sgrows P g (lift m).
Proof.
  intros H G st b r st' b' W S R. unfold lift, bind, attempt in R. specialize (H b W). destruct (m b) as [a b1|b1|e] eqn:Em; [| |discriminate R]; injection R as <- <- <-; cbn [osize].
  - destruct H as (bs & [_ T] & _). destruct (G b a b1 W Em) as (W1 & Pa & Ga). split; [exact W1|]. split; [exact S|]. split; [subst b1; rewrite pos_adv; lia|]. split; [exact Ga|]. intros a' [= <-]. exact Pa.
  - destruct H as (bs & T). split; [apply (steps_wf _ _ _ W T)|]. split; [exact S|]. destruct T as [_ ->]. rewrite pos_adv. split; [lia|]. split; [lia|]. discriminate.
Qed.
Lemma sgrows_payload ty : sgrows (fun _ => True) payload_elements (ParseNalUnitPayload ty).
Proof.
  intros st b r st' b' W S E. rewrite payload_spec in E. destruct (payload_fault ty st b) eqn:F; [discriminate E|]. injection E as <- <- <-.
  destruct (payload_twice _ _ _ W S F). destruct (payload_stop_steps _ _ _ W (store_state_ok _ S) F) as (bs & T). split; [apply (steps_wf _ _ _ W T)|]. split; [apply payload_store_ok; assumption|].
  cbn [osize]. split; [lia|]. split; [lia|]. auto.
Qed.
Lemma sgrows_header : sgrows (fun _ => True) (fun _ => 2) (lift ParseNalUnitHeader).
Proof. eapply sgrows_lift; [apply wp_nal_header|]. unfold ParseNalUnitHeader. grun. lia. Qed.
Lemma sgrows_u n : 0 < n -> sgrows (fun a => u_ok n a) (fun _ => 2) (lift (ReadBits n)).
Proof.
  intros H. eapply sgrows_lift; [apply (wp_u_ok n H)|]. intros b a b' W E. destruct (grows_bits n b a b' W E) as (W' & _ & G). split; [exact W'|]. split; [|exact G].
  pose proof (wp_u_ok n H b W) as Q. rewrite E in Q. destruct Q as (bs & _ & Q & _). exact Q.
Qed.
Lemma sgrows_mono {A} (P P' : A -> Prop) (g g' : A -> Z) m : sgrows P g m -> (forall a, P a -> P' a /\ g' a <= g a) -> sgrows P' g' m.
Proof.
  intros H Q st b r st' b' W S E. destruct (H st b r st' b' W S E) as (W' & S' & F & G & Pr). split; [exact W'|]. split; [exact S'|]. split; [exact F|]. destruct r as [a|]; cbn [osize] in *.
  - destruct (Q a (Pr a eq_refl)). split; [lia|]. intros a' [= <-]. assumption.
  - split; [lia|]. discriminate.
Qed.
Lemma sgrows_collect {A} P (g : A -> Z) n (body : SM A) : sgrows P g body -> sgrows (fun _ => True) (total g) (scollect n body).
Proof.
  intros H. induction n as [|n IH]; cbn [scollect]; [apply sgrows_ret; [exact I|cbn; lia]|].
  eapply sgrows_bind; [exact H|]. intros x _. eapply sgrows_bind; [exact IH|]. intros l _. apply sgrows_ret; [exact I|]. cbv beta. unfold total. cbn [fold_right]. lia.
Qed.
Lemma sgrows_single : sgrows (fun _ => True) (fun s => payload_elements (rs_payload s)) ParseRtpSingleBuffer.
Proof.
  unfold ParseRtpSingleBuffer. eapply sgrows_bind; [apply sgrows_header|]. intros h _. eapply sgrows_bind; [apply sgrows_payload|]. intros p _. apply sgrows_ret; [exact I|]. cbn [rs_payload]. lia.
Qed.
Lemma sgrows_fu : sgrows (fun _ => True) (fun f => osize payload_elements (rf_payload f)) ParseRtpFuBuffer.
Proof.
  unfold ParseRtpFuBuffer. eapply sgrows_bind; [apply sgrows_header|]. intros h _. eapply sgrows_bind; [apply sgrows_u; lia|]. intros s _. eapply sgrows_bind; [apply sgrows_u; lia|]. intros e _.
  eapply sgrows_bind; [apply sgrows_u; lia|]. intros t _. destruct (s =? 0); [apply sgrows_ret; [exact I|cbn [rf_payload osize]; lia]|].
  eapply sgrows_bind; [apply sgrows_payload|]. intros p _. apply sgrows_ret; [exact I|]. cbn [rf_payload osize]. lia.
Qed.
Lemma sgrows_remaining : sgrows (fun _ => True) (fun _ => 0) (lift (fun b => Ok (remaining b) b)).
Proof. intros st b r st' b' W S E. cbn in E. injection E as <- <- <-. split; [exact W|]. split; [exact S|]. cbn [osize]. split; [lia|]. split; [lia|]. auto. Qed.
Lemma sgrows_ap_loop fuel : sgrows (fun _ => True) (vsize (fun u => payload_elements (au_payload u))) (ap_loop fuel).
Proof.
  induction fuel as [|fuel IH]; intros st b r st' b' W S E; rewrite ap_loop_eq in E; destruct (negb _); try discriminate E;
    try (refine (sgrows_ret (fun _ => True) _ _ I _ st b r st' b' W S E); cbn; lia).
  revert st b r st' b' W S E. eapply sgrows_bind; [apply sgrows_u; lia|]. intros size _. eapply sgrows_bind; [apply sgrows_remaining|]. intros k _.
  destruct (k <? _); [apply sgrows_fail|]. eapply sgrows_bind; [apply sgrows_header|]. intros h _. eapply sgrows_bind; [apply sgrows_payload|]. intros p _.
  eapply sgrows_bind; [apply IH|]. intros us _. apply sgrows_ret; [exact I|]. unfold vsize, total. cbn [fold_right au_payload]. lia.
Qed.
Lemma sgrows_ap : sgrows (fun _ => True) (fun a => vsize (fun u => payload_elements (au_payload u)) (ra_units a)) ParseRtpApBuffer.
Proof.
  unfold ParseRtpApBuffer. eapply sgrows_bind; [apply sgrows_header|]. intros h _.
  eapply (sgrows_bind (fun _ => True)); [intros st b r st' b' W S E; exact (sgrows_ap_loop _ st b r st' b' W S E)|]. intros us _. apply sgrows_ret; [exact I|]. cbn [ra_units]. lia.
Qed.
Lemma sgrows_data {A} P (g : A -> Z) (m : SM A) data rbsp st r st' : byte_string data -> UnescapeRbsp data = Done rbsp -> store_ok st -> sgrows P g m -> (forall N, ssafe N (zrun 24) m) ->
  on_data_st m data st = Done (Some r, st') -> g r <= 16 * len data.
Proof.
  intros D Er S G Sf E. rewrite (on_data_st_eq _ _ _ _ D Er) in E. pose proof (unesc_bytes _ _ D Er) as [F L]. pose proof (wf_mk _ F L) as W.
  destruct (C10_unescape_only_removes data) as (o & Eo & _ & Lo & _). rewrite Er in Eo. injection Eo as <-.
  pose proof (Sf _ st _ W S (le_n _)) as T. destruct (m st (mk_bb rbsp)) as [[o s1] b1|b1|e] eqn:Em; [|destruct T|discriminate E]. injection E as -> ->.
  destruct (G _ _ _ _ _ W S Em) as (_ & _ & _ & B & _). destruct T as ((bs & T) & _). pose proof (steps_pos _ _ _ W T) as Q. change (pos (mk_bb rbsp)) with 0 in *. cbn [mk_bb bb_bytes osize] in *. unfold len. lia.
Qed.
Theorem C50_rtp : forall st data r st', reached call_ok st -> byte_string data -> ParseRtp data st = Done (Some r, st') -> rtp_elements r <= 16 * Z.of_nat (length data).
Proof.
  intros st data r st' R D E. destruct (Unescape_byte_string data D) as (rbsp & Er & D'). destruct (C43_choice data rbsp st D Er) as [H1 H2]. pose proof (reached_store _ R) as S.
  destruct (le_lt_dec 2 (length rbsp)) as [L|L]; [clear H1|rewrite (H1 L) in E; discriminate E]. destruct (H2 L) as (h & _ & _ & Ep). rewrite Ep in E. clear Ep H2. unfold as_rtp in E.
  destruct (nal_unit_type h <=? 47); [|destruct (nal_unit_type h =? 48); [|destruct (nal_unit_type h =? 49)]].
  - destruct (ParseRtpSingle data st) as [[[s|] s1]|e] eqn:E1; try discriminate E. injection E as <- <-. unfold rtp_elements. cbn [r_single r_ap r_fu osize].
    pose proof (sgrows_data _ _ _ _ _ _ _ _ D Er S sgrows_single ssafe_single E1). unfold len in *. lia.
  - destruct (ParseRtpAp data st) as [[[s|] s1]|e] eqn:E1; try discriminate E. injection E as <- <-. unfold rtp_elements. cbn [r_single r_ap r_fu osize].
    pose proof (sgrows_data _ _ _ _ _ _ _ _ D Er S sgrows_ap ssafe_ap E1). unfold len in *. lia.
  - destruct (ParseRtpFu data st) as [[[s|] s1]|e] eqn:E1; try discriminate E. injection E as <- <-. unfold rtp_elements. cbn [r_single r_ap r_fu osize].
    pose proof (sgrows_data _ _ _ _ _ _ _ _ D Er S sgrows_fu ssafe_fu E1). unfold len in *. lia.
  - injection E as <- <-. unfold rtp_elements. cbn [r_single r_ap r_fu osize]. lia.
Qed.
Lemma length_byte_bits (l : list Z) : length (flat_map (enc_u 8) l) = (8 * length l)%nat.
Proof. exact (length_bits_of l). Qed.
Lemma sgrows_bytes n : sgrows (fun l => Forall is_byte l /\ len l = Z.max 0 n) (fun l => 16 * len l) (lift (ReadBytes n)).
Proof.
  eapply sgrows_lift; [apply wp_bytes|]. intros b l b' W E. pose proof (wp_bytes n b W) as H. unfold ReadBytes in E. rewrite E in H. destruct H as (bs & S & (L & F) & ->). split; [apply (steps_wf _ _ _ W S)|].
  split; [split; [apply is_byte_ok, F|unfold len; lia]|]. destruct S as [_ ->]. rewrite pos_adv, length_byte_bits. unfold len. lia.
Qed.
Lemma sgrows_nalu opts : sgrows (fun _ => True) (fun x => 1 + osize unit_elements (snd x)) (ParseHvccNalu opts).
Proof.
  unfold ParseHvccNalu. eapply sgrows_bind; [apply sgrows_u; lia|]. intros n Hn. eapply sgrows_bind; [apply sgrows_bytes|]. intros l [Fl Ll]. unfold u_ok in Hn.
  intros st b r st' b' W S E. unfold sbind, scall, bind in E. destruct (ParseNalUnit opts l st) as [[u st1]|e] eqn:E1; [|discriminate E]. unfold sret, ret in E. injection E as <- <- <-.
  assert (D : byte_string l) by (split; [exact Fl|unfold len in Ll; lia]). split; [exact W|]. split; [apply (C22_invariant _ _ _ _ _ D S E1)|]. split; [lia|]. cbn [osize snd]. split; [|auto].
  destruct u as [u|]; cbn [osize]; [pose proof (unit_twice _ _ _ _ _ D S E1); lia|pose proof (len_nonneg l); lia].
Qed.
Lemma sgrows_fixed n v : 0 < n -> sgrows (fun _ => True) (fun _ => 2) (lift (ReadFixed n v)).
Proof.
  intros H. eapply sgrows_lift; [apply (wp_fixed n v H)|]. unfold ReadFixed. gstep. unfold guard. destruct (r =? v); intros b a b' W E; [|discriminate E]. cbn in E. injection E as <- <-. split; [exact W|]. split; [exact I|lia].
Qed.
Lemma sgrows_array opts : sgrows (fun _ => True) (fun a => 1 + vsize (fun x => osize unit_elements (snd x)) (nalus a)) (ParseHvccArray opts).
Proof.
  unfold ParseHvccArray. eapply sgrows_bind; [apply sgrows_u; lia|]. intros c _. eapply sgrows_bind; [apply sgrows_fixed; lia|]. intros x _. eapply sgrows_bind; [apply sgrows_u; lia|]. intros t _.
  eapply sgrows_bind; [apply sgrows_u; lia|]. intros n _. eapply sgrows_bind; [eapply sgrows_collect, sgrows_nalu|]. intros l _. apply sgrows_ret; [exact I|]. cbn [nalus]. unfold vsize. lia.
Qed.
Lemma grows_fixed n v : grows (fun _ => True) (fun _ => 0) (ReadFixed n v).
Proof. unfold ReadFixed. gstep. unfold guard. destruct (r =? v); intros b a b' W E; [|discriminate E]. cbn in E. injection E as <- <-. split; [exact W|]. split; [exact I|lia]. Qed.
#[global] Hint Resolve grows_fixed : grows_db.
Lemma sgrows_box opts : sgrows (fun _ => True) box_elements (ParseConfigurationBoxBuffer opts).
Proof.
  unfold ParseConfigurationBoxBuffer. eapply (sgrows_bind (fun _ => True) (fun h => len (general_profile_compatibility_flags h))).
  { eapply sgrows_lift; [apply wp_hvcc_header|]. unfold ParseHvccHeader. grun. cbn [general_profile_compatibility_flags]. rewrite ?total_const.
    repeat match goal with |- context[len ?l] => lazymatch goal with H : 0 <= len l |- _ => fail | _ => pose proof (len_nonneg l) end end. lia. }
  intros h _. eapply sgrows_bind; [eapply sgrows_collect, sgrows_array|]. intros l _. apply sgrows_ret; [exact I|]. unfold box_elements. cbn [hv_header hv_arrays]. unfold vsize at 1. lia.
Qed.
Theorem C50_box : forall st opts data box st', reached call_ok st -> byte_string data -> ParseConfigurationBox opts data st = Done (Some box, st') ->
  box_elements box <= 16 * Z.of_nat (length data).
Proof.
  intros st opts data box st' R D E. unfold ParseConfigurationBox in E. rewrite on_buffer_st_eq in E by exact D. pose proof D as [F L]. pose proof (wf_mk _ F L) as W. pose proof (reached_store _ R) as S.
  pose proof (sspec_box opts st (mk_bb data) W S) as T. destruct (ParseConfigurationBoxBuffer opts st (mk_bb data)) as [[o s1] b1|b1|e] eqn:Em; [|destruct T|discriminate E]. injection E as -> ->.
  destruct (sgrows_box opts _ _ _ _ _ W S Em) as (_ & _ & _ & B & _). destruct T as ((bs & T & _) & _). pose proof (steps_pos _ _ _ W T) as Q. change (pos (mk_bb data)) with 0 in *. cbn [mk_bb bb_bytes osize] in *. lia.
Qed.

(** * SEI payload buffers *)
(** The payloads that are byte strings are allocated (payload.resize, src/h265_sei_parser.cc:149, 196, 780) with payload_size bytes before they are read.
    That is at most 255 bytes for every byte of the message, as payload_size is a sum of bytes. *)
Theorem C50_sei_allocation : forall b m b', wf b -> ParseSei b = Ok m b' -> 8 * payload_size m <= 255 * (pos b' - pos b).
Proof.
  intros b m b' W E. unfold ParseSei in E. apply bind_ok in E. destruct E as (t & b1 & E1 & E). apply bind_ok in E. destruct E as (s & b2 & E2 & E). apply bind_ok in E. destruct E as (p & b3 & E3 & E).
  unfold ret in E. injection E as <- <-. cbn [payload_size]. pose proof (wp_ff b W) as H1. rewrite E1 in H1. destruct H1 as (bs1 & S1 & _). pose proof (steps_wf _ _ _ W S1) as W1.
  pose proof (wp_ff b1 W1) as H2. rewrite E2 in H2. destruct H2 as (bs2 & S2 & Hs & ->). pose proof (steps_wf _ _ _ W1 S2) as W2. unfold ff_ok in Hs.
  pose proof (wp_attempt _ _ _ (wpa_payload t s (proj1 Hs)) b2 W2) as H3. rewrite E3 in H3. destruct H3 as (bs3 & S3 & _).
  destruct S1 as [_ ->], S2 as [_ ->], S3 as [_ ->]. rewrite !pos_adv. unfold enc_ff. rewrite length_byte_bits. unfold ff_bytes. rewrite app_length, repeat_length. cbn [length]. lia.
Qed.
(** So the allocation can be larger than the input: here 25500 bytes for a message of 102 bytes, which then has no payload. *)
Example C50_sei_allocation_case : exists m b', ParseSei (mk_bb (4 :: repeat 255 100 ++ [0])) = Ok m b' /\ payload_size m = 25500 /\ sei_payload_state m = None.
Proof.
  assert (H : match ParseSei (mk_bb (4 :: repeat 255 100 ++ [0])) with Ok m _ => (payload_size m =? 25500) && match sei_payload_state m with None => true | Some _ => false end | _ => false end = true) by (vm_compute; reflexivity).
  destruct (ParseSei _) as [m b'|b'|e]; try discriminate H. exists m, b'. split; [reflexivity|]. apply andb_prop in H. destruct H as [H1 H2]. split; [lia|]. destruct (sei_payload_state m); [discriminate H2|reflexivity].
Qed.
(** A stream whose six units hold 359 elements (its 343 bytes would allow 5488). *)
Example C50_case : exists bs st, reached call_ok empty_state /\ byte_string (annexb_stream C24_nals) /\
  ParseBitstream default_options (annexb_stream C24_nals) empty_state = Done (bs, st) /\ bitstream_elements bs = 359.
Proof.
  destruct (ParseBitstream default_options (annexb_stream C24_nals) empty_state) as [[bs st]|e] eqn:E; [|vm_compute in E; discriminate E].
  exists bs, st. split; [apply reached_new|]. split; [apply bytesb_ok; vm_compute; reflexivity|]. split; [reflexivity|].
  assert (G : match ParseBitstream default_options (annexb_stream C24_nals) empty_state with Done (b, _) => bitstream_elements b | Bad _ => -1 end = 359).
  { vm_compute. reflexivity. }
  rewrite E in G. exact G.
Qed.
