(** Bounds on the length of the text: RTP packets and configuration boxes. *)
From Coq Require Import ZArith List Bool Lia ZifyBool ZifyNat String Ascii.
From Verif Require Import MBase MBitBuffer Spec BitsFacts Reader Rules ReaderFacts PropsBits Syntax SyntaxSe MCommon PropsCommon MFraming FramingFacts PropsFraming MSyntaxA SpecA FactsA Api MProfile MSyntaxB SpecB MSps SpecSps FactsSps MPps SpecPps FactsPps
  MSlice SpecSlice FactsSlice MSei SpecSei MNal FactsNal PropsNal PropsSlice MRtp FactsRtp PropsRtp MText SpecSize SpecTool FactsText PropsText PropsToolD PropsQp FactsTame PropsSafe FactsLocal FactsGrow PropsGrow
  FactsWidth FactsWidthB FactsWidthC FactsWidthD FactsWidthE.
Import ListNotations.
Open Scope string_scope.
Open Scope Z_scope.

(** * RTP *)
Lemma wgrows_payload ty : sgrows payload_text_ok payload_elements (ParseNalUnitPayload ty).
Proof.
  intros st b r st' b' W S E. destruct (sgrows_payload ty st b r st' b' W S E) as (H1 & H2 & H3 & H4 & _). repeat (split; [assumption|]). intros a ->.
  rewrite payload_spec in E. destruct (payload_fault ty st b) eqn:F; [discriminate E|]. injection E as <- <- <-. apply payload_of_text; [exact W | apply store_state_ok, S].
Qed.
Lemma wgrows_header : sgrows (fun _ => True) (fun _ => 32) (lift ParseNalUnitHeader).
Proof.
  eapply sgrows_lift; [apply wp_nal_header|]. intros b a b' W E. pose proof (wp_nal_header b W) as H. rewrite E in H. destruct H as (bs & T & _ & ->).
  split; [apply (steps_wf _ _ _ W T)|]. split; [exact I|]. destruct T as [_ ->]. rewrite pos_adv, enc_nal_header_length. lia.
Qed.
Lemma wgrows_single : sgrows (fun s => payload_text_ok (rs_payload s)) (fun s => 32 + payload_elements (rs_payload s)) ParseRtpSingleBuffer.
Proof.
  unfold ParseRtpSingleBuffer. eapply sgrows_bind; [apply wgrows_header|]. intros h _. eapply sgrows_bind; [apply wgrows_payload|]. intros p Hp. apply sgrows_ret; [exact Hp|]. cbn [rs_payload]. lia.
Qed.
Lemma wgrows_fu : sgrows (fun f => forall p, rf_payload f = Some p -> payload_text_ok p) (fun f => 32 + osize payload_elements (rf_payload f)) ParseRtpFuBuffer.
Proof.
  unfold ParseRtpFuBuffer. eapply sgrows_bind; [apply wgrows_header|]. intros h _. eapply sgrows_bind; [apply sgrows_u; lia|]. intros s _. eapply sgrows_bind; [apply sgrows_u; lia|]. intros e _.
  eapply sgrows_bind; [apply sgrows_u; lia|]. intros t _. destruct (s =? 0); [apply sgrows_ret; [cbn [rf_payload]; discriminate|cbn [rf_payload osize]; lia]|].
  eapply sgrows_bind; [apply wgrows_payload|]. intros p Hp. apply sgrows_ret; [cbn [rf_payload]; intros q [= <-]; exact Hp|]. cbn [rf_payload osize]. lia.
Qed.
Definition au_text_ok (u : ap_unit) : Prop := payload_text_ok (au_payload u) /\ small64 (au_size u).
Lemma wgrows_ap_loop fuel : sgrows (Forall au_text_ok) (total (fun u => 32 + payload_elements (au_payload u))) (ap_loop fuel).
Proof.
  induction fuel as [|fuel IH]; intros st b r st' b' W S E; rewrite ap_loop_eq in E; destruct (negb _); try discriminate E;
    try (refine (sgrows_ret (Forall au_text_ok) _ _ _ _ st b r st' b' W S E); [constructor | cbn; lia]).
  revert st b r st' b' W S E. eapply sgrows_bind; [apply sgrows_u; lia|]. intros size Hs. eapply sgrows_bind; [apply sgrows_remaining|]. intros k _.
  destruct (k <? _); [apply sgrows_fail|]. eapply sgrows_bind; [apply wgrows_header|]. intros h _. eapply sgrows_bind; [apply wgrows_payload|]. intros p Hp.
  eapply sgrows_bind; [apply IH|]. intros us Hu. apply sgrows_ret; [constructor; [split; [exact Hp | eapply s64_u; [exact Hs | lia]] | exact Hu]|]. unfold total. cbn [fold_right au_payload]. lia.
Qed.
Lemma wgrows_ap : sgrows (fun a => Forall au_text_ok (ra_units a)) (fun a => 32 + total (fun u => 32 + payload_elements (au_payload u)) (ra_units a)) ParseRtpApBuffer.
Proof.
  unfold ParseRtpApBuffer. eapply sgrows_bind; [apply wgrows_header|]. intros h _.
  eapply (sgrows_bind (Forall au_text_ok)); [intros st b r st' b' W S E; exact (wgrows_ap_loop _ st b r st' b' W S E)|]. intros us Hu. apply sgrows_ret; [exact Hu|]. cbn [ra_units]. lia.
Qed.
Lemma wgrows_data {A} P (g : A -> Z) (m : SM A) data rbsp st r st' : byte_string data -> UnescapeRbsp data = Done rbsp -> store_ok st -> sgrows P g m -> (forall N, ssafe N (zrun 24) m) ->
  on_data_st m data st = Done (Some r, st') -> P r /\ g r <= 16 * len data.
Proof.
  intros D Er S G Sf E. rewrite (on_data_st_eq _ _ _ _ D Er) in E. pose proof (unesc_bytes _ _ D Er) as [F L]. pose proof (wf_mk _ F L) as W.
  destruct (C10_unescape_only_removes data) as (o & Eo & _ & Lo & _). rewrite Er in Eo. injection Eo as <-.
  pose proof (Sf _ st _ W S (le_n _)) as T. destruct (m st (mk_bb rbsp)) as [[o s1] b1|b1|e] eqn:Em; [|destruct T|discriminate E]. injection E as -> ->.
  destruct (G _ _ _ _ _ W S Em) as (_ & _ & _ & B & Q0). split; [apply Q0; reflexivity|]. destruct T as ((bs & T) & _). pose proof (steps_pos _ _ _ W T) as Q. change (pos (mk_bb rbsp)) with 0 in *. cbn [mk_bb bb_bytes osize] in *. unfold len. lia.
Qed.
(** The payloads in an RTP packet *)
Definition rtp_payloads (r : rtp) : list nal_payload :=
  (match r_single r with Some s => [rs_payload s] | None => [] end ++ match r_ap r with Some a => map au_payload (ra_units a) | None => [] end ++
   match r_fu r with Some f => match rf_payload f with Some p => [p] | None => [] end | None => [] end)%list.
Definition payload_squares (l : list nal_payload) : Z := total (fun p => long_term p * long_term p) l.
Lemma payload_squares_nn l : 0 <= payload_squares l.
Proof. apply total_nonneg. intros p. pose proof (long_term_nn p). nia. Qed.
Lemma tsz_rtp_single d sp o s : 0 <= d <= 2 -> payload_text_ok (rs_payload s) ->
  tsz d (27500 + 2600 * payload_elements (rs_payload s) + 60 * (long_term (rs_payload s) * long_term (rs_payload s))) (text_rtp_single sp o s).
Proof. intros D H. unfold text_rtp_single. eapply tsz_mono; [tz; [apply tsz_header; lia | apply tsz_payload; [lia | exact H]]|]. lia. Qed.
Lemma total_one {A} (g : A -> Z) x : total g [x] = g x.
Proof. unfold total. cbn [fold_right]. lia. Qed.
Lemma tsz_ap_units d sp o (l : list ap_unit) : forall k, 0 <= d <= 2 -> Forall au_text_ok l ->
  tsz d (2600 * total (fun u => 32 + payload_elements (au_payload u)) (firstn k l) + 60 * payload_squares (map au_payload (firstn k l)))
    (tupto k (fun i => telem l i (fun u => fu "nal_unit_size" (au_size u) +> sub (text_header (au_header u)) +> sub (text_payload (sp i) o (nal_unit_type (au_header u)) (au_payload u))))).
Proof.
  intros k D F. induction k as [|k IH]; cbn [tupto]; [eapply tsz_mono; [apply tsz_nop | cbn; lia]|].
  assert (N1 : 0 <= total (fun u => 32 + payload_elements (au_payload u)) (firstn (S k) l)) by (apply total_nonneg; intros u; pose proof (payload_elements_nn (au_payload u)); lia).
  pose proof (payload_squares_nn (map au_payload (firstn (S k) l))) as N2.
  destruct (nth_error l k) as [a|] eqn:E.
  - eapply tsz_mono; [apply tsz_seq; [exact IH|]; rewrite (telem_some _ _ _ _ E); pose proof (proj1 (Forall_forall _ _) F a (nth_error_In _ _ E)) as [A1 A2]; tz; [apply tsz_header; lia | apply tsz_payload; [lia | exact A1]]|].
    assert (firstn (S k) l = firstn k l ++ [a])%list as ->.
    { clear -E. revert k E. induction l as [|x l IH]; intros [|k] E; cbn in E; try discriminate E; [injection E as ->; reflexivity|]. cbn [firstn app]. f_equal. apply IH, E. }
    unfold payload_squares. rewrite map_app, !total_app2. change (map au_payload [a]) with [au_payload a]. rewrite !total_one. lia.
  - split; [lia|]. intros cs Ec. exfalso. unfold tseq in Ec. destruct (tupto k _) as [c|e]; [|discriminate Ec]. unfold telem in Ec. rewrite E in Ec. discriminate Ec.
Qed.
Lemma tsz_rtp_ap d sp o a : 0 <= d <= 1 -> Forall au_text_ok (ra_units a) ->
  tsz d (1000 + 2600 * total (fun u => 32 + payload_elements (au_payload u)) (ra_units a) + 60 * payload_squares (map au_payload (ra_units a))) (text_rtp_ap sp o a).
Proof.
  intros D H. unfold text_rtp_ap. eapply tsz_mono; [tz; [apply tsz_header; lia | apply tsz_ap_units; [lia | exact H]]|]. rewrite firstn_all. lia.
Qed.
Lemma tsz_rtp_fu d sp o f : 0 <= d <= 2 -> (forall p, rf_payload f = Some p -> payload_text_ok p) ->
  tsz d (28000 + 2600 * osize payload_elements (rf_payload f) + 60 * payload_squares (match rf_payload f with Some p => [p] | None => [] end)) (text_rtp_fu sp o f).
Proof.
  intros D H. unfold text_rtp_fu. pose proof (osize_nn _ (rf_payload f) payload_elements_nn). pose proof (payload_squares_nn (match rf_payload f with Some p => [p] | None => [] end)). eapply tsz_mono; [tz; [apply tsz_header; lia|]|].
  - apply (z_deref0 _ (26000 + 2600 * osize payload_elements (rf_payload f) + 60 * payload_squares (match rf_payload f with Some p => [p] | None => [] end))); [lia|].
    intros p E. eapply tsz_mono; [apply tsz_payload; [lia | apply H, E]|]. rewrite E. unfold payload_squares, total. cbn [osize fold_right]. lia.
  - lia.
Qed.
Lemma tsz_rtp sp o data st r st' : byte_string data -> store_ok st -> ParseRtp data st = Done (Some r, st') ->
  tsz 0 (41600 * len data + 60 * payload_squares (rtp_payloads r)) (text_rtp sp o r).
Proof.
  intros D S E. destruct (Unescape_byte_string data D) as (rbsp & Er & D'). destruct (C43_choice data rbsp st D Er) as [H1 H2].
  destruct (C10_unescape_only_removes data) as (oo & Eo & _ & Lo & _). rewrite Er in Eo. injection Eo as <-.
  destruct (le_lt_dec 2 (List.length rbsp)) as [L|L]; [clear H1|rewrite (H1 L) in E; discriminate E]. destruct (H2 L) as (h & _ & _ & Ep). rewrite Ep in E. clear Ep H2. unfold as_rtp in E.
  assert (Hlen : 2 <= len data) by (unfold len; lia).
  assert (B : forall k t, 0 <= k -> tsz 1 k t -> tsz 0 (620 + k) (struct "rtp" (sub (text_header h) +> t))).
  { intros k t K T. eapply tsz_mono; [apply z_struct; [lia | nm|]; apply tsz_seq; [apply z_sub; [lia|]; apply tsz_header; lia | exact T]|]. lia. }
  unfold text_rtp. cbv zeta. unfold AP, FU.
  destruct (nal_unit_type h <=? 47) eqn:C1; [|destruct (nal_unit_type h =? 48) eqn:C2; [|destruct (nal_unit_type h =? 49) eqn:C3]].
  - destruct (ParseRtpSingle data st) as [[[s|] s1]|e] eqn:E1; try discriminate E. injection E as <- <-. cbn [rtp_header r_single]. rewrite C1.
    destruct (wgrows_data _ _ _ _ _ _ _ _ D Er S wgrows_single ssafe_single E1) as [P G]. unfold rtp_payloads, payload_squares, total. cbn [r_single r_ap r_fu app fold_right tderef].
    pose proof (payload_elements_nn (rs_payload s)). assert (0 <= long_term (rs_payload s) * long_term (rs_payload s)) by (pose proof (long_term_nn (rs_payload s)); nia).
    eapply tsz_mono; [apply B; [|apply tsz_call, tsz_rtp_single; [lia | exact P]]|]; lia.
  - destruct (ParseRtpAp data st) as [[[s|] s1]|e] eqn:E1; try discriminate E. injection E as <- <-. cbn [rtp_header r_ap]. rewrite C1, C2.
    destruct (wgrows_data _ _ _ _ _ _ _ _ D Er S wgrows_ap ssafe_ap E1) as [P G]. unfold rtp_payloads. cbn [r_single r_ap r_fu app tderef]. rewrite app_nil_r.
    pose proof (payload_squares_nn (map au_payload (ra_units s))).
    assert (0 <= total (fun u => 32 + payload_elements (au_payload u)) (ra_units s)) by (apply total_nonneg; intros u; pose proof (payload_elements_nn (au_payload u)); lia).
    eapply tsz_mono; [apply B; [|apply tsz_call, tsz_rtp_ap; [lia | exact P]]|]; lia.
  - destruct (ParseRtpFu data st) as [[[s|] s1]|e] eqn:E1; try discriminate E. injection E as <- <-. cbn [rtp_header r_fu]. rewrite C1, C2, C3.
    destruct (wgrows_data _ _ _ _ _ _ _ _ D Er S wgrows_fu ssafe_fu E1) as [P G]. unfold rtp_payloads. cbn [r_single r_ap r_fu app tderef].
    pose proof (payload_squares_nn (match rf_payload s with Some p => [p] | None => [] end)). pose proof (osize_nn _ (rf_payload s) payload_elements_nn).
    eapply tsz_mono; [apply B; [|apply tsz_call, tsz_rtp_fu; [lia | exact P]]|]; lia.
  - injection E as <- <-. cbn [rtp_header]. rewrite C1, C2, C3. pose proof (payload_squares_nn (rtp_payloads (mkRtp h None None None))).
    eapply tsz_mono; [apply (B 0); [lia | apply tsz_nop]|]. lia.
Qed.

(** * Configuration boxes *)
Lemma wgrows_collect {A} P (g : A -> Z) n (body : SM A) : sgrows P g body -> sgrows (Forall P) (total g) (scollect n body).
Proof.
  intros H. induction n as [|n IH]; cbn [scollect]; [apply sgrows_ret; [constructor|cbn; lia]|].
  eapply sgrows_bind; [exact H|]. intros x Hx. eapply sgrows_bind; [exact IH|]. intros l Hl. apply sgrows_ret; [constructor; assumption|]. cbv beta. unfold total. cbn [fold_right]. lia.
Qed.
Definition nalu_weight (x : Z * option nal_unit) : Z := 1 + osize (fun u => 32 + unit_elements u) (snd x).
Definition nalu_text_ok (x : Z * option nal_unit) : Prop := forall u, snd x = Some u -> unit_text_ok u.
Lemma wgrows_nalu opts : sgrows nalu_text_ok nalu_weight (ParseHvccNalu opts).
Proof.
  unfold ParseHvccNalu. eapply sgrows_bind; [apply sgrows_u; lia|]. intros n Hn. eapply sgrows_bind; [apply sgrows_bytes|]. intros l [Fl Ll]. unfold u_ok in Hn.
  intros st b r st' b' W S E. unfold sbind, scall, bind in E. destruct (ParseNalUnit opts l st) as [[u st1]|e] eqn:E1; [|discriminate E]. unfold sret, ret in E. injection E as <- <- <-.
  assert (D : byte_string l) by (split; [exact Fl|unfold len in Ll; lia]). split; [exact W|]. split; [apply (C22_invariant _ _ _ _ _ D S E1)|]. split; [lia|]. unfold nalu_weight. cbn [osize snd]. split.
  - destruct u as [u|]; cbn [osize]; [destruct (parsed_fits _ _ _ _ _ D S E1) as ((_ & _ & G) & _); lia|pose proof (len_nn l); lia].
  - intros a [= <-] v Ev. cbn [snd] in Ev. subst u. destruct (parsed_fits _ _ _ _ _ D S E1) as ((G1 & G2 & _) & G3 & G4). unfold unit_text_ok, small64. rewrite G3, G4. split; [exact G1 | lia].
Qed.
Definition array_weight (a : hvcc_array) : Z := 1 + total nalu_weight (nalus a).
Lemma wgrows_array opts : sgrows (fun a => Forall nalu_text_ok (nalus a)) array_weight (ParseHvccArray opts).
Proof.
  unfold ParseHvccArray. eapply sgrows_bind; [apply sgrows_u; lia|]. intros c _. eapply sgrows_bind; [apply sgrows_fixed; lia|]. intros x _. eapply sgrows_bind; [apply sgrows_u; lia|]. intros t _.
  eapply sgrows_bind; [apply sgrows_u; lia|]. intros n _. eapply sgrows_bind; [eapply wgrows_collect, wgrows_nalu|]. intros l Hl. apply sgrows_ret; [exact Hl|]. unfold array_weight. cbn [nalus]. lia.
Qed.
Lemma wgrows_hvcc_header : sgrows hvcc_header_ok (fun _ => 32) (lift ParseHvccHeader).
Proof.
  eapply sgrows_lift; [apply wp_hvcc_header|]. intros b a b' W E. pose proof (wp_hvcc_header b W) as H. rewrite E in H. destruct H as (bs & T & Ha & ->).
  split; [apply (steps_wf _ _ _ W T)|]. split; [exact Ha|]. destruct T as [_ ->]. rewrite pos_adv.
  assert (16 <= List.length (enc_hvcc_header a))%nat; [|lia]. unfold enc_hvcc_header. cbn [List.concat]. rewrite !app_length, !length_enc_u. lia.
Qed.
Lemma wgrows_box opts : sgrows (fun v => hvcc_header_ok (hv_header v) /\ Forall (fun a => Forall nalu_text_ok (nalus a)) (hv_arrays v)) (fun v => 32 + total array_weight (hv_arrays v)) (ParseConfigurationBoxBuffer opts).
Proof.
  unfold ParseConfigurationBoxBuffer. eapply sgrows_bind; [apply wgrows_hvcc_header|]. intros h Hh.
  eapply sgrows_bind; [eapply wgrows_collect, wgrows_array|]. intros l Hl. apply sgrows_ret; [split; [exact Hh | exact Hl]|]. cbn [hv_header hv_arrays]. lia.
Qed.
Lemma box_fits opts data st v st' : byte_string data -> store_ok st -> ParseConfigurationBox opts data st = Done (Some v, st') ->
  hvcc_header_ok (hv_header v) /\ Forall (fun a => Forall nalu_text_ok (nalus a)) (hv_arrays v) /\ 32 + total array_weight (hv_arrays v) <= 16 * len data.
Proof.
  intros D S E. unfold ParseConfigurationBox in E. rewrite on_buffer_st_eq in E by exact D. pose proof D as [F L]. pose proof (wf_mk _ F L) as W.
  pose proof (sspec_box opts st (mk_bb data) W S) as T. destruct (ParseConfigurationBoxBuffer opts st (mk_bb data)) as [[o s1] b1|b1|e] eqn:Em; [|destruct T|discriminate E]. injection E as -> ->.
  destruct (wgrows_box opts _ _ _ _ _ W S Em) as (_ & _ & _ & B & P). destruct T as ((bs & T & _) & _). pose proof (steps_pos _ _ _ W T) as Q. change (pos (mk_bb data)) with 0 in *. cbn [mk_bb bb_bytes osize] in *.
  destruct (P v eq_refl) as [P1 P2]. split; [exact P1|]. split; [exact P2|]. unfold len. lia.
Qed.
(** The NAL units in a box *)
Definition nalu_units (l : list (Z * option nal_unit)) : list nal_unit := List.concat (map (fun e => match snd e with Some u => [u] | None => [] end) l).
Definition box_units (v : hvcc) : list nal_unit := List.concat (map (fun a => nalu_units (nalus a)) (hv_arrays v)).
Lemma total_concat {A} (g : A -> Z) ll : total g (List.concat ll) = total (total g) ll.
Proof. induction ll as [|l ll IH]; [reflexivity|]. cbn [List.concat]. rewrite total_app2, IH. reflexivity. Qed.
Lemma total_map {A B} (g : B -> Z) (f : A -> B) l : total g (map f l) = total (fun x => g (f x)) l.
Proof. unfold total. induction l as [|x l IH]; cbn [map fold_right]; [reflexivity | rewrite IH; reflexivity]. Qed.
Lemma vsize_total {A} (g h : A -> Z) k l : (forall x, 1 + g x <= k * h x) -> vsize g l <= k * total h l.
Proof. intros H. unfold vsize, total. induction l as [|x l IH]; cbn [fold_right]; [lia|]. specialize (H x). lia. Qed.
Definition sq (u : nal_unit) : Z := long_term (nu_payload u) * long_term (nu_payload u).
Lemma sq_nn u : 0 <= sq u.
Proof. unfold sq. pose proof (long_term_nn (nu_payload u)). nia. Qed.
Lemma squares_nn us : 0 <= long_term_squares us.
Proof. apply total_nonneg. intros u. apply sq_nn. Qed.
Lemma vsize_sum {A} (g h1 h2 : A -> Z) l : (forall x, 1 + g x = h1 x + h2 x) -> vsize g l = total h1 l + total h2 l.
Proof. intros H. unfold vsize, total. induction l as [|x l IH]; cbn [fold_right]; [lia|]. specialize (H x). lia. Qed.
Lemma total_scale {A} (g : A -> Z) k l : total (fun x => k * g x) l = k * total g l.
Proof. unfold total. induction l as [|x l IH]; cbn [fold_right]; [lia|]. lia. Qed.
Lemma nalu_weight_nn x : 1 <= nalu_weight x.
Proof. unfold nalu_weight. pose proof (osize_nn _ (snd x) (fun u => ltac:(pose proof (unit_elements_nn u); lia) : 0 <= 32 + unit_elements u)). lia. Qed.
Lemma tsz_nalus d sp o j (l : list (Z * option nal_unit)) : 0 <= d <= 1 -> Z.of_nat j < 2 ^ 64 -> len l < 2 ^ 64 -> Forall nalu_text_ok l ->
  tsz d (2600 * total nalu_weight l + 60 * long_term_squares (nalu_units l))
    (tupto (List.length l) (fun i => telem l i (fun e => fi (index2 "nalUnitLength" j i) (fst e) +> sub (tderef (snd e) (text_nal (sp j i) o))))).
Proof.
  intros D J L F. pose (g := fun e : Z * option nal_unit => 2600 * nalu_weight e + 60 * osize sq (snd e) - 1).
  assert (G : vsize g l = 2600 * total nalu_weight l + 60 * long_term_squares (nalu_units l)).
  { rewrite (vsize_sum g (fun e => 2600 * nalu_weight e) (fun e => 60 * osize sq (snd e))) by (intros x; unfold g; lia). rewrite !total_scale. do 2 f_equal. unfold long_term_squares, nalu_units.
    rewrite total_concat, total_map. unfold total at 1 2. clear. induction l as [|[z [u|]] l IH]; cbn [fold_right snd osize]; [reflexivity| |]; rewrite IH; rewrite ?total_one; reflexivity. }
  rewrite <- G. rewrite <- (Z.mul_1_l (vsize g l)). apply z_elems_lt; [lia| | |].
  - intros a. unfold g. pose proof (nalu_weight_nn a). pose proof (osize_nn sq (snd a) sq_nn). lia.
  - intros i a Hi E. rewrite (telem_some _ _ _ _ E). pose proof (proj1 (Forall_forall _ _) F a (nth_error_In _ _ E)) as A.
    assert (Hs : 0 <= osize (fun u => 27500 + 2600 * unit_elements u + 60 * sq u) (snd a)) by (apply osize_nn; intros u; pose proof (sq_nn u); pose proof (unit_elements_nn u); lia).
    eapply tsz_mono; [apply tsz_seq; [apply tsz_fi; [lia|] | apply z_sub; [lia|]; apply (z_deref0 _ (osize (fun u => 27500 + 2600 * unit_elements u + 60 * sq u) (snd a))); [exact Hs|]]|].
    + unfold index2. rewrite !slen_app. change (slen "[") with 1. change (slen "]") with 1. pose proof (w_index "nalUnitLength" j J) as Y. change (slen "nalUnitLength") with 13 in Y.
      pose proof (w_dec (Z.of_nat i) ltac:(unfold small64; unfold len in L; lia)). lia.
    + intros u Eu. rewrite Eu. cbn [osize]. unfold sq. apply tsz_nal; [lia | apply A, Eu].
    + unfold g, nalu_weight. destruct (snd a) as [u|]; cbn [osize]; lia.
  - intros i _ E. apply telem_none, E.
Qed.
Lemma tsz_arrays d sp o v : 0 <= d <= 1 -> u_ok 8 (numOfArrays (hv_header v)) -> Forall (fun a => Forall nalu_text_ok (nalus a)) (hv_arrays v) -> total array_weight (hv_arrays v) < 2 ^ 64 ->
  tsz d (2600 * total array_weight (hv_arrays v) + 60 * long_term_squares (box_units v))
   (tupto (Z.to_nat (numOfArrays (hv_header v))) (fun j => telem (hv_arrays v) j (fun a =>
    fi (index "array_completeness" j) (array_completeness a) +>
    fi (index "reserved6" j) 0 +>
    fi (index "NAL_unit_type" j) (NAL_unit_type a) +>
    fi (index "numNalus" j) (Z.of_nat (List.length (nalus a))) +>
    tupto (List.length (nalus a)) (fun i => telem (nalus a) i (fun e =>
      fi (index2 "nalUnitLength" j i) (fst e) +>
      sub (tderef (snd e) (text_nal (sp j i) o))))))).
Proof.
  intros D U F T. unfold u_ok in U.
  assert (W0 : forall a, 1 <= array_weight a) by (intros a; unfold array_weight; assert (0 <= total nalu_weight (nalus a)) by (apply total_nonneg; intros x; pose proof (nalu_weight_nn x); lia); lia).
  pose (g := fun a : hvcc_array => 2600 * array_weight a + 60 * long_term_squares (nalu_units (nalus a)) - 1).
  assert (G : vsize g (hv_arrays v) = 2600 * total array_weight (hv_arrays v) + 60 * long_term_squares (box_units v)).
  { rewrite (vsize_sum g (fun e => 2600 * array_weight e) (fun e => 60 * long_term_squares (nalu_units (nalus e)))) by (intros x; unfold g; lia). rewrite !total_scale. do 2 f_equal. unfold long_term_squares, box_units.
    rewrite total_concat, total_map. reflexivity. }
  assert (B : forall a, In a (hv_arrays v) -> len (nalus a) < 2 ^ 64).
  { intros a Ha. assert (len (nalus a) <= array_weight a).
    { unfold array_weight. assert (X : len (nalus a) <= total nalu_weight (nalus a)); [|lia]. unfold len, total. induction (nalus a) as [|x l IH]; cbn [fold_right List.length]; [lia|]. pose proof (nalu_weight_nn x). lia. }
    assert (array_weight a <= total array_weight (hv_arrays v)); [|lia]. clear -Ha W0. induction (hv_arrays v) as [|x l IH]; [destruct Ha|]. unfold total in *. cbn [fold_right].
    assert (0 <= total array_weight l) as Y by (apply total_nonneg; intros y; specialize (W0 y); lia). unfold total in Y. destruct Ha as [->|Ha]; [lia|]. specialize (IH Ha). specialize (W0 x). lia. }
  rewrite <- G. rewrite <- (Z.mul_1_l (vsize g (hv_arrays v))). apply z_elems_lt; [lia| | |].
  - intros a. unfold g. pose proof (W0 a). pose proof (squares_nn (nalu_units (nalus a))). lia.
  - intros j a Hj E. rewrite (telem_some _ _ _ _ E). pose proof (proj1 (Forall_forall _ _) F a (nth_error_In _ _ E)) as A.
    assert (W : forall x, slen x <= 40 -> slen (index x j) <= 69) by (intros x X; pose proof (w_index x j ltac:(lia)); lia).
    eapply tsz_mono; [repeat apply tsz_seq; [apply tsz_fi; [lia | apply W; nm] .. | apply (tsz_nalus d sp o j (nalus a)); [lia | lia | apply B, (nth_error_In _ _ E) | exact A]]|].
    unfold g, array_weight. lia.
  - intros i _ E. apply telem_none, E.
Qed.
Lemma tsz_box sp o opts data st v st' : byte_string data -> store_ok st -> ParseConfigurationBox opts data st = Done (Some v, st') ->
  tsz 0 (41600 * len data + 60 * long_term_squares (box_units v)) (text_box sp o v).
Proof.
  intros D S E. destruct (box_fits _ _ _ _ _ D S E) as (H1 & H2 & H3). destruct D as [_ L]. unfold hvcc_header_ok in H1. splitc.
  unfold text_box. cbv zeta. eapply tsz_mono; [tz|].
  - apply tsz_arrays; [lia | assumption | exact H2 | unfold len in H3; lia].
  - match goal with X : Syntax.vec 32 _ _ |- _ => destruct X as [X _] end. unfold len at 1. pose proof (squares_nn (box_units v)). lia.
Qed.
