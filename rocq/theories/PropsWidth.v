(** C92: the printed text is bounded by the size of the input.  It is linear in it, but for the long-term pictures of slice headers, whose part is quadratic. *)
From Coq Require Import ZArith List Bool Lia ZifyBool ZifyNat String Ascii.
From Verif Require Import MBase MBitBuffer Spec BitsFacts Reader Rules ReaderFacts PropsBits Syntax SyntaxSe MCommon PropsCommon MFraming FramingFacts PropsFraming MSyntaxA SpecA Api MProfile MSyntaxB SpecB MSps SpecSps FactsSps MPps SpecPps FactsPps
  MSlice SpecSlice FactsSlice MSei SpecSei MNal FactsNal PropsNal PropsSlice MRtp FactsRtp MText SpecSize SpecTool FactsText PropsText PropsToolD PropsQp FactsTame PropsSafe FactsLocal FactsGrow PropsGrow FactsWidth FactsWidthB FactsWidthC FactsWidthD FactsWidthE FactsWidthF.
Import ListNotations.
Open Scope string_scope.
Open Scope Z_scope.

(** How many long-term pictures the slice header of a payload lists; none without a slice header. *)
Definition long_term_pics (p : nal_payload) : Z := match np_slice p with Some h => Z.of_nat (List.length (sh_lt h)) | None => 0 end.
Definition squares (l : list nal_payload) : Z := fold_right (fun p n => long_term_pics p * long_term_pics p + n) 0 l.
Definition payloads (us : list nal_unit) : list nal_payload := map nu_payload us.
(** The payloads of an RTP packet and of a configuration box *)
Definition packet_payloads (r : rtp) : list nal_payload :=
  (match r_single r with Some s => [rs_payload s] | None => [] end ++
   match r_ap r with Some a => map au_payload (ra_units a) | None => [] end ++
   match r_fu r with Some f => match rf_payload f with Some p => [p] | None => [] end | None => [] end)%list.
Definition box_payloads (v : hvcc) : list nal_payload :=
  flat_map (fun a => flat_map (fun x : Z * option nal_unit => match snd x with Some u => [nu_payload u] | None => [] end) (nalus a)) (hv_arrays v).
(** The text has at most 41600 characters for each byte of the input, and 60 more for each pair of long-term pictures of one slice header;
    [level + 2] times that when it is indented by [level], which is -1 for text on one line.
    So it is at most quadratic in the size of the input, and linear if no slice header lists more long-term pictures than the standard allows. *)
Definition text_bounded (data : list Z) (ps : list nal_payload) (level : Z) (t : string) : Prop :=
  let n := Z.of_nat (List.length data) in
  let size := Z.of_nat (String.length t) in
  size <= (level + 2) * (41600 * n + 60 * squares ps) /\
  size <= (level + 2) * (41600 * n + 15360 * (n * n)) /\
  (Forall (fun p => long_term_pics p <= 16) ps -> size <= (level + 2) * (56960 * n)).

Lemma squares_payloads us : squares (payloads us) = long_term_squares us.
Proof. unfold long_term_squares, squares, payloads, total. induction us as [|u us IH]; [reflexivity|]. cbn [map fold_right]. rewrite IH. unfold long_term. reflexivity. Qed.
Lemma box_payloads_eq v : box_payloads v = payloads (box_units v).
Proof.
  unfold box_payloads, box_units, payloads. rewrite concat_map, map_map, flat_map_concat_map. f_equal. apply map_ext. intros a. unfold nalu_units. rewrite concat_map, map_map, flat_map_concat_map. f_equal. apply map_ext.
  intros [z [u|]]; reflexivity.
Qed.
Lemma squares_small l : Forall (fun p => long_term_pics p <= 16) l -> squares l <= 16 * total long_term l.
Proof.
  induction 1 as [|p l H F IH]; [cbn; lia|]. unfold squares, total in *. cbn [fold_right]. change (long_term_pics p) with (long_term p) in *. pose proof (long_term_nn p). nia.
Qed.
Lemma squares_any l : squares l <= total long_term l * total long_term l.
Proof.
  induction l as [|p l IH]; [cbn; lia|]. pose proof (total_nonneg long_term l long_term_nn) as T. unfold squares, total in *. cbn [fold_right]. change (long_term_pics p) with (long_term p) in *. pose proof (long_term_nn p). nia.
Qed.
Lemma within data ps level t k d : -1 <= level -> tsz 0 k d -> k <= 41600 * len data + 60 * squares ps -> total long_term ps <= 16 * len data -> fdump d level = Done t -> text_bounded data ps level t.
Proof.
  intros L T K P E. pose proof (fdump_width _ _ _ _ T L E) as H. unfold slen in H. unfold text_bounded. cbv zeta. fold (len data). pose proof (total_nonneg long_term ps long_term_nn) as N.
  pose proof (squares_any ps) as Q. assert (Q2 : squares ps <= 256 * (len data * len data)) by nia.
  split; [nia|]. split; [nia|]. intros F. pose proof (squares_small ps F). nia.
Qed.
Lemma pictures_rtp r : total long_term (packet_payloads r) <= rtp_elements r.
Proof.
  unfold packet_payloads, rtp_elements. rewrite !total_app2. pose proof long_term_elements as G. pose proof payload_elements_nn as N.
  assert (forall l, total long_term (map au_payload l) <= vsize (fun u => payload_elements (au_payload u)) l).
  { intros l. rewrite total_map. unfold vsize, total. induction l as [|u l IH]; cbn [fold_right]; [lia|]. pose proof (G (au_payload u)). lia. }
  assert (Z : total long_term [] = 0) by reflexivity.
  destruct (r_single r) as [s|], (r_ap r) as [a|], (r_fu r) as [f|]; cbn [osize]; rewrite ?Z, ?total_one; try pose proof (G (rs_payload s)); try pose proof (H (ra_units a));
   try (destruct (rf_payload f) as [p|]; cbn [osize]; rewrite ?Z, ?total_one; try pose proof (G p)); lia.
Qed.
Lemma pictures_box v : total long_term (box_payloads v) <= box_elements v.
Proof.
  unfold box_payloads, box_elements. pose proof (len_nn (general_profile_compatibility_flags (hv_header v))) as N. rewrite flat_map_concat_map, total_concat, total_map.
  assert (G : forall l, total long_term (flat_map (fun x : Z * option nal_unit => match snd x with Some u => [nu_payload u] | None => [] end) l) <= vsize (fun x => osize unit_elements (snd x)) l).
  { intros l. rewrite flat_map_concat_map, total_concat, total_map. unfold vsize. unfold total at 1 3. induction l as [|[z [u|]] l IH]; cbn [fold_right snd osize]; [lia| |].
    - rewrite total_one. pose proof (long_term_elements (nu_payload u)). unfold unit_elements at 1. lia.
    - change (total long_term []) with 0. lia. }
  assert (total (fun a => total long_term (flat_map (fun x : Z * option nal_unit => match snd x with Some u => [nu_payload u] | None => [] end) (nalus a))) (hv_arrays v)
    <= vsize (fun a => vsize (fun x => osize unit_elements (snd x)) (nalus a)) (hv_arrays v)); [|lia].
  unfold vsize at 1. unfold total at 1 3. induction (hv_arrays v) as [|a l IH]; cbn [fold_right]; [lia|]. pose proof (G (nalus a)). lia.
Qed.

Theorem C92_unit : forall st opts data u st', reached call_ok st -> byte_string data -> ParseNalUnit opts data st = Done (Some u, st') ->
  forall sets o level t, -1 <= level -> fdump (text_nal sets o u) level = Done t -> text_bounded data [nu_payload u] level t.
Proof.
  intros st opts data u st' R D E sets o level t L F. destruct (parsed_fits _ _ _ _ _ D (reached_store _ R) E) as ((P1 & P2 & P3) & P4 & P5).
  eapply within; [exact L | apply (tsz_nal 0 sets o u); [lia|] | | | exact F].
  - unfold unit_text_ok, small64. rewrite P4, P5. split; [exact P1 | lia].
  - unfold squares. cbn [fold_right]. fold (long_term (nu_payload u)). change (long_term_pics (nu_payload u)) with (long_term (nu_payload u)). lia.
  - rewrite total_one. pose proof (long_term_elements (nu_payload u)). unfold unit_elements in P3. lia.
Qed.
Lemma stream_within data us o l level t : stream_fits (len data) us -> map snd l = us -> -1 <= level -> fdump (text_bitstream o l) level = Done t -> text_bounded data (payloads us) level t.
Proof.
  intros [H1 H2] E L F. subst us. eapply within; [exact L | apply tsz_bitstream, H1 | | | exact F]; [rewrite squares_payloads; lia|]. unfold payloads. rewrite total_map. pose proof (long_term_total (map snd l)). lia.
Qed.
(** All units of a stream together, each printed with the parameter sets that the code finds for it *)
Theorem C92_annexb : forall st opts data bs st', reached call_ok st -> byte_string data -> ParseBitstream opts data st = Done (bs, st') ->
  forall l o level t, map snd l = bs_units bs -> -1 <= level -> fdump (text_bitstream o l) level = Done t -> text_bounded data (payloads (bs_units bs)) level t.
Proof. intros st opts data bs st' R D E l o level t Hl L F. eapply stream_within; [eapply annexb_fits; [exact D | apply reached_store, R | exact E] | exact Hl | exact L | exact F]. Qed.
Theorem C92_length_prefixed : forall st opts data n bs st', reached call_ok st -> byte_string data -> (0 < n <= 7)%nat -> ParseBitstreamNALULength opts data (Z.of_nat n) st = Done (bs, st') ->
  forall l o level t, map snd l = bs_units bs -> -1 <= level -> fdump (text_bitstream o l) level = Done t -> text_bounded data (payloads (bs_units bs)) level t.
Proof. intros st opts data n bs st' R D N E l o level t Hl L F. eapply stream_within; [eapply length_prefixed_fits; [exact D | exact N | apply reached_store, R | exact E] | exact Hl | exact L | exact F]. Qed.
Theorem C92_rtp : forall st data r st', reached call_ok st -> byte_string data -> ParseRtp data st = Done (Some r, st') ->
  forall sets o level t, -1 <= level -> fdump (text_rtp sets o r) level = Done t -> text_bounded data (packet_payloads r) level t.
Proof. intros st data r st' R D E sets o level t L F. eapply within; [exact L | eapply tsz_rtp; [exact D | apply reached_store, R | exact E] | | | exact F]; [change (squares (packet_payloads r)) with (payload_squares (rtp_payloads r)); lia|].
  pose proof (pictures_rtp r). pose proof (C50_rtp _ _ _ _ R D E). unfold len. lia. Qed.
Theorem C92_box : forall st opts data v st', reached call_ok st -> byte_string data -> ParseConfigurationBox opts data st = Done (Some v, st') ->
  forall sets o level t, -1 <= level -> fdump (text_box sets o v) level = Done t -> text_bounded data (box_payloads v) level t.
Proof. intros st opts data v st' R D E sets o level t L F. eapply within; [exact L | eapply tsz_box; [exact D | apply reached_store, R | exact E] | | | exact F]; [rewrite box_payloads_eq, squares_payloads; lia|].
  pose proof (pictures_box v). pose proof (C50_box _ _ _ _ _ R D E). unfold len. lia. Qed.
