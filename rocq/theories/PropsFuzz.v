(** C94: the fuzz targets (MFuzz.v). *)
From Coq Require Import ZArith List Bool Lia ZifyBool ZifyNat.
From Verif Require Import MBase MBitBuffer Spec BitsFacts Reader ReaderFacts Rules Syntax SyntaxSe MCommon CommonFacts PropsBits PropsCommon
  MFraming FramingFacts PropsFraming MSyntaxA SpecA FactsA Api PropsA MSyntaxB SpecB FactsB FactsRps PropsB MSps SpecSps FactsSps PropsSps
  MPps SpecPps FactsPps PropsPps MSlice SpecSlice FactsSlice PropsSlice MSei SpecSei FactsSei PropsSei MNal FactsNal PropsNal MRtp FactsRtp PropsRtp PropsQp FactsTame PropsSafe
  PropsEntry PropsPlanted MFuzz.
Import ListNotations.
Open Scope Z_scope.
Ltac Zify.zify_post_hook ::= Z.div_mod_to_equations.

Lemma drop_run {A} (o : outcome (option A)) st : drop o = match unchanged o st with Done _ => Done tt | Bad e => Bad e end.
Proof. destruct o; reflexivity. Qed.
Lemma drop_state {A} (o : outcome (A * state)) : drop o = match new_state o with Done _ => Done tt | Bad e => Bad e end.
Proof. destruct o as [[a st]|e]; reflexivity. Qed.
Lemma also_same {A} (o : outcome A) : also (drop o) (drop o) = drop o.
Proof. destruct o; reflexivity. Qed.
Lemma also_bad o1 o2 x : also o1 o2 = Bad x -> o1 = Bad x \/ o2 = Bad x.
Proof. destruct o1; auto. Qed.

(** * C94 *)
(** Targets that return on every input. *)
Definition steady : list (list Z -> outcome unit) :=
  [fuzz_aud; fuzz_hrd_parameters; fuzz_profile_tier_level; fuzz_sps_3d_extension; fuzz_sps_multilayer_extension; fuzz_sps_range_extension;
   fuzz_sps_scc_extension; fuzz_st_ref_pic_set; fuzz_sub_layer_hrd_parameters; fuzz_vps; fuzz_vui_parameters].
Theorem C94_steady : forall f data, In f steady -> byte_string data -> f data = Done tt.
Proof.
  intros f data I D.
  assert (G : forall e, entry_ok e data -> match e with
    | NalHeader | NalType | Aud | Vps | ProfileTierLevel _ _ | ProfileInfo | SubLayerHrd _ _ | Hrd _ _ | Vui _ | SpsRange | SpsMultilayer | Sps3d | SpsScc _ _ _ => True
    | StRefPicSet _ _ sets _ => Forall (rps_bounded (2 ^ 29 - 32768)) sets
    | _ => False end -> run e data empty_state = Done empty_state) by (intros e; apply C83_never).
  assert (K : forall A (o : outcome (option A)), unchanged o empty_state = Done empty_state -> drop o = Done tt) by (intros A o E; rewrite (drop_run o empty_state), E; reflexivity).
  unfold steady in I. cbn [In] in I.
  repeat match type of I with _ \/ _ => destruct I as [<-|I] end; [..|destruct I];
    unfold fuzz_profile_tier_level, fuzz_vui_parameters; rewrite ?also_same; unfold fuzz_aud, fuzz_hrd_parameters, fuzz_sps_3d_extension, fuzz_sps_multilayer_extension,
      fuzz_sps_range_extension, fuzz_sps_scc_extension, fuzz_st_ref_pic_set, fuzz_sub_layer_hrd_parameters, fuzz_vps; apply K.
  - apply (G Aud); [split; [exact D|exact I]|exact I].
  - apply (G (Hrd 1 0)); [split; [exact D|unfold uint32; lia]|exact I].
  - apply (G (ProfileTierLevel true 0)); [split; [exact D|lia]|exact I].
  - apply (G Sps3d); [split; [exact D|exact I]|exact I].
  - apply (G SpsMultilayer); [split; [exact D|exact I]|exact I].
  - apply (G SpsRange); [split; [exact D|exact I]|exact I].
  - apply (G (SpsScc 1 0 0)); [split; [exact D|unfold uint32; lia]|exact I].
  - apply (G (StRefPicSet 0 1 [] 1)); [split; [exact D|unfold uint32; cbn; repeat split; try lia; constructor]|constructor].
  - apply (G (SubLayerHrd 1 0)); [split; [exact D|unfold uint32; lia]|exact I].
  - apply (G Vps); [split; [exact D|exact I]|exact I].
  - apply (G (Vui 0)); [split; [exact D|lia]|exact I].
Qed.
(** Targets that return, or meet a signed overflow -- then the unescaped input has 24 zero bits in a row. *)
Definition overflowing : list (list Z -> outcome unit) :=
  [fuzz_nal_unit; fuzz_pps_multilayer_extension; fuzz_pps; fuzz_pps_scc_extension; fuzz_pred_weight_table; fuzz_rtp_ap; fuzz_rtp; fuzz_rtp_single;
   fuzz_scaling_list_data; fuzz_sei; fuzz_sps].
Lemma good_new e data : entry_ok e data -> forall x, run e data empty_state = Bad x -> x = SignedOverflow /\ risky e data.
Proof.
  intros H x E. destruct empty_store_ok as [S P]. pose proof (run_good e data empty_state H S) as G. rewrite E in G. destruct G as [G1 G2]. auto.
Qed.
Theorem C94_overflowing : forall f data x, In f overflowing -> byte_string data -> f data = Bad x -> x = SignedOverflow /\ rbsp_run data.
Proof.
  intros f data x I D E. pose proof (good_new) as G.
  assert (K : forall A (o : outcome (option A)) x, drop o = Bad x -> unchanged o empty_state = Bad x) by (intros A o y; destruct o; cbn; congruence).
  assert (N : forall A (o : outcome (A * state)) x, drop o = Bad x -> new_state o = Bad x) by (intros A o y; destruct o as [[]|]; cbn; congruence).
  assert (X : forall nal, nal = data /\ rbsp_run nal -> rbsp_run data) by (intros nal [-> R]; exact R).
  unfold overflowing in I. cbn [In] in I.
  repeat match type of I with _ \/ _ => destruct I as [<-|I] end; [..|destruct I].
  - apply N in E. destruct (G (Top (CallUnit default_options data)) [] D _ E) as [G1 (nal & G2)]. split; [exact G1|eapply X, G2].
  - apply K in E. apply (G PpsMultilayer data (conj D I) _ E).
  - apply K in E. apply (G Pps data (conj D I) _ E).
  - apply K in E. apply (G PpsScc data (conj D I) _ E).
  - apply also_bad in E. destruct E as [E|E]; apply K in E; [apply (G (PredWeight 1 0) data)|apply (G (PredWeight 1 2) data)]; try exact E; (split; [exact D|unfold uint32; lia]).
  - apply N in E. apply (G RtpAp data (conj D I) _ E).
  - apply N in E. destruct (G (Top (CallRtp data)) [] D _ E) as [G1 (nal & G2)]. split; [exact G1|eapply X, G2].
  - apply N in E. apply (G RtpSingle data (conj D I) _ E).
  - apply K in E. apply (G ScalingList data (conj D I) _ E).
  - apply K in E. apply (G Sei data (conj D I) _ E).
  - apply K in E. apply (G PropsEntry.Sps data (conj D I) _ E).
Qed.
(** The targets that split their input into NAL units: one of them has the 24 zero bits. *)
Theorem C94_units : forall data x, byte_string data ->
  (fuzz_bitstream data = Bad x -> x = SignedOverflow /\ exists ix, In ix (annexb_units data) /\ rbsp_run (payload data ix)) /\
  (fuzz_configuration_box data = Bad x -> x = SignedOverflow /\ exists nal, unit_in_box (bits_of data) nal /\ rbsp_run nal).
Proof.
  intros data x D.
  assert (N : forall A (o : outcome (A * state)) x, drop o = Bad x -> new_state o = Bad x) by (intros A o y; destruct o as [[]|]; cbn; congruence).
  split; intros E; apply N in E.
  - destruct (good_new (Top (CallAnnexB default_options data)) [] D _ E) as [G1 (nal & (ix & G2 & ->) & G3)]. eauto.
  - destruct (good_new (Top (CallBox default_options data)) [] D _ E) as [G1 (nal & G2 & G3)]. eauto.
Qed.
(** Targets with parameter sets of their own: their SPS has a picture size of 0. *)
Lemma mock_mock : mock = mkState (put (st_vps empty_state) 0 (Some (new_vps, 0))) (put (st_sps empty_state) 0 (Some (fuzz_sps_set, 0))) (put (st_pps empty_state) 0 (Some (new_pps, 0))).
Proof. reflexivity. Qed.
Lemma mock_visited : visited false mock.
Proof.
  refine (v_pps false (mkState (st_vps mock) (st_sps mock) (st_pps empty_state)) 0 (Some (new_pps, 0)) _ _).
  - refine (v_sps false (mkState (st_vps mock) (st_sps empty_state) (st_pps empty_state)) 0 (Some (fuzz_sps_set, 0)) _ _).
    + refine (v_vps false empty_state 0 (Some (new_vps, 0)) (v_new false)).
    + intros s x E. injection E as <- <-. split; [vm_compute; reflexivity|discriminate|cbn; lia|constructor|cbn; lia].
  - intros p x E. injection E as <- <-. intros H. discriminate H.
Qed.
Theorem C94_mock : forall f data x, In f [fuzz_slice; fuzz_rtp_fu; fuzz_utils] -> byte_string data -> f data = Bad x -> x = SignedOverflow \/ x = BadConversion.
Proof.
  intros f data x I D E. cbn [In] in I. repeat match type of I with _ \/ _ => destruct I as [<-|I] end; [..|destruct I].
  - apply (C93_unsized mock (SliceHeader IDR_W_RADL) data x mock_visited); [split; [exact D|unfold entry_ok, uint32, IDR_W_RADL; lia]|].
    unfold fuzz_slice in E. cbn [run]. destruct (on_data (ParseSliceSegmentHeader IDR_W_RADL mock) data); cbn in *; congruence.
  - apply (C93_unsized mock RtpFu data x mock_visited); [split; [exact D|exact I]|].
    unfold fuzz_rtp_fu in E. cbn [run]. destruct (ParseRtpFu data mock) as [[o st]|]; cbn in *; congruence.
  - pose proof (C93_qp false mock data mock_visited D) as G. unfold fuzz_utils in E. destruct (GetSliceQpY data mock) as [[l st]|e]; [discriminate E|]. injection E as <-. tauto.
Qed.
(** The slice target meets the conversion on every input whose third bit is 1 and whose first bit is 0 (after unescaping), and on no other. *)
Theorem C94_slice : forall data rbsp, byte_string data -> UnescapeRbsp data = Done rbsp ->
  (fuzz_slice data = Bad BadConversion <-> exists no_output rest, bits_of rbsp = false :: no_output :: true :: rest).
Proof.
  intros data rbsp D Er. pose proof (C93_conversion IDR_W_RADL data rbsp mock mock_visited D Er) as G.
  assert (K : fuzz_slice data = Bad BadConversion <-> run (SliceHeader IDR_W_RADL) data mock = Bad BadConversion).
  { unfold fuzz_slice. cbn [run]. destruct (on_data (ParseSliceSegmentHeader IDR_W_RADL mock) data); cbn [drop unchanged]; (split; intros E; first [discriminate E|injection E as ->; reflexivity]). }
  rewrite K, G. clear K G. split.
  - intros (s & (z & pid & p & x & y & d & rest & -> & Hp & Ep & Es & Lz & Ld) & _).
    unfold mock in Ep. cbn [st_pps] in Ep. destruct (Z.eqb_spec pid 0) as [->|]; [|discriminate Ep]. injection Ep as <- <-.
    destruct z as [|z0 [|]]; try discriminate Lz. exists z0, (d ++ rest). reflexivity.
  - intros (z & rest & ->). exists fuzz_sps_set. split; [|vm_compute; reflexivity]. exists [z], 0, new_pps, 0, 0, [], rest.
    split; [reflexivity|]. split; [lia|]. repeat split.
Qed.
(** The other two reach it too: a fragment that starts a slice, and a stream with one. *)
Theorem C94_witnesses : fuzz_slice [0x20] = Bad BadConversion /\ fuzz_rtp_fu [0x62; 1; 0x93; 0x20] = Bad BadConversion /\ fuzz_utils [0; 0; 1; 0x26; 1; 0x20] = Bad BadConversion.
Proof. repeat split; vm_compute; reflexivity. Qed.
(** Each of the others does overflow on some input: a codeword of 31 zeros where a se(v) is expected. *)
Definition C94_code : list bool := repeat false 31 ++ true :: repeat false 31.
Definition C94_bytes (l : list bool) : list Z := pack (l ++ repeat true (8 - length l mod 8)%nat).
Definition C94_sps : list bool := repeat false 7 ++ [true] ++ repeat false 96 ++ enc_ue 0 ++ enc_ue 1 ++ enc_ue 64 ++ enc_ue 64 ++ [false] ++ enc_ue 0 ++ enc_ue 0 ++ enc_ue 0 ++
  [true] ++ enc_ue 0 ++ enc_ue 0 ++ enc_ue 0 ++ enc_ue 0 ++ enc_ue 1 ++ enc_ue 0 ++ enc_ue 0 ++ enc_ue 0 ++ enc_ue 0 ++ [true; true; true] ++ C94_code.
Definition C94_sei : list bool := enc_u 8 142 ++ enc_u 8 30 ++ [true; false; false; false] ++ enc_u 8 8 ++ enc_u 8 8 ++ enc_u 8 0 ++ enc_u 8 0 ++ enc_u 8 0 ++ [true] ++ enc_u 4 0 ++
  C94_code ++ repeat true 200.
(** C47_pps without its emulation prevention bytes: inside an aggregation packet these are counted wrongly (C44_escaped_refuted) *)
Definition C94_pps : list Z := [68; 1; 36; 6; 0; 0; 0; 2; 0; 0; 0; 0; 96; 4; 128].
Definition C94_box : list Z := pack (enc_box C42_header [mkBA 0 34 [C47_pps]]).
Definition C94_inputs : list ((list Z -> outcome unit) * list Z) :=
  [(fuzz_nal_unit, C47_pps); (fuzz_pps_multilayer_extension, C94_bytes ([false; false] ++ enc_ue 1 ++ enc_u 6 0 ++ [true] ++ C94_code)); (fuzz_pps, skipn 2 C47_pps);
   (fuzz_pps_scc_extension, C94_bytes ([false; true; true] ++ C94_code)); (fuzz_pred_weight_table, C94_bytes (true :: C94_code)); (fuzz_rtp_ap, [0x60; 1] ++ framed 2 [C94_pps]);
   (fuzz_rtp, C47_pps); (fuzz_rtp_single, C47_pps); (fuzz_scaling_list_data, C94_bytes (true :: C94_code)); (fuzz_sei, C94_bytes C94_sei); (fuzz_sps, C94_bytes C94_sps);
   (fuzz_bitstream, [0; 0; 1] ++ C47_pps); (fuzz_configuration_box, C94_box)].
Theorem C94_overflows : map fst C94_inputs = overflowing ++ [fuzz_bitstream; fuzz_configuration_box] /\ Forall (fun c => byte_string (snd c) /\ fst c (snd c) = Bad SignedOverflow) C94_inputs.
Proof.
  split; [reflexivity|]. unfold C94_inputs. repeat (apply Forall_cons; [split; cbn [fst snd]; [apply bytesb_ok; vm_compute; reflexivity|vm_compute; reflexivity]|]). constructor.
Qed.
(** So no input without such a run of zeros makes these targets report anything. *)
Theorem C94_quiet : forall f data, In f overflowing -> byte_string data -> ~ rbsp_run data -> f data = Done tt.
Proof.
  intros f data I D N. destruct (f data) as [[]|x] eqn:E; [reflexivity|]. destruct (C94_overflowing f data x I D E) as [_ R]. contradiction.
Qed.
Example C94_case : byte_string [0x44; 1; 0xc0; 0xf3; 0xc0; 2; 0x10; 0] /\ ~ rbsp_run [0x44; 1; 0xc0; 0xf3; 0xc0; 2; 0x10; 0].
Proof. split; [apply bytesb_ok; vm_compute; reflexivity|]. apply no_run. vm_compute. reflexivity. Qed.
