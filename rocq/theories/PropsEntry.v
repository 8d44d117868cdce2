(** C83: every parser of the library called on its own, on any bytes and with any arguments, in any order. *)
From Coq Require Import ZArith List Bool Lia ZifyBool ZifyNat.
From Verif Require Import MBase MBitBuffer Spec BitsFacts Reader ReaderFacts Rules Syntax SyntaxSe MCommon CommonFacts PropsBits PropsCommon
  MFraming FramingFacts PropsFraming MSyntaxA SpecA FactsA Api PropsA MSyntaxB SpecB FactsB FactsRps PropsB MSps SpecSps FactsSps PropsSps
  MPps SpecPps FactsPps PropsPps MSlice SpecSlice FactsSlice PropsSlice MSei SpecSei FactsSei PropsSei MNal FactsNal PropsNal MRtp FactsRtp PropsRtp PropsQp FactsTame PropsSafe.
Import ListNotations.
Open Scope Z_scope.
Ltac Zify.zify_post_hook ::= Z.div_mod_to_equations.

(** * The entry points *)
(** The static functions [H265...Parser::Parse...(data, length, ...)] of include/*.h.  Each is UnescapeRbsp, BitBuffer, parser ([on_data],
    [on_data_st]): src/h265_aud_parser.cc:22-27, src/h265_hrd_parameters_parser.cc:23-31, src/h265_nal_unit_header_parser.cc:22-29,
    src/h265_nal_unit_payload_parser.cc:27-36, src/h265_pps_multilayer_extension_parser.cc:24-30, src/h265_pps_parser.cc:26-31,
    src/h265_pps_scc_extension_parser.cc:23-29, src/h265_pred_weight_table_parser.cc:23-31, src/h265_profile_tier_level_parser.cc:23-32 and 107-113,
    src/h265_rtp_ap_parser.cc:25-31, src/h265_rtp_fu_parser.cc:24-30, src/h265_rtp_single_parser.cc:24-30, src/h265_scaling_list_data_parser.cc:24-30,
    src/h265_sei_parser.cc:23-28, src/h265_slice_parser.cc:26-34 and 83-91, src/h265_sps_3d_extension_parser.cc:24-30,
    src/h265_sps_multilayer_extension_parser.cc:24-30, src/h265_sps_parser.cc:31-36, src/h265_sps_range_extension_parser.cc:23-29,
    src/h265_sps_scc_extension_parser.cc:23-33, src/h265_st_ref_pic_set_parser.cc, src/h265_sub_layer_hrd_parameters_parser.cc, src/h265_vps_parser.cc,
    src/h265_vui_parameters_parser.cc; except GetNalUnitType and ParseNalUnitUnescaped, which parse the bytes as they are. *)
Inductive entry : Type :=
| Top (c : call)                               (* the calls of C47: NAL unit, Annex B, length-prefixed, configuration box, RTP packet *)
| UnitUnescaped (opts : options) | Payload (nal_unit_type : Z) | RtpSingle | RtpAp | RtpFu
| SliceHeader (nal_unit_type : Z) | SliceLayer (nal_unit_type : Z)
| NalHeader | NalType | Aud | Vps | Sps | Pps | Sei
| ProfileTierLevel (present : bool) (max_sub_layers_minus1 : Z) | ProfileInfo
| SubLayerHrd (cpb_cnt sub_pic : Z) | Hrd (common max_sub_layers_minus1 : Z) | Vui (max_sub_layers_minus1 : Z)
| SpsRange | SpsMultilayer | Sps3d | SpsScc (chroma_format_idc bit_depth_luma_minus8 bit_depth_chroma_minus8 : Z)
| PpsMultilayer | PpsScc | PredWeight (chroma_array_type num_ref_idx_l0_active_minus1 : Z) | ScalingList
| StRefPicSet (idx num : Z) (sets : list rps) (max_num_pics : Z).

Definition unchanged {A} (o : outcome (option A)) (st : state) : outcome state := match o with Done _ => Done st | Bad e => Bad e end.
(** [run e data st]: the state after the call, or the undefined behaviour.  [data] is not used by [Top], which carries its bytes. *)
Definition run (e : entry) (data : list Z) (st : state) : outcome state :=
  match e with
  | Top c => perform c st
  | UnitUnescaped opts => new_state (ParseNalUnitUnescaped opts data st)
  | Payload ty => new_state (ParseNalUnitPayloadData ty data st)
  | RtpSingle => new_state (ParseRtpSingle data st)
  | RtpAp => new_state (ParseRtpAp data st)
  | RtpFu => new_state (ParseRtpFu data st)
  | SliceHeader ty | SliceLayer ty => unchanged (on_data (ParseSliceSegmentHeader ty st) data) st
  | NalHeader => unchanged (on_data ParseNalUnitHeader data) st
  | NalType => unchanged (GetNalUnitType data) st
  | Aud => unchanged (on_data ParseAud data) st
  | Vps => unchanged (on_data ParseVps data) st
  | Sps => unchanged (on_data ParseSps data) st
  | Pps => unchanged (on_data ParsePps data) st
  | Sei => unchanged (on_data ParseSei data) st
  | ProfileTierLevel present n => unchanged (on_data (ParseProfileTierLevel present n) data) st
  | ProfileInfo => unchanged (on_data ParseProfileInfo data) st
  | SubLayerHrd cpb sp => unchanged (on_data (ParseSubLayerHrdParameters cpb sp) data) st
  | Hrd common n => unchanged (on_data (ParseHrdParameters common n) data) st
  | Vui n => unchanged (on_data (ParseVuiParameters n) data) st
  | SpsRange => unchanged (on_data ParseSpsRangeExtension data) st
  | SpsMultilayer => unchanged (on_data ParseSpsMultilayerExtension data) st
  | Sps3d => unchanged (on_data ParseSps3dExtension data) st
  | SpsScc cf l c => unchanged (on_data (ParseSpsSccExtension cf l c) data) st
  | PpsMultilayer => unchanged (on_data ParsePpsMultilayerExtension data) st
  | PpsScc => unchanged (on_data ParsePpsSccExtension data) st
  | PredWeight cat n => unchanged (on_data (ParsePredWeightTable cat n) data) st
  | ScalingList => unchanged (on_data ParseScalingListData data) st
  | StRefPicSet idx num sets m => unchanged (on_data (ParseStRefPicSet idx num sets m) data) st
  end.

(** Arguments: any uint32_t; the upper ends of [<=] loops below 2^32 - 1; bit depths that do not wrap
    to 0 (C83_depth_refuted).  ParseStRefPicSet takes a vector of sets: it must have at least [idx]
    elements (C83_refuted), each with as many entries as its counts say, which is what the parser itself returns (C83_sets). *)
Definition uint32 (x : Z) : Prop := 0 <= x < 2 ^ 32.
Definition set_ok (s : rps) : Prop :=
  num_negative_pics s = Z.of_nat (length (rps_s0 s)) /\ num_positive_pics s = Z.of_nat (length (rps_s1 s)) /\ uint32 (num_negative_pics s + num_positive_pics s) /\
  Forall (fun e => uint32 (fst e) /\ (snd e = 0 \/ snd e = 1)) (rps_s0 s ++ rps_s1 s).
Definition entry_ok (e : entry) (data : list Z) : Prop :=
  match e with
  | Top c => call_ok c
  | _ => byte_string data /\
    match e with
    | Payload ty | SliceHeader ty | SliceLayer ty => uint32 ty
    | ProfileTierLevel _ n | Vui n => 0 <= n < 2 ^ 32 - 1
    | SubLayerHrd a b => uint32 a /\ uint32 b
    | Hrd common n | PredWeight common n => uint32 common /\ 0 <= n < 2 ^ 32 - 1
    | SpsScc cf l c => uint32 cf /\ uint32 l /\ uint32 c /\ l <> 2 ^ 32 - 8 /\ c <> 2 ^ 32 - 8
    | StRefPicSet idx num sets m => uint32 idx /\ uint32 num /\ uint32 m /\ idx <= Z.of_nat (length sets) /\ Forall set_ok sets
    | _ => True
    end
  end.
(** States that calls of entry points can produce, starting with a new state, if every call satisfies [P]. *)
Inductive reached_by (P : entry -> list Z -> Prop) : state -> Prop :=
| by_new : reached_by P empty_state
| by_call st e data st' : reached_by P st -> P e data -> run e data st = Done st' -> reached_by P st'.

(** * Lemmas *)
Definition any {A} : A -> list bool -> Prop := fun _ _ => True.
Lemma wp_any (E : errs) {A} (m : M A) Q : wp E m Q -> wp E m any.
Proof. intros H. eapply wp_weaken; [exact H|]. intros. exact I. Qed.
Lemma wp_depth l c comp : uint32 l -> uint32 c -> l <> 2 ^ 32 - 8 -> c <> 2 ^ 32 - 8 -> wp no_err (ReadBits (if comp =? 0 then u32 (8 + l) else u32 (8 + c))) any.
Proof.
  intros Hl Hc Nl Nc. eapply wp_any, wp_u_ok. unfold uint32, u32 in *.
  assert (G : forall x, 0 <= x < 2 ^ 32 -> x <> 2 ^ 32 - 8 -> 0 < (8 + x) mod 2 ^ 32).
  { intros x Hx Nx. destruct (Z_lt_le_dec (8 + x) (2 ^ 32)) as [L|L]; [rewrite Z.mod_small by lia; lia|].
    replace (8 + x) with (8 + x - 2 ^ 32 + 1 * 2 ^ 32) by lia. rewrite Z.mod_add by lia. rewrite Z.mod_small by lia. lia. }
  destruct (comp =? 0); apply G; assumption.
Qed.
Lemma wp_collect_any (E : errs) {A} (body : Z -> M A) n : (forall j, 0 <= j < n -> wp E (body j) any) -> wp E (collect n body) any.
Proof. intros H. eapply wp_any, wp_collect_rel. exact H. Qed.
Lemma wp_when_any (E : errs) (c : bool) {A} (m : M A) (d : A) : wp E m any -> wp E (when c m d) any.
Proof. intros H. eapply wp_any, (wp_when_rel _ _ _ _ any). intros _. exact H. Qed.
Lemma wp_bind_any (E : errs) {A B} (m : M A) (f : A -> M B) : wp E m any -> (forall a, wp E (f a) any) -> wp E (bind m f) any.
Proof. intros H G. eapply wp_bind; [exact H|]. intros a bs _. eapply wp_any, G. Qed.
Lemma wp_guard_any (E : errs) (c : bool) {B} (f : unit -> M B) : wp E (f tt) any -> wp E (bind (guard c) f) any.
Proof. intros H. apply wp_guard. intros _. exact H. Qed.
Lemma wp_ue_max_any k : wp no_err (ReadUeMax k) any.
Proof.
  unfold ReadUeMax. apply wp_bind_any; [eapply wp_any, wp_ue|]. intros a. apply wp_guard_any. apply (wp_any _ _ (fun _ _ => True)). apply wp_ret. exact I.
Qed.
Lemma wp_scc_any cf l c : uint32 l -> uint32 c -> l <> 2 ^ 32 - 8 -> c <> 2 ^ 32 - 8 -> wp no_err (ParseSpsSccExtension cf l c) any.
Proof.
  intros Hl Hc Nl Nc. unfold ParseSpsSccExtension.
  assert (U : forall n, 0 < n -> wp no_err (ReadBits n) any) by (intros n Hn; eapply wp_any, wp_u_ok; exact Hn).
  apply wp_bind_any; [apply U; lia|intros cpr]. apply wp_bind_any; [apply U; lia|intros pal].
  apply wp_bind_any; [apply wp_when_any, wp_ue_max_any|intros pmax]. apply wp_bind_any; [apply wp_when_any, wp_ue_max_any|intros pdelta].
  apply wp_bind_any; [apply wp_when_any, U; lia|intros pres]. apply wp_bind_any; [apply wp_when_any, wp_ue_max_any|intros num].
  apply wp_bind_any; [apply wp_when_any, wp_collect_any; intros j _; apply wp_collect_any; intros _ _; apply wp_depth; assumption|intros inits].
  apply wp_bind_any; [apply U; lia|intros mvr]. apply wp_bind_any; [apply U; lia|intros ibf]. apply wp_ret. exact I.
Qed.

(** ** st_ref_pic_set with any arguments *)
Lemma shape_set_ok s : rps_shape s -> set_ok s.
Proof.
  intros (N0 & N1 & N & F0 & F1). unfold set_ok, uint32. split; [exact N0|]. split; [exact N1|]. split; [lia|].
  apply Forall_app. split; (eapply Forall_impl; [|eassumption]); intros e [H1 H2]; (split; [exact H1|]); unfold u_ok in H2; lia.
Qed.
Lemma set_ok_shape s : set_ok s -> num_negative_pics s + num_positive_pics s <= 16 -> rps_shape s.
Proof.
  intros (N0 & N1 & N & F) H. apply Forall_app in F. destruct F as [F0 F1]. unfold rps_shape. split; [exact N0|]. split; [exact N1|]. split; [exact H|].
  split; (eapply Forall_impl; [|eassumption]); intros e [H1 H2]; (split; [exact H1|]); unfold u_ok; lia.
Qed.
Lemma wp_explicit_any m : uint32 m -> wp no_err (read_rps_explicit m) (fun s _ => set_ok s).
Proof.
  intros Hm. unfold read_rps_explicit, uint32 in *. wstep. wstep. wstep. wstep. unfold ue_ok in *.
  assert (Hu : u32 (m - a) = m - a) by (unfold u32; apply Z.mod_small; lia). rewrite Hu in *. clear Hu. wrun.
  unfold set_ok, uint32. cbn. destruct H3 as [L0 F0]. destruct H4 as [L1 F1]. split; [lia|]. split; [lia|]. split; [lia|].
  apply Forall_app. split; (eapply Forall_impl; [|eassumption]); intros e [G1 G2]; unfold ue_ok, u_ok in *; lia.
Qed.
Lemma wp_inter_any E D idx num sets : uint32 idx -> idx <= Z.of_nat (length sets) -> Forall set_ok sets -> idx <> 0 -> derives E sets D ->
  wp E (read_rps_inter idx num sets) (fun s _ => set_ok s).
Proof.
  intros Hr Hl F Hi HD. unfold uint32, read_rps_inter in *. wstep. wstep. wstep. wstep. cbv beta zeta.
  assert (Ha : 0 <= a) by (unfold optf, ue_ok in *; destruct (idx =? num); lia).
  rewrite ref_u32 by lia. assert (Hu : u32 (idx - 1) = idx - 1) by (unfold u32; apply Z.mod_small; lia). rewrite Hu in *.
  apply (wp_at _ sets _ rps_dummy); [lia|]. set (ref := znth sets (idx - (a + 1)) rps_dummy).
  assert (In_ref : In ref sets) by (unfold ref, znth; apply nth_In; lia).
  rewrite Forall_forall in F. pose proof (F _ In_ref) as Sh. pose proof Sh as (N0 & N1 & N & _). unfold uint32 in N.
  assert (Et : u32 (num_negative_pics ref + num_positive_pics ref) = num_negative_pics ref + num_positive_pics ref) by (unfold u32; apply Z.mod_small; lia).
  rewrite Et. wstep. unfold HEVC_MAX_DPB_SIZE in *. wstep.
  eapply wp_bind; [apply HD|].
  - exact In_ref.
  - split; [apply set_ok_shape; [exact Sh|lia]|lia].
  - assumption.
  - unfold ue_le in *. assumption.
  - apply H4.
  - destruct H4 as [L _]. rewrite L. lia.
  - cbv beta. intros r bs (-> & L & F0 & F1 & _). apply wp_ret. apply shape_set_ok. unfold rps_shape. cbn. destruct H4 as [L3 _]. repeat split; auto. lia.
Qed.
Lemma wp_rps_any E D idx num sets m : uint32 idx -> uint32 m -> idx <= Z.of_nat (length sets) -> Forall set_ok sets -> derives E sets D ->
  wp E (ParseStRefPicSet idx num sets m) (fun s _ => set_ok s).
Proof.
  intros Hr Hm Hl F HD. unfold ParseStRefPicSet. wstep. wstep. destruct (nz a) eqn:Ea.
  - destruct (Z.eqb_spec idx 0) as [->|Hi]; [cbn in H0; unfold optf in H0; cbn in H0; subst a; discriminate|]. eapply wp_inter_any; eassumption.
  - apply wp_err, wp_explicit_any, Hm.
Qed.

(** ** From parsers to calls *)
(** Whatever [E] allows, in the unescaped bytes. *)
Lemma on_data_wp (E : errs) {A} (m : M A) Q data : wp E m Q -> byte_string data -> exists rbsp, UnescapeRbsp data = Done rbsp /\
  match on_data m data with Done (Some a) => exists bs, Q a bs | Done None => True | Bad e => E e (bits_of rbsp) end.
Proof.
  intros H D. destruct (Unescape_byte_string data D) as (rbsp & Er & [F L]). exists rbsp. split; [exact Er|]. unfold on_data. rewrite Er. unfold on_buffer, init_ok.
  replace (Z.of_nat (length rbsp) <=? u32_max) with true by (unfold u32_max; lia). specialize (H _ (wf_mk _ F L)). change (rem (mk_bb rbsp)) with (bits_of rbsp) in H.
  destruct (m (mk_bb rbsp)) as [a b'|b'|e]; [|exact I|exact H]. destruct H as (bs & _ & H). eauto.
Qed.
(** The only calls that can overflow: 24 zero bits in a row in what the call parses -- never for the parsers without signed Exp-Golomb codes and
    sums --, or reference sets with an absolute DeltaPoc above 2^29 - 32768. *)
Definition risky (e : entry) (data : list Z) : Prop :=
  match e with
  | Top c => exists nal, nal_of_call c nal /\ rbsp_run nal
  | UnitUnescaped _ => zrun 24 (bits_of data)
  | StRefPicSet _ _ sets _ => ~ Forall (rps_bounded (2 ^ 29 - 32768)) sets
  | Payload _ | RtpSingle | RtpAp | RtpFu | SliceHeader _ | SliceLayer _ | Sps | Pps | Sei | PpsMultilayer | PpsScc | PredWeight _ _ | ScalingList => rbsp_run data
  | _ => False
  end.
Definition good (e : entry) (data : list Z) (st : state) (o : outcome state) : Prop :=
  match o with
  | Done st' => store_ok st' /\ (pocs_ok st -> pocs_ok st' \/ risky e data)
  | Bad x => x = SignedOverflow /\ (pocs_ok st -> risky e data)
  end.
Lemma pure_no_err {A} (m : M A) Q e data st : wp no_err m Q -> byte_string data -> store_ok st -> good e data st (unchanged (on_data m data) st).
Proof.
  intros H D S. destruct (on_data_wp _ _ _ _ H D) as (rbsp & _ & G). destruct (on_data m data) as [o|x]; [|destruct G]. split; [exact S|]. intros P. left. exact P.
Qed.
Lemma pure_ovf {A} (m : M A) Q e data st : wp ovf_only m Q -> byte_string data -> store_ok st -> (rbsp_run data -> risky e data) -> good e data st (unchanged (on_data m data) st).
Proof.
  intros H D S X. destruct (on_data_wp _ _ _ _ H D) as (rbsp & Er & G). destruct (on_data m data) as [o|x]; cbn [unchanged good].
  - split; [exact S|]. intros P. left. exact P.
  - destruct G as [-> G]. split; [reflexivity|]. intros _. apply X. eapply rbsp_run_of; eassumption.
Qed.
Lemma stateful_good {A} (m : SM A) e data st : (forall N, ssafe N (zrun 24) m) -> byte_string data -> store_ok st -> (rbsp_run data -> risky e data) ->
  good e data st (new_state (on_data_st m data st)).
Proof.
  intros H D S X. destruct (Unescape_byte_string data D) as (rbsp & Er & _). pose proof (ssafe_data m data rbsp st D S Er H) as G.
  assert (Y : zrun 24 (bits_of rbsp) -> risky e data) by (intros R; apply X; eapply rbsp_run_of; eassumption).
  destruct (on_data_st m data st) as [[o st1]|x]; cbn [new_state good]; tauto.
Qed.
Lemma unescaped_good opts data st : byte_string data -> store_ok st -> good (UnitUnescaped opts) data st (new_state (ParseNalUnitUnescaped opts data st)).
Proof.
  intros D S. destruct (le_lt_dec 2 (length data)) as [L|L].
  2:{ rewrite (nal_unit_short opts data st D L). cbn. tauto. }
  destruct (nal_unit_long opts data st D (store_state_ok _ S) L) as (h & Hh & Eh & W & ->).
  assert (X : zrun 24 (rem (adv (mk_bb data) 16)) -> zrun 24 (bits_of data)) by (rewrite rem_adv16 by exact D; apply (zrun_skipn 24 16)).
  destruct (payload_fault (nal_unit_type h) st (adv (mk_bb data) 16)) as [x|] eqn:PF; cbn [new_state good risky].
  - destruct (payload_fault_ovf _ _ _ _ W (store_state_ok _ S) PF) as [-> Q]. split; [reflexivity|]. intros P. auto.
  - split; [apply payload_store_ok; assumption|]. intros P. destruct (payload_pocs_ok (nal_unit_type h) st _ W P) as [Q|Q]; auto.
Qed.
Lemma slice_good ty e data st : byte_string data -> store_ok st -> (rbsp_run data -> risky e data) ->
  good e data st (unchanged (on_data (ParseSliceSegmentHeader ty st) data) st).
Proof.
  intros D S X. destruct (Unescape_byte_string data D) as (rbsp & Er & [F L]). unfold on_data. rewrite Er. unfold on_buffer, init_ok.
  replace (Z.of_nat (length rbsp) <=? u32_max) with true by (unfold u32_max; lia). pose proof (C37_safe st ty _ (wf_mk _ F L) (store_state_ok _ S)) as G.
  change (rem (mk_bb rbsp)) with (bits_of rbsp) in G. destruct (ParseSliceSegmentHeader ty st (mk_bb rbsp)) as [h b|b|x]; cbn [unchanged good]; try tauto.
  destruct G as [-> G]. split; [reflexivity|]. intros P. apply X. eapply rbsp_run_of; [exact Er|auto].
Qed.
Lemma rps_good idx num sets m data st : entry_ok (StRefPicSet idx num sets m) data -> store_ok st ->
  good (StRefPicSet idx num sets m) data st (unchanged (on_data (ParseStRefPicSet idx num sets m) data) st).
Proof.
  intros (D & Hi & Hn & Hm & Hl & F) S.
  destruct (on_data_wp _ _ _ _ (wp_rps_any ovf_any _ idx num sets m Hi Hm Hl F (derives_weak sets)) D) as (rbsp & Er & G).
  destruct (on_data (ParseStRefPicSet idx num sets m) data) as [o|x] eqn:E; cbn [unchanged good]; [split; [exact S|]; intros P; left; exact P|].
  split; [exact G|]. intros _. cbn [risky]. intros B.
  assert (HB : sets_bounded (2 ^ 29 - 32768) sets) by (split; [lia|]; split; [lia|exact B]).
  destruct (on_data_wp _ _ _ _ (wp_rps_any no_err _ idx num sets m Hi Hm Hl F (derives_strong _ sets HB)) D) as (rbsp' & _ & G'). rewrite E in G'. exact G'.
Qed.
Lemma run_good e data st : entry_ok e data -> store_ok st -> good e data st (run e data st).
Proof.
  intros H S. destruct e; cbn [run]; try (destruct H as [D H]).
  - pose proof (call_safe c st H S) as G. unfold good. cbn [risky]. destruct (perform c st); exact G.
  - apply unescaped_good; assumption.
  - apply stateful_good; auto. intros N. apply ssafe_payload.
  - apply stateful_good; auto. intros N. apply ssafe_single.
  - apply stateful_good; auto. intros N. apply ssafe_ap.
  - apply stateful_good; auto. intros N. apply ssafe_fu.
  - apply slice_good; auto.
  - apply slice_good; auto.
  - eapply pure_no_err; [apply wp_nal_header| |]; assumption.
  - unfold GetNalUnitType, on_buffer, init_ok. pose proof D as [F L]. replace (Z.of_nat (length data) <=? u32_max) with true by (unfold u32_max; lia).
    assert (W : wp no_err (bind ParseNalUnitHeader (fun h => ret (nal_unit_type h))) any).
    { apply wp_bind_any; [eapply wp_any, wp_nal_header|]. intros h. apply wp_ret. exact I. }
    specialize (W _ (wf_mk _ F L)). destruct (bind ParseNalUnitHeader (fun h => ret (nal_unit_type h)) (mk_bb data)); [| |destruct W]; (split; [exact S|]; intros P; left; exact P).
  - eapply pure_no_err; [apply wp_Aud| |]; assumption.
  - eapply pure_no_err; [apply wp_Vps| |]; assumption.
  - eapply pure_ovf; [apply wp_Sps| | |]; auto.
  - eapply pure_ovf; [apply wp_Pps| | |]; auto.
  - eapply pure_ovf; [apply wp_Sei| | |]; auto.
  - eapply pure_no_err; [apply wp_ptl| |]; assumption.
  - eapply pure_no_err; [apply wp_profile_info| |]; assumption.
  - eapply pure_no_err; [apply wp_sub_layer_hrd| |]; assumption.
  - eapply pure_no_err; [apply wp_hrd| |]; assumption.
  - eapply pure_no_err; [apply wp_vui| |]; assumption.
  - eapply pure_no_err; [apply wp_sps_range_ext| |]; assumption.
  - eapply pure_no_err; [apply wp_u1_ext| |]; assumption.
  - eapply pure_no_err; [apply wp_sps_3d_ext| |]; assumption.
  - destruct H as (H1 & H2 & H3 & H4 & H5). eapply pure_no_err; [apply wp_scc_any; assumption| |]; assumption.
  - eapply pure_ovf; [apply wpa_pps_ml_ext| | |]; auto.
  - eapply pure_ovf; [apply wpa_pps_scc_ext| | |]; auto.
  - eapply pure_ovf; [apply (wpa_pwt ovf_only _ _ ovf_in_only)| | |]; auto.
  - eapply pure_ovf; [apply (wpa_scaling_list_data ovf_only ovf_in_only)| | |]; auto.
  - apply rps_good; [split; assumption|exact S].
Qed.

(** * C83 *)
(** After any history of calls of entry points with any bytes and arguments, any further call returns or meets a signed overflow: nothing else. *)
Theorem C83_only_overflow : forall st e data x, reached_by entry_ok st -> entry_ok e data -> run e data st = Bad x -> x = SignedOverflow.
Proof.
  intros st e data x R H E. assert (S : store_ok st).
  { clear H E. induction R as [|st e' data' st' R IH H E]; [apply empty_store_ok|]. pose proof (run_good e' data' st H IH) as G. rewrite E in G. apply G. }
  pose proof (run_good e data st H S) as G. rewrite E in G. apply G.
Qed.
(** In a history without risky calls there is no undefined behaviour at all. *)
Theorem C83_safe : forall st e data, reached_by (fun e data => entry_ok e data /\ ~ risky e data) st -> entry_ok e data -> ~ risky e data -> exists st', run e data st = Done st'.
Proof.
  intros st e data R H N. assert (S : store_ok st /\ pocs_ok st).
  { clear H N. induction R as [|st e' data' st' R [IH1 IH2] [H N] E]; [apply empty_store_ok|]. pose proof (run_good e' data' st H IH1) as G. rewrite E in G. destruct G as [G1 G2].
    split; [exact G1|]. destruct (G2 IH2); [assumption|contradiction]. }
  destruct S as [S P]. pose proof (run_good e data st H S) as G. destruct (run e data st) as [st'|x]; [eauto|]. destruct G as [_ G]. destruct (N (G P)).
Qed.
(** The parsers that never meet undefined behaviour, whatever the bytes and in whatever state; they leave the state alone. *)
Theorem C83_never : forall e data st, entry_ok e data ->
  match e with
  | NalHeader | NalType | Aud | Vps | ProfileTierLevel _ _ | ProfileInfo | SubLayerHrd _ _ | Hrd _ _ | Vui _ | SpsRange | SpsMultilayer | Sps3d | SpsScc _ _ _ => True
  | StRefPicSet _ _ sets _ => Forall (rps_bounded (2 ^ 29 - 32768)) sets
  | _ => False
  end -> run e data st = Done st.
Proof.
  intros e data st H K.
  assert (G : forall A (m : M A) Q, wp no_err m Q -> byte_string data -> unchanged (on_data m data) st = Done st).
  { intros A m Q W D. destruct (on_data_wp _ _ _ _ W D) as (rbsp & _ & G). destruct (on_data m data); [reflexivity|destruct G]. }
  destruct e; try (exfalso; exact K); cbn [run]; destruct H as [D H].
  - eapply G; [apply wp_nal_header|exact D].
  - unfold GetNalUnitType, on_buffer, init_ok. pose proof D as [F L]. replace (Z.of_nat (length data) <=? u32_max) with true by (unfold u32_max; lia).
    assert (W : wp no_err (bind ParseNalUnitHeader (fun h => ret (nal_unit_type h))) any).
    { apply wp_bind_any; [eapply wp_any, wp_nal_header|]. intros h. apply wp_ret. exact I. }
    specialize (W _ (wf_mk _ F L)). destruct (bind ParseNalUnitHeader (fun h => ret (nal_unit_type h)) (mk_bb data)); [reflexivity|reflexivity|destruct W].
  - eapply G; [apply wp_Aud|exact D].
  - eapply G; [apply wp_Vps|exact D].
  - eapply G; [apply wp_ptl|exact D].
  - eapply G; [apply wp_profile_info|exact D].
  - eapply G; [apply wp_sub_layer_hrd|exact D].
  - eapply G; [apply wp_hrd|exact D].
  - eapply G; [apply wp_vui|exact D].
  - eapply G; [apply wp_sps_range_ext|exact D].
  - eapply G; [apply wp_u1_ext|exact D].
  - eapply G; [apply wp_sps_3d_ext|exact D].
  - destruct H as (H1 & H2 & H3 & H4 & H5). eapply G; [apply wp_scc_any; assumption|exact D].
  - destruct H as (Hi & Hn & Hm & Hl & F). assert (HB' : sets_bounded (2 ^ 29 - 32768) sets) by (split; [vm_compute; discriminate|]; split; [vm_compute; discriminate|exact K]).
    exact (G _ _ _ (wp_rps_any no_err _ idx num sets max_num_pics Hi Hm Hl F (derives_strong _ sets HB')) D).
Qed.
(** The reference picture sets that the parser returns, and those of a parsed SPS, can be passed to it. *)
Theorem C83_sets : forall data,
  (forall idx num sets m s, entry_ok (StRefPicSet idx num sets m) data -> on_data (ParseStRefPicSet idx num sets m) data = Done (Some s) -> set_ok s) /\
  (forall s x, byte_string data -> on_data ParseSps data = Done (Some (s, x)) -> Forall set_ok (sps_st_ref_pic_set s)).
Proof.
  intros data. split.
  - intros idx num sets m s (D & Hi & Hn & Hm & Hl & F) E.
    destruct (on_data_wp _ _ _ _ (wp_rps_any ovf_any _ idx num sets m Hi Hm Hl F (derives_weak sets)) D) as (rbsp & _ & G). rewrite E in G. destruct G as [_ G]. exact G.
  - intros s x D E. destruct (on_data_wp _ _ _ _ wp_Sps D) as (rbsp & _ & G). rewrite E in G. destruct G as (bs & H & _). cbn [fst] in H.
    assert (L : ue_le 64 (num_short_term_ref_pic_sets s) /\ rps_sets_out (num_short_term_ref_pic_sets s) (sps_st_ref_pic_set s)).
    { clear - H. unfold sps_ok_out, sps_ok in H. cbv zeta in H. repeat match type of H with _ /\ _ => destruct H as [? H] end. split; assumption. }
    destruct L as [L1 L2]. assert (L3 : 0 <= num_short_term_ref_pic_sets s <= 64) by (unfold ue_le in L1; lia). pose proof (sets_ok_out _ _ L3 L2) as (_ & _ & F). eapply Forall_impl; [|exact F]. apply shape_set_ok.
Qed.
(** Refuted: ParseStRefPicSet with a vector of fewer than [idx] sets reads beyond its end (here: idx 1, no sets). *)
Theorem C83_refuted : byte_string [0x9c] /\ run (StRefPicSet 1 2 [] 16) [0x9c] empty_state = Bad OutOfBounds.
Proof. split; [apply bytesb_ok|]; vm_compute; reflexivity. Qed.
(** Refuted: a bit_depth_luma_minus8 that wraps the depth to 0 fails the assertion of PeekBits (src/rtc_common.cc:116). *)
Theorem C83_depth_refuted : byte_string [0x7c; 0xff; 0xff] /\ run (SpsScc 1 (2 ^ 32 - 8) 0) [0x7c; 0xff; 0xff] empty_state = Bad AssertFail.
Proof. split; [apply bytesb_ok|]; vm_compute; reflexivity. Qed.
(** Refuted: sets with a huge DeltaPoc (delta_poc_s0_minus1 = 2^31 - 1) overflow. *)
Definition C83_set : rps := mkRPS 0 0 0 0 [] 1 0 [(2 ^ 31 - 1, 1)] [].
Theorem C83_overflow_refuted : entry_ok (StRefPicSet 1 2 [C83_set] 16) [0x9f; 0xff] /\ run (StRefPicSet 1 2 [C83_set] 16) [0x9f; 0xff] empty_state = Bad SignedOverflow.
Proof.
  split; [|vm_compute; reflexivity]. split; [apply bytesb_ok; vm_compute; reflexivity|]. unfold uint32. split; [lia|]. split; [lia|]. split; [lia|]. split; [cbn; lia|].
  repeat constructor; cbn; unfold uint32; lia.
Qed.

(** A history without risky calls: a PPS (as a NAL unit), then an aggregation packet, an HRD with 2^31 sub-layers asked for, and a reference picture set
    coded explicitly, which the last call uses as the reference of a second one. *)
Definition C83_pps : list Z := snd (nth 2 C24_nals (true, [])).
Definition C83_history : list (entry * list Z) :=
  [(Top (CallUnit default_options C83_pps), []); (RtpAp, [0x60; 1] ++ framed 2 C44_packet); (Hrd 1 (2 ^ 31), [0xff; 0x12]); (StRefPicSet 0 2 [] 16, [0x4f; 0xf0])].
Fixpoint run_all (h : list (entry * list Z)) (st : state) : outcome state :=
  match h with [] => Done st | (e, d) :: r => match run e d st with Done st' => run_all r st' | Bad x => Bad x end end.
Lemma run_all_reached P h : forall st st', Forall (fun c => P (fst c) (snd c)) h -> reached_by P st -> run_all h st = Done st' -> reached_by P st'.
Proof.
  induction h as [|[e d] h IH]; intros st st' F R E; cbn [run_all] in E; [injection E as <-; exact R|]. inversion F as [|? ? H F']; subst. cbn [fst snd] in H.
  destruct (run e d st) as [st1|x] eqn:E1; [|discriminate E]. eapply IH; [exact F'| |exact E]. eapply by_call; eassumption.
Qed.
Definition C83_set1 : rps := mkRPS 0 0 0 0 [] 1 2 [(0, 1)] [(0, 1); (0, 1)].
Definition C83_set2 : rps := mkRPS 1 0 0 0 [(1, 1); (1, 1); (1, 1); (1, 1)] 0 3 [] [(0, 1); (0, 1); (0, 1)].
Example C83_case : exists st, reached_by (fun e data => entry_ok e data /\ ~ risky e data) st /\ st_pps st 3 <> None /\
  on_data (ParseStRefPicSet 0 2 [] 16) [0x4f; 0xf0] = Done (Some C83_set1) /\
  entry_ok (StRefPicSet 1 2 [C83_set1] 16) [0xbe] /\ ~ risky (StRefPicSet 1 2 [C83_set1] 16) [0xbe] /\
  on_data (ParseStRefPicSet 1 2 [C83_set1] 16) [0xbe] = Done (Some C83_set2).
Proof.
  assert (E1 : match run_all C83_history empty_state with Done st => match st_pps st 3 with Some _ => true | None => false end | Bad _ => false end = true) by (vm_compute; reflexivity).
  destruct (run_all C83_history empty_state) as [st|x] eqn:E; [|discriminate E1]. exists st.
  split; [|split; [intros X; rewrite X in E1; discriminate E1|]].
  - eapply run_all_reached; [|apply by_new|exact E]. unfold C83_history. repeat (apply Forall_cons; cbn [fst snd]).
    + split; [apply bytesb_ok; vm_compute; reflexivity|]. intros (nal & -> & R). revert R. apply no_run. vm_compute. reflexivity.
    + split; [split; [apply bytesb_ok; vm_compute; reflexivity|exact I]|]. apply no_run. vm_compute. reflexivity.
    + split; [split; [apply bytesb_ok; vm_compute; reflexivity|unfold uint32; lia]|]. intros [].
    + split; [split; [apply bytesb_ok; vm_compute; reflexivity|unfold uint32; repeat split; try lia; try constructor]|]. intros H. apply H. constructor.
    + constructor.
  - split; [vm_compute; reflexivity|]. split; [|split; [|vm_compute; reflexivity]].
    + split; [apply bytesb_ok; vm_compute; reflexivity|]. unfold uint32. split; [lia|]. split; [lia|]. split; [lia|]. split; [cbn; lia|]. constructor; [|constructor].
      split; [reflexivity|]. split; [reflexivity|]. split; [vm_compute; split; [discriminate|reflexivity]|]. cbn. repeat constructor; cbn; lia.
    + intros H. apply H. constructor; [|constructor]. split; cbn; repeat constructor; lia.
Qed.
