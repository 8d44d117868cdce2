(** C42-C46: configuration box, RTP packets, slice QP. *)
From Coq Require Import ZArith List Bool Lia ZifyBool ZifyNat.
From Verif Require Import MBase MBitBuffer Spec BitsFacts Reader ReaderFacts Rules Syntax SyntaxSe MCommon CommonFacts PropsBits PropsCommon
  MFraming FramingFacts PropsFraming MSyntaxA SpecA FactsA Api PropsA MSyntaxB SpecB FactsB FactsRps PropsB MSps SpecSps FactsSps PropsSps
  MPps SpecPps FactsPps PropsPps MSlice SpecSlice FactsSlice PropsSlice MSei SpecSei FactsSei PropsSei MNal FactsNal PropsNal MRtp FactsRtp.
Import ListNotations.
Open Scope Z_scope.
Ltac Zify.zify_post_hook ::= Z.div_mod_to_equations.

Lemma on_buffer_st_eq {A} (m : SM A) data st : byte_string data -> on_buffer_st m data st =
  match m st (mk_bb data) with Ok r _ => Done r | Fail _ => Done (None, st) | Err e => Bad e end.
Proof. intros [_ L]. unfold on_buffer_st, init_ok. replace (Z.of_nat (length data) <=? u32_max) with true by (unfold u32_max; lia). reflexivity. Qed.
Lemma on_data_st_eq {A} (m : SM A) data rbsp st : byte_string data -> UnescapeRbsp data = Done rbsp -> on_data_st m data st =
  match m st (mk_bb rbsp) with Ok r _ => Done r | Fail _ => Done (None, st) | Err e => Bad e end.
Proof. intros D E. unfold on_data_st. rewrite E. apply on_buffer_st_eq. eapply unesc_bytes; eassumption. Qed.

(** * C42 *)
(** A box with this layout ([enc_box], FactsRtp.v): the header is returned as encoded, every array with the announced units, and the units
    are those ParseNalUnit returns on exactly the announced bytes, one after the other with one state. *)
Theorem C42_complete : forall opts data st h arrs rest, byte_string data -> box_ok h arrs -> bits_of data = enc_box h arrs ++ rest ->
  match parse_all opts (flat_map ba_nals arrs) st with
  | Bad e => ParseConfigurationBox opts data st = Bad e
  | Done (us, st') => exists box, ParseConfigurationBox opts data st = Done (Some box, st') /\ hv_header box = h /\
      map (fun a => (array_completeness a, NAL_unit_type a, map fst (nalus a))) (hv_arrays box) =
      map (fun a => (ba_completeness a, ba_type a, map (fun x => Z.of_nat (length x)) (ba_nals a))) arrs /\
      map snd (flat_map nalus (hv_arrays box)) = us
  end.
Proof.
  intros opts data st h arrs rest D O R. unfold ParseConfigurationBox. rewrite on_buffer_st_eq by exact D. pose proof D as [F L].
  rewrite (box_parses opts h arrs st (mk_bb data) rest (wf_mk _ F L) O R). destruct (parse_all opts (flat_map ba_nals arrs) st) as [[us st']|e] eqn:E; [|reflexivity].
  eexists. split; [reflexivity|]. split; [reflexivity|]. cbn [hv_arrays]. apply parse_all_length in E. clear - E. revert us E.
  induction arrs as [|a arrs IH]; intros us E; [destruct us; [auto|discriminate]|]. cbn [arrays_of map].
  change (flat_map ba_nals (a :: arrs)) with (ba_nals a ++ flat_map ba_nals arrs) in E. rewrite app_length in E.
  destruct (IH (skipn (length (ba_nals a)) us)) as [I1 I2]; [rewrite skipn_length; lia|]. split.
  - rewrite I1. f_equal. unfold array_of. cbn [array_completeness NAL_unit_type nalus]. f_equal.
    assert (G : forall (l1 : list Z) (l2 : list (option nal_unit)), length l1 = length l2 -> map fst (combine l1 l2) = l1).
    { induction l1 as [|x l1 IHl]; intros [|y l2] H; try discriminate; [reflexivity|]. cbn. f_equal. apply IHl. cbn in H. lia. }
    apply G. rewrite map_length, firstn_length. lia.
  - change (flat_map nalus (array_of a (firstn (length (ba_nals a)) us) :: arrays_of arrs (skipn (length (ba_nals a)) us)))
      with (nalus (array_of a (firstn (length (ba_nals a)) us)) ++ flat_map nalus (arrays_of arrs (skipn (length (ba_nals a)) us))).
    rewrite map_app, I2. unfold array_of. cbn [nalus].
    assert (G : forall (l1 : list Z) (l2 : list (option nal_unit)), length l1 = length l2 -> map snd (combine l1 l2) = l2).
    { induction l1 as [|x l1 IHl]; intros [|y l2] H; try discriminate; [reflexivity|]. cbn. f_equal. apply IHl. cbn in H. lia. }
    rewrite G by (rewrite map_length, firstn_length; lia). apply firstn_skipn.
Qed.
(** Nothing else is accepted: in particular version 1, all reserved bits as required, and every announced byte is there. *)
Theorem C42_sound : forall opts data st box st', byte_string data -> ParseConfigurationBox opts data st = Done (Some box, st') ->
  exists h arrs rest, box_ok h arrs /\ bits_of data = enc_box h arrs ++ rest.
Proof.
  intros opts data st box st' D E. unfold ParseConfigurationBox in E. rewrite on_buffer_st_eq in E by exact D. pose proof D as [F L].
  destruct (ParseConfigurationBoxBuffer opts st (mk_bb data)) as [[[r|] s1] b1|b1|e] eqn:E1; try discriminate. injection E as <- <-.
  exact (box_sound _ _ _ _ _ _ (wf_mk _ F L) E1).
Qed.
(** The announced numbers of arrays and NAL units are the lengths of the vectors. *)
Theorem C42_counts : forall opts data st box st', byte_string data -> ParseConfigurationBox opts data st = Done (Some box, st') ->
  Z.of_nat (length (hv_arrays box)) = numOfArrays (hv_header box).
Proof.
  intros opts data st box st' D E. destruct (C42_sound _ _ _ _ _ D E) as (h & arrs & rest & O & R). pose proof (C42_complete opts data st h arrs rest D O R) as H. rewrite E in H.
  destruct (parse_all opts (flat_map ba_nals arrs) st) as [[us st1]|e]; [|discriminate]. destruct H as (box' & H1 & <- & H2 & _). injection H1 as <- _.
  apply (f_equal (@length _)) in H2. rewrite !map_length in H2. destruct O as (_ & O & _). lia.
Qed.
(** Undefined behaviour: only signed overflow, and with reference picture sets within limits only if the RBSP of some NAL unit of the box
    ([unit_in_box]) has 24 zero bits in a row. *)
Theorem C42_safe : forall opts data st, byte_string data -> store_ok st ->
  match ParseConfigurationBox opts data st with
  | Done (_, st') => store_ok st' /\ (pocs_ok st -> pocs_ok st' \/ nal_run (bits_of data))
  | Bad e => e = SignedOverflow /\ (pocs_ok st -> nal_run (bits_of data))
  end.
Proof.
  intros opts data st D S. unfold ParseConfigurationBox. rewrite on_buffer_st_eq by exact D. pose proof D as [F L].
  pose proof (sspec_box opts st (mk_bb data) (wf_mk _ F L) S) as H. change (rem (mk_bb data)) with (bits_of data) in H.
  destruct (ParseConfigurationBoxBuffer opts st (mk_bb data)) as [[o s1] b1|b1|e]; [|destruct H|exact H]. tauto.
Qed.

(** * C43 *)
Definition as_rtp {A} (f : A -> rtp) (o : outcome (option A * state)) : outcome (option rtp * state) :=
  match o with
  | Bad e => Bad e
  | Done (None, st') => Done (None, st')
  | Done (Some a, st') => Done (Some (f a), st')
  end.
Lemma seek_back rbsp : Seek 0 0 (adv (mk_bb rbsp) 16) = Ok tt (mk_bb rbsp).
Proof. unfold Seek. cbn [adv mk_bb bb_count bb_bytes]. replace (Z.of_nat (length rbsp) <? 0) with false by lia. replace (0 =? Z.of_nat (length rbsp)) with (Z.of_nat (length rbsp) =? 0) by lia. cbn. rewrite andb_false_r. reflexivity. Qed.
Theorem C43_choice : forall data rbsp st, byte_string data -> UnescapeRbsp data = Done rbsp ->
  ((length rbsp < 2)%nat -> ParseRtp data st = Done (None, st)) /\
  ((2 <= length rbsp)%nat -> exists h, nal_header_ok h /\ bits_of (firstn 2 rbsp) = enc_nal_header h /\
    ParseRtp data st =
      if nal_unit_type h <=? 47 then as_rtp (fun s => mkRtp h (Some s) None None) (ParseRtpSingle data st)
      else if nal_unit_type h =? 48 then as_rtp (fun a => mkRtp h None (Some a) None) (ParseRtpAp data st)
      else if nal_unit_type h =? 49 then as_rtp (fun f => mkRtp h None None (Some f)) (ParseRtpFu data st)
      else Done (Some (mkRtp h None None None), st)).
Proof.
  intros data rbsp st D E. unfold ParseRtp. rewrite !(on_data_st_eq _ _ _ _ D E). pose proof (unesc_bytes _ _ D E) as [F L]. pose proof (wf_mk _ F L) as W.
  assert (LR : length (rem (mk_bb rbsp)) = (8 * length rbsp)%nat) by (change (rem (mk_bb rbsp)) with (bits_of rbsp); apply length_bits_of).
  split; intros H.
  - destruct (header_short _ W ltac:(lia)) as (b' & bs & Eh & _). unfold ParseRtpBuffer. rewrite (sbind_none _ _ _ _ _ _ (lift_fail _ _ _ _ Eh)). reflexivity.
  - destruct (header_at _ W ltac:(lia)) as (h & Hh & Fh & Eh & _). exists h. split; [exact Hh|]. split.
    { rewrite <- Fh. change (rem (mk_bb rbsp)) with (bits_of rbsp). rewrite <- (firstn_skipn 2 rbsp) at 2. rewrite bits_of_app, firstn_app, length_bits_of, firstn_length_le by lia.
      rewrite Nat.sub_diag, firstn_O, app_nil_r. symmetry. apply firstn_all2. rewrite length_bits_of, firstn_length_le by lia. lia. }
    unfold ParseRtpBuffer. rewrite (sbind_eq _ _ _ _ _ _ _ (lift_eq _ _ _ _ _ Eh)).
    assert (Es : attempt (Seek 0 0) (adv (mk_bb rbsp) 16) = Ok (Some tt) (mk_bb rbsp)) by (unfold attempt; rewrite seek_back; reflexivity).
    rewrite (sbind_eq _ _ _ _ _ _ _ (lift_eq _ _ _ _ _ Es)). unfold ParseRtpSingle, ParseRtpAp, ParseRtpFu. rewrite !(on_data_st_eq _ _ _ _ D E). unfold AP, FU.
    destruct (nal_unit_type h <=? 47); [|destruct (nal_unit_type h =? 48); [|destruct (nal_unit_type h =? 49); [|reflexivity]]]; unfold sbind, bind.
    + destruct (ParseRtpSingleBuffer st (mk_bb rbsp)) as [[[s|] s1] b1|b1|e]; reflexivity.
    + destruct (ParseRtpApBuffer st (mk_bb rbsp)) as [[[s|] s1] b1|b1|e]; reflexivity.
    + destruct (ParseRtpFuBuffer st (mk_bb rbsp)) as [[[s|] s1] b1|b1|e]; reflexivity.
Qed.
(** A single NAL unit packet is the NAL unit: same header, payload and state as ParseNalUnit. *)
Theorem C43_single : forall opts data st, byte_string data -> state_ok st -> ParseRtpSingle data st =
  match ParseNalUnit opts data st with
  | Bad e => Bad e
  | Done (None, st') => Done (None, st')
  | Done (Some u, st') => Done (Some (mkRS (nu_header u) (nu_payload u)), st')
  end.
Proof.
  intros opts data st D S. destruct (Unescape_byte_string data D) as (rbsp & E & D'). rewrite (nal_unit_unesc _ _ _ _ E). unfold ParseRtpSingle.
  rewrite (on_data_st_eq _ _ _ _ D E). pose proof D' as [F L]. pose proof (wf_mk _ F L) as W.
  assert (LR : length (rem (mk_bb rbsp)) = (8 * length rbsp)%nat) by (change (rem (mk_bb rbsp)) with (bits_of rbsp); apply length_bits_of).
  unfold ParseRtpSingleBuffer. destruct (le_lt_dec 2 (length rbsp)) as [H|H].
  - destruct (nal_unit_long opts rbsp st D' S H) as (h & Hh & Eh & _ & ->). destruct (header_at _ W ltac:(lia)) as (h' & Hh' & Fh' & E' & _).
    assert (h' = h) as ->.
    { assert (R : rem (mk_bb rbsp) = enc_nal_header h ++ bits_of (skipn 2 rbsp)) by (change (rem (mk_bb rbsp)) with (bits_of rbsp); rewrite <- (firstn_skipn 2 rbsp) at 1; rewrite bits_of_app, Eh; reflexivity).
      pose proof (parses_nal_header h Hh _ _ W R) as P. rewrite E' in P. injection P as ->. reflexivity. }
    rewrite (sbind_eq _ _ _ _ _ _ _ (lift_eq _ _ _ _ _ E')). unfold sbind, bind. rewrite payload_spec.
    destruct (payload_fault (nal_unit_type h) st (adv (mk_bb rbsp) 16)); reflexivity.
  - rewrite (nal_unit_short opts rbsp st D' H). destruct (header_short _ W ltac:(lia)) as (b' & bs & Eh & _). rewrite (sbind_none _ _ _ _ _ _ (lift_fail _ _ _ _ Eh)). reflexivity.
Qed.

(** * C45 *)
(** Where the two header bytes and the FU header byte are missing, nothing; else all fields are the bits of these bytes; the payload is parsed
    (right after the FU header, by the parser FuType selects) iff S is set. *)
Theorem C45_exact : forall data rbsp st, byte_string data -> state_ok st -> UnescapeRbsp data = Done rbsp ->
  ((length rbsp < 3)%nat -> ParseRtpFu data st = Done (None, st)) /\
  ((3 <= length rbsp)%nat -> exists h s e t, nal_header_ok h /\ u_ok 1 s /\ u_ok 1 e /\ u_ok 6 t /\
    bits_of (firstn 3 rbsp) = enc_nal_header h ++ enc_u 1 s ++ enc_u 1 e ++ enc_u 6 t /\
    (s = 0 -> ParseRtpFu data st = Done (Some (mkRF h s e t None), st)) /\
    (s = 1 -> match ParseRtpFu data st with
              | Done (r, st') => r = Some (mkRF h s e t (Some (payload_of t st (adv (mk_bb rbsp) 24)))) /\
                                 same_state st' (stored (payload_of t st (adv (mk_bb rbsp) 24)) st)
              | Bad er => payload_fault t st (adv (mk_bb rbsp) 24) = Some er
              end)).
Proof.
  intros data rbsp st D S E. unfold ParseRtpFu. rewrite !(on_data_st_eq _ _ _ _ D E). pose proof (unesc_bytes _ _ D E) as [F L]. pose proof (wf_mk _ F L) as W.
  assert (LR : length (rem (mk_bb rbsp)) = (8 * length rbsp)%nat) by (change (rem (mk_bb rbsp)) with (bits_of rbsp); apply length_bits_of).
  unfold ParseRtpFuBuffer. destruct (le_lt_dec 2 (length rbsp)) as [H2|H2].
  2:{ split; [|lia]. intros H. destruct (header_short _ W ltac:(lia)) as (b' & bs & Eh & _). rewrite (sbind_none _ _ _ _ _ _ (lift_fail _ _ _ _ Eh)). reflexivity. }
  destruct (header_at _ W ltac:(lia)) as (h & Hh & Fh & Eh & W1 & R1). rewrite (sbind_eq _ _ _ _ _ _ _ (lift_eq _ _ _ _ _ Eh)).
  assert (L1 : length (rem (adv (mk_bb rbsp) 16)) = (8 * length rbsp - 16)%nat) by (rewrite R1, skipn_length, LR; reflexivity).
  split; intros H.
  - assert (length rbsp = 2)%nat by lia. destruct (u_short 1 _ W1 ltac:(lia) ltac:(lia)) as (b' & bs & Eu & _). rewrite (sbind_none _ _ _ _ _ _ (lift_fail _ _ _ _ Eu)). reflexivity.
  - destruct (u_at 1 _ W1 ltac:(lia) ltac:(lia)) as (s & Hs & Fs & Es & W2 & R2). rewrite (sbind_eq _ _ _ _ _ _ _ (lift_eq _ _ _ _ _ Es)).
    assert (L2 : length (rem (adv (adv (mk_bb rbsp) 16) (Z.to_nat 1))) = (8 * length rbsp - 17)%nat) by (rewrite R2, skipn_length; lia).
    destruct (u_at 1 _ W2 ltac:(lia) ltac:(lia)) as (e & He & Fe & Ee & W3 & R3). rewrite (sbind_eq _ _ _ _ _ _ _ (lift_eq _ _ _ _ _ Ee)).
    assert (L3 : length (rem (adv (adv (adv (mk_bb rbsp) 16) (Z.to_nat 1)) (Z.to_nat 1))) = (8 * length rbsp - 18)%nat) by (rewrite R3, skipn_length; lia).
    destruct (u_at 6 _ W3 ltac:(lia) ltac:(lia)) as (t & Ht & Ft & Et & W4 & R4). rewrite (sbind_eq _ _ _ _ _ _ _ (lift_eq _ _ _ _ _ Et)).
    exists h, s, e, t. split; [exact Hh|]. split; [exact Hs|]. split; [exact He|]. split; [exact Ht|]. split.
    { assert (Q : rem (mk_bb rbsp) = (enc_nal_header h ++ enc_u 1 s ++ enc_u 1 e ++ enc_u 6 t) ++ rem (adv (adv (adv (adv (mk_bb rbsp) 16) (Z.to_nat 1)) (Z.to_nat 1)) (Z.to_nat 6))).
      { rewrite <- !app_assoc. rewrite <- (firstn_skipn 16 (rem (mk_bb rbsp))), Fh, <- R1. f_equal.
        rewrite <- (firstn_skipn (Z.to_nat 1) (rem (adv (mk_bb rbsp) 16))), Fs, <- R2. f_equal.
        rewrite <- (firstn_skipn (Z.to_nat 1) (rem (adv (adv (mk_bb rbsp) 16) (Z.to_nat 1)))), Fe, <- R3. f_equal.
        rewrite <- (firstn_skipn (Z.to_nat 6) (rem (adv (adv (adv (mk_bb rbsp) 16) (Z.to_nat 1)) (Z.to_nat 1)))), Ft, <- R4. reflexivity. }
      change (rem (mk_bb rbsp)) with (bits_of rbsp) in Q. rewrite <- (firstn_skipn 3 rbsp) in Q at 1. rewrite bits_of_app in Q.
      apply app_inv_length in Q; [apply Q|]. rewrite length_bits_of, firstn_length_le, !app_length, enc_nal_header_length, !length_enc_u by lia. reflexivity. }
    rewrite !adv_adv. change (16 + (Z.to_nat 1 + (Z.to_nat 1 + Z.to_nat 6)))%nat with 24%nat. split; intros ->.
    + reflexivity.
    + change (1 =? 0) with false. cbv iota.
      unfold sbind, bind. rewrite payload_spec. 
      destruct (payload_fault t st (adv (mk_bb rbsp) 24)) as [er|]; [reflexivity|].
      cbn. split; [reflexivity|]. apply stored_eq.
Qed.
Example C45_case : exists r st', ParseRtp [0x62; 1; 0xa3; 0x50] empty_state = Done (Some r, st') /\ nal_unit_type (rtp_header r) = 49 /\
  exists f, r_fu r = Some f /\ (s_bit f, e_bit f, fu_type f) = (1, 0, 35) /\ option_map np_aud (rf_payload f) = Some (Some 2).
Proof. vm_compute. eexists _, _. split; [reflexivity|]. split; [reflexivity|]. eexists. split; [reflexivity|]. auto. Qed.

(** * C44 *)
(** The payload with type [ty] ends where the bits [body] end, whatever follows, when it starts at a byte boundary. *)
Definition self_delimiting (ty : Z) (st : state) (body : list bool) (p : nal_payload) (st' : state) : Prop :=
  forall b rest, wf b -> bb_bit b = 0 -> rem b = body ++ rest -> ParseNalUnitPayload ty st b = Ok (Some p, st') (adv b (length body)).
(** Aggregated NAL units, all of this kind, with the states between them. *)
Inductive aggregated : state -> list (list Z) -> list ap_unit -> state -> Prop :=
| agg_nil : forall st, aggregated st [] [] st
| agg_cons : forall st nal nals h body p st1 us st2,
    Forall is_byte nal -> Z.of_nat (length nal) < 2 ^ 16 -> nal_header_ok h -> bits_of nal = enc_nal_header h ++ body ->
    self_delimiting (nal_unit_type h) st body p st1 -> aggregated st1 nals us st2 ->
    aggregated st (nal :: nals) (mkAU (Z.of_nat (length nal)) h p :: us) st2.
Lemma bits_be2 n : 0 <= n < 2 ^ 16 -> bits_of (be_bytes 2 n) = enc_u 16 n.
Proof.
  intros H. change (bits_of (be_bytes 2 n)) with (enc_u 8 ((n / 256 ^ 1) mod 256) ++ enc_u 8 ((n / 256 ^ 0) mod 256) ++ []).
  apply bval_inj; [rewrite !app_length, !length_enc_u; reflexivity|]. rewrite app_nil_r, bval_app, !bval_enc_u, length_enc_u.
  change (Z.of_nat 8) with 8. change (Z.of_nat 16) with 16. lia.
Qed.
Lemma aligned_adv b k : bb_bit b = 0 -> (k mod 8 = 0)%nat -> bb_bit (adv b k) = 0.
Proof. intros H1 H2. cbn [adv bb_bit]. unfold pos. rewrite H1. assert (Z.of_nat k mod 8 = 0) by lia. lia. Qed.
Lemma ap_loop_agg : forall st nals us st', aggregated st nals us st' -> forall fuel b, wf b -> bb_bit b = 0 -> rem b = bits_of (framed 2 nals) -> (length nals <= fuel)%nat ->
  exists b', ap_loop fuel st b = Ok (Some us, st') b'.
Proof.
  induction 1 as [st|st nal nals h body p st1 us st2 Hn L Hh Eb P A IH]; intros fuel b W B R Lf; rewrite ap_loop_eq; rewrite remaining_spec by exact W.
  - rewrite R. change (length (bits_of (framed 2 []))) with O. change (negb (0 <? Z.of_nat 0)) with true. cbv iota. exists b. reflexivity.
  - rewrite framed_cons, !bits_of_app, bits_be2 in R by lia. assert (LR : (8 * length nal = 16 + length body)%nat) by (apply (f_equal (@length bool)) in Eb; rewrite length_bits_of, app_length, enc_nal_header_length in Eb; lia).
    destruct fuel as [|fuel]; [cbn in Lf; lia|]. replace (0 <? Z.of_nat (length (rem b))) with true by (rewrite R, app_length, length_enc_u; lia). cbn [negb].
    rewrite (lift_parses _ _ _ _ _ (Z.of_nat (length nal)) _ W R) by (apply (parses_u_ok 16); [lia|unfold u_ok; lia]). rewrite length_enc_u.
    pose proof (wf_adv_app _ _ _ W R) as W1. pose proof (rem_adv_app _ _ _ W R) as R1. rewrite length_enc_u in W1, R1.
    assert (Er : lift (fun b0 => Ok (remaining b0) b0) st (adv b 16) = Ok (Some (remaining (adv b 16)), st) (adv b 16)) by reflexivity.
    rewrite (sbind_eq _ _ _ _ _ _ _ Er). rewrite remaining_spec by exact W1. unfold u32 at 1. rewrite Z.mod_small by lia.
    replace (Z.of_nat (length (rem (adv b 16))) <? Z.of_nat (length nal) * 8) with false by (rewrite R1, app_length, length_bits_of; lia).
    rewrite Eb, <- app_assoc in R1. rewrite (lift_parses _ _ _ _ _ _ _ W1 R1) by (apply parses_nal_header, Hh). rewrite enc_nal_header_length.
    pose proof (wf_adv_app _ _ _ W1 R1) as W2. pose proof (rem_adv_app _ _ _ W1 R1) as R2. rewrite enc_nal_header_length in W2, R2.
    assert (B2 : bb_bit (adv (adv b 16) 16) = 0) by (apply aligned_adv; [apply aligned_adv; [exact B|reflexivity]|reflexivity]).
    rewrite (sbind_eq _ _ _ _ _ _ _ (P _ _ W2 B2 R2)).
    pose proof (wf_adv_app _ _ _ W2 R2) as W3. pose proof (rem_adv_app _ _ _ W2 R2) as R3.
    destruct (IH fuel _ W3 ltac:(apply aligned_adv; [exact B2|lia]) R3 ltac:(cbn in Lf; lia)) as (b' & E'). rewrite (sbind_eq _ _ _ _ _ _ _ E'). eexists. reflexivity.
Qed.
(** The packet: two header bytes, then each NAL unit behind its 16-bit size.  If the payload of each aggregated NAL unit delimits itself, the
    units are returned as they were put in.  For every other packet see C44_exact: units whose parser does not stop at the end of the unit (all slices), and packets with
    emulation prevention bytes, because the sizes count the bytes before unescaping: see the refutations below. *)
Theorem C44_split : forall data hdr h nals st us st', byte_string data -> length hdr = 2%nat -> nal_header_ok h -> bits_of hdr = enc_nal_header h ->
  UnescapeRbsp data = Done (hdr ++ framed 2 nals) -> aggregated st nals us st' -> ParseRtpAp data st = Done (Some (mkRA h us), st').
Proof.
  intros data hdr h nals st us st' D Lh Hh Eh E A. unfold ParseRtpAp. rewrite (on_data_st_eq _ _ _ _ D E). pose proof (unesc_bytes _ _ D E) as [F L]. pose proof (wf_mk _ F L) as W.
  assert (R : rem (mk_bb (hdr ++ framed 2 nals)) = enc_nal_header h ++ bits_of (framed 2 nals)) by (change (rem (mk_bb (hdr ++ framed 2 nals))) with (bits_of (hdr ++ framed 2 nals)); rewrite bits_of_app, Eh; reflexivity).
  unfold ParseRtpApBuffer. rewrite (lift_parses _ _ _ _ _ _ _ W R) by (apply parses_nal_header, Hh).
  pose proof (wf_adv_app _ _ _ W R) as W1. pose proof (rem_adv_app _ _ _ W R) as R1. rewrite enc_nal_header_length in *.
  assert (Lf : (length nals <= Datatypes.S (Z.to_nat (remaining (adv (mk_bb (hdr ++ framed 2 nals)) 16))))%nat).
  { rewrite remaining_spec, R1, length_bits_of by exact W1. assert (length nals <= length (framed 2 nals))%nat; [|lia]. clear. induction nals as [|x nals IH]; [cbn; lia|].
    rewrite framed_cons, !app_length. cbn [length be_bytes]. lia. }
  destruct (ap_loop_agg st nals us st' A _ _ W1 ltac:(reflexivity) R1 Lf) as (b' & E').
  unfold sbind, bind. rewrite E'. reflexivity.
Qed.
(** Which units delimit themselves: parameter sets without extension data (for each structure [s] of the layouts of C29, C31, C36) and access unit
    delimiters, with their trailing bits; and the units that have no payload. *)
Definition trailing (n k : nat) (bits : list bool) : Prop := (k < 8)%nat /\ ((n + S k) mod 8 = 0)%nat /\ bits = true :: repeat false k.
Lemma trailing_at b n k bits rest : wf b -> bb_bit b = 0 -> trailing n k bits -> wf (adv b n) -> rem (adv b n) = bits ++ rest -> rbsp_trailing_bits (adv b n) = Ok tt (adv b (n + length bits)).
Proof.
  intros W B (Hk & Hm & ->) W1 R. rewrite (C12_complete (adv b n) k rest W1); [|unfold bits_to_boundary; cbn [adv bb_bit]; unfold pos; rewrite B; lia|exact R].
  rewrite adv_adv. cbn [length]. rewrite repeat_length. reflexivity.
Qed.
Lemma finish_at {A} (has : A -> bool) (body : M A) enc s k bits b rest : has s = false -> parses body enc s -> trailing (length enc) k bits -> wf b -> bb_bit b = 0 ->
  rem b = (enc ++ bits) ++ rest -> finish has body b = Ok (s, 0) (adv b (length (enc ++ bits))).
Proof.
  intros H P T W B R. rewrite <- app_assoc in R. unfold finish, bind. rewrite (P b _ W R). unfold when. rewrite H. unfold ret at 1. unfold attempt.
  rewrite (trailing_at b _ k bits rest W B T (wf_adv_app _ _ _ W R) (rem_adv_app _ _ _ W R)). rewrite app_length. reflexivity.
Qed.
Lemma self_delimiting_intro ty st body p : (forall b rest, wf b -> bb_bit b = 0 -> rem b = body ++ rest ->
    payload_fault ty st b = None /\ payload_of ty st b = p /\ payload_stop ty st b = adv b (length body)) -> self_delimiting ty st body p (stored' p st).
Proof. intros H b rest W B R. destruct (H b rest W B R) as (H1 & H2 & H3). rewrite payload_spec, H1, H2, H3. reflexivity. Qed.
Theorem C44_units : forall st bits k,
  (forall v, vps_ok false v -> nz (vps_extension_flag v) = false -> trailing (length (enc_vps false v)) k bits ->
     self_delimiting 32 st (enc_vps false v ++ bits) (mkNP (Some (v, 0)) None None None None None) (store_vps (Some (v, 0)) st)) /\
  (forall s, sps_ok_in s -> nz (sps_extension_4bits s) = false -> trailing (length (enc_sps false s)) k bits ->
     self_delimiting 33 st (enc_sps false s ++ bits) (mkNP None (Some (s, 0)) None None None None) (store_sps (Some (s, 0)) st)) /\
  (forall s, pps_ok_in s -> nz (pps_extension_4bits s) = false -> trailing (length (enc_pps false s)) k bits ->
     self_delimiting 34 st (enc_pps false s ++ bits) (mkNP None None (Some (s, 0)) None None None) (store_pps (Some (s, 0)) st)) /\
  (forall pic_type, 0 <= pic_type < 8 -> trailing 3 k bits -> self_delimiting 35 st (enc_u 3 pic_type ++ bits) (mkNP None None None (Some pic_type) None None) st) /\
  (forall ty, slice_nut ty = false -> ~ 32 <= ty <= 35 -> ty <> 39 -> ty <> 40 -> self_delimiting ty st [] empty_payload st).
Proof.
  intros st bits k. split; [|split; [|split; [|split]]].
  - intros v Hv He T. apply (self_delimiting_intro 32 st _ (mkNP (Some (v, 0)) None None None None None)). intros b rest W B R.
    pose proof (finish_at (fun s => nz (vps_extension_flag s)) ParseVpsBody _ v k bits b rest He (parses_vps v Hv) T W B R) as P.
    unfold payload_fault, payload_of, payload_stop, fault, result, stop. change (slice_nut 32) with false. cbv iota.
    repeat match goal with |- context [?a =? ?b] => let c := eval vm_compute in (a =? b) in change (a =? b) with c end. cbn [orb]. cbv iota. unfold ParseVps. rewrite P. auto.
  - intros v Hv He T. apply (self_delimiting_intro 33 st _ (mkNP None (Some (v, 0)) None None None None)). intros b rest W B R.
    pose proof (finish_at (fun s => nz (sps_extension_4bits s)) ParseSpsBody _ v k bits b rest He (parses_sps v Hv) T W B R) as P.
    unfold payload_fault, payload_of, payload_stop, fault, result, stop. change (slice_nut 33) with false. cbv iota.
    repeat match goal with |- context [?a =? ?b] => let c := eval vm_compute in (a =? b) in change (a =? b) with c end. cbn [orb]. cbv iota. unfold ParseSps. rewrite P. auto.
  - intros v Hv He T. apply (self_delimiting_intro 34 st _ (mkNP None None (Some (v, 0)) None None None)). intros b rest W B R.
    pose proof (finish_at (fun s => nz (pps_extension_4bits s)) ParsePpsBody _ v k bits b rest He (parses_pps v Hv) T W B R) as P.
    unfold payload_fault, payload_of, payload_stop, fault, result, stop. change (slice_nut 34) with false. cbv iota.
    repeat match goal with |- context [?a =? ?b] => let c := eval vm_compute in (a =? b) in change (a =? b) with c end. cbn [orb]. cbv iota. unfold ParsePps. rewrite P. auto.
  - intros v Hv T. apply (self_delimiting_intro 35 st _ (mkNP None None None (Some v) None None)). intros b rest W B R.
    assert (P : ParseAud b = Ok v (adv b (length (enc_u 3 v ++ bits)))).
    { rewrite <- app_assoc in R. unfold ParseAud, bind. rewrite (parses_u_ok 3 v ltac:(lia) Hv b _ W R). unfold attempt.
      rewrite length_enc_u. change (Z.to_nat 3) with 3%nat in *. pose proof (wf_adv_app _ _ _ W R) as W1. pose proof (rem_adv_app _ _ _ W R) as R1. rewrite length_enc_u in *.
      rewrite (trailing_at b 3 k bits rest W B T W1 R1). rewrite app_length, length_enc_u. reflexivity. }
    unfold payload_fault, payload_of, payload_stop, fault, result, stop. change (slice_nut 35) with false. cbv iota.
    repeat match goal with |- context [?a =? ?b] => let c := eval vm_compute in (a =? b) in change (a =? b) with c end. cbn [orb]. cbv iota. rewrite P. auto.
  - intros ty H1 H2 H3 H4. apply (self_delimiting_intro ty st [] empty_payload). intros b rest W B R.
    unfold payload_fault, payload_of, payload_stop. rewrite H1. replace (ty =? 32) with false by lia. replace (ty =? 33) with false by lia. replace (ty =? 34) with false by lia.
    replace (ty =? 35) with false by lia. replace ((ty =? 39) || (ty =? 40)) with false by lia. split; [reflexivity|]. split; [reflexivity|]. symmetry. apply adv_0, W.
Qed.
