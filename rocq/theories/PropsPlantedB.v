(** C93, C94: which NAL units, packets and fragments meet the conversion of the logarithm of a picture size of 0. *)
From Coq Require Import ZArith List Bool Lia ZifyBool ZifyNat.
From Verif Require Import MBase MBitBuffer Spec BitsFacts Reader ReaderFacts Rules Syntax SyntaxSe MCommon CommonFacts PropsBits PropsCommon
  MFraming FramingFacts PropsFraming MSyntaxA SpecA FactsA Api PropsA MSyntaxB SpecB FactsB FactsRps PropsB MSps SpecSps FactsSps PropsSps
  MPps SpecPps FactsPps PropsPps MSlice SpecSlice FactsSlice PropsSlice MSei SpecSei FactsSei PropsSei MNal FactsNal PropsNal MRtp FactsRtp PropsRtp PropsQp FactsTame PropsSafe
  PropsEntry PropsPlanted MFuzz PropsFuzz.
Import ListNotations.
Open Scope Z_scope.
Ltac Zify.zify_post_hook ::= Z.div_mod_to_equations.

(** A payload of type [ty] that starts with the bits [l]: it is a slice segment (Table 7-1), and its header refers to an SPS with a picture size of 0. *)
Definition slice_type (ty : Z) : Prop := 0 <= ty <= 9 \/ 16 <= ty <= 21.
Definition unsized_slice (ty : Z) (st : state) (l : list bool) : Prop := slice_type ty /\ exists s, header_start ty st l s /\ getPicSizeInCtbsY s = 0.

Lemma payload_conversion ty st b : wf b -> planted false st -> (ParseNalUnitPayload ty st b = Err BadConversion <-> unsized_slice ty st (rem b)).
Proof.
  intros W P. rewrite payload_spec. unfold payload_fault.
  assert (G : forall E (A : Type) (m : M A) Q (r : MBase.res (option nal_payload * state)), wp E m Q -> (forall e, err_in E e (rem b) -> e <> BadConversion) -> r <> Err BadConversion ->
    (match fault m b with Some e => Err e | None => r end) = Err BadConversion -> False).
  { intros E A m Q r H HE Hr K. destruct (fault m b) as [e|] eqn:F; [|exact (Hr K)]. apply (HE e (fault_wp _ _ _ _ _ W H F)). congruence. }
  unfold unsized_slice. destruct (slice_nut ty) eqn:N.
  - rewrite <- (header_conversion ty st b W P). unfold fault. split.
    + intros K. split; [unfold slice_nut in N; unfold slice_type; lia|]. destruct (ParseSliceSegmentHeader ty st b); [discriminate K|discriminate K|congruence].
    + intros [_ K]. rewrite K. reflexivity.
  - split; [|intros [K _]; exfalso; unfold slice_nut in N; unfold slice_type in K; lia]. intros K. exfalso.
    destruct (ty =? 32); [eapply G; [apply wp_Vps|intros e []| |exact K]; discriminate|].
    destruct (ty =? 33); [eapply G; [apply wp_Sps|intros e [H _]; subst e; discriminate| |exact K]; discriminate|].
    destruct (ty =? 34); [eapply G; [apply wp_Pps|intros e [H _]; subst e; discriminate| |exact K]; discriminate|].
    destruct (ty =? 35); [eapply G; [apply wp_Aud|intros e []| |exact K]; discriminate|].
    destruct ((ty =? 39) || (ty =? 40)); [eapply G; [apply wp_Sei|intros e [H _]; subst e; discriminate| |exact K]; discriminate|].
    discriminate K.
Qed.

(** ** Along the parsers *)
Lemma conv_lift {A B} (m : M A) (ok : A -> Prop) (enc : A -> list bool) (f : A -> SM B) x st b : wf b -> (forall a, ok a -> parses m (enc a) a) ->
  wp no_err m (fun a bs => ok a /\ bs = enc a) ->
  (sbind (lift m) f st b = Err x <-> exists a b1, ok a /\ wf b1 /\ b1 = adv b (length (enc a)) /\ rem b = enc a ++ rem b1 /\ f a st b1 = Err x).
Proof.
  intros W P H. split.
  - intros E. pose proof (H b W) as G. destruct (m b) as [a b1|b1|e] eqn:Em; [| |destruct G].
    + destruct G as (bs & S & O & ->). rewrite (lift_ok _ _ _ _ _ _ Em) in E. pose proof (steps_wf _ _ _ W S) as W1. destruct S as [R S].
      rewrite (P a O b (rem b1) W R) in Em. injection Em as <-. exists a, (adv b (length (enc a))). exact (conj O (conj W1 (conj eq_refl (conj R E)))).
    + rewrite (lift_fail _ _ _ _ _ Em) in E. discriminate E.
  - intros (a & b1 & O & W1 & Eb & R & E). rewrite (lift_ok _ _ _ _ _ _ (P a O b _ W R)). rewrite <- Eb. exact E.
Qed.
Lemma conv_last {A B} (m : SM A) (f : A -> SM B) x st b : (forall a st1 b1, f a st1 b1 <> Err x) -> (sbind m f st b = Err x <-> m st b = Err x).
Proof.
  intros H. unfold sbind, bind. destruct (m st b) as [[[a|] st1] b1|b1|e]; (split; intros E; try discriminate E; try congruence).
Qed.
Lemma header_read : (forall h, nal_header_ok h -> parses ParseNalUnitHeader (enc_nal_header h) h) /\ wp no_err ParseNalUnitHeader (fun h bs => nal_header_ok h /\ bs = enc_nal_header h).
Proof. split; [exact parses_nal_header|exact wp_nal_header]. Qed.
Lemma bits_read n : 0 < n <= 32 -> (forall v, u_ok n v -> parses (ReadBits n) (enc_u (Z.to_nat n) v) v) /\ wp no_err (ReadBits n) (fun v bs => u_ok n v /\ bs = enc_u (Z.to_nat n) v).
Proof. intros H. split; [intros v V; apply parses_u_ok; assumption|]. apply wp_u_ok. lia. Qed.
Lemma conv_data {A} (m : SM A) data rbsp st : byte_string rbsp -> UnescapeRbsp data = Done rbsp ->
  (new_state (on_data_st m data st) = Bad BadConversion <-> m st (mk_bb rbsp) = Err BadConversion).
Proof.
  intros [F L] E. unfold on_data_st. rewrite E. unfold on_buffer_st, init_ok. replace (Z.of_nat (length rbsp) <=? u32_max) with true by (unfold u32_max; lia).
  destruct (m st (mk_bb rbsp)) as [[o st']|b|e]; cbn [new_state]; (split; intros K; first [discriminate K|injection K as ->; reflexivity|discriminate]).
Qed.
Lemma adv_rest b bs rest : wf b -> rem b = bs ++ rest -> rem b = bs ++ rem (adv b (length bs)) /\ wf (adv b (length bs)) /\ rem (adv b (length bs)) = rest.
Proof. intros W R. rewrite (rem_adv_app _ _ _ W R). split; [exact R|]. split; [eapply wf_adv_app; eassumption|reflexivity]. Qed.

Section Calls.
Variables (data rbsp : list Z) (st : state).
Hypotheses (P : planted false st) (D : byte_string data) (Er : UnescapeRbsp data = Done rbsp).
Lemma rbsp_bytes : byte_string rbsp.
Proof. destruct (Unescape_byte_string data D) as (r & E & B). rewrite Er in E. injection E as <-. exact B. Qed.
Lemma rbsp_wf : wf (mk_bb rbsp).
Proof. destruct rbsp_bytes as [F L]. exact (wf_mk _ F L). Qed.
(** The payload of a NAL unit *)
Lemma planted_payload : forall ty, run (Payload ty) data st = Bad BadConversion <-> unsized_slice ty st (bits_of rbsp).
Proof. intros ty. cbn [run]. unfold ParseNalUnitPayloadData. rewrite (conv_data _ _ _ _ rbsp_bytes Er). exact (payload_conversion ty st (mk_bb rbsp) rbsp_wf P). Qed.
(** A NAL unit, and a packet with a single one *)
Lemma planted_single : run RtpSingle data st = Bad BadConversion <->
  exists h rest, nal_header_ok h /\ bits_of rbsp = enc_nal_header h ++ rest /\ unsized_slice (nal_unit_type h) st rest.
Proof.
  cbn [run]. unfold ParseRtpSingle. rewrite (conv_data _ _ _ _ rbsp_bytes Er). unfold ParseRtpSingleBuffer.
  rewrite (conv_lift _ _ _ _ _ _ _ rbsp_wf (proj1 header_read) (proj2 header_read)). split.
  - intros (h & b1 & O & W1 & _ & R & E). rewrite conv_last in E by (intros; discriminate). exists h, (rem b1). split; [exact O|]. split; [exact R|].
    apply (payload_conversion _ _ _ W1 P), E.
  - intros (h & rest & O & R & U). destruct (adv_rest (mk_bb rbsp) _ _ rbsp_wf R) as (R1 & W1 & R2).
    exists h, (adv (mk_bb rbsp) (length (enc_nal_header h))). split; [exact O|]. split; [exact W1|]. split; [reflexivity|]. split; [exact R1|].
    rewrite conv_last by (intros; discriminate). apply (payload_conversion _ _ _ W1 P). rewrite R2. exact U.
Qed.
Lemma planted_unit : forall opts, new_state (ParseNalUnit opts data st) = Bad BadConversion <->
  exists h rest, nal_header_ok h /\ bits_of rbsp = enc_nal_header h ++ rest /\ unsized_slice (nal_unit_type h) st rest.
Proof.
  intros opts. rewrite <- planted_single. cbn [run]. unfold ParseNalUnit, ParseRtpSingle. rewrite !(conv_data _ _ _ _ rbsp_bytes Er). unfold ParseNalUnitBuffer, ParseRtpSingleBuffer.
  assert (E : exists cs, (if add_checksum opts then c <~ lift GetNaluChecksum ;; sret (Some c) else sret None)%smonad st (mk_bb rbsp) = Ok (Some cs, st) (mk_bb rbsp)).
  { destruct (add_checksum opts); [|eexists; reflexivity]. eexists. unfold sbind, lift, bind, attempt. rewrite GetNaluChecksum_spec by (apply rbsp_wf || reflexivity). reflexivity. }
  destruct E as (cs & E). rewrite (sbind_some_ok _ _ _ _ _ _ _ E).
  rewrite !(conv_lift _ _ _ _ _ _ _ rbsp_wf (proj1 header_read) (proj2 header_read)).
  split; intros (h & b1 & O & W1 & Eb & R & K); exists h, b1; (split; [exact O|split; [exact W1|split; [exact Eb|split; [exact R|]]]]);
    cbv beta in K |- *; (refine (proj2 (conv_last _ _ _ _ _ _) (proj1 (conv_last _ _ _ _ _ _) K)); intros; discriminate).
Qed.
(** A fragment: the first one of a slice segment *)
Lemma planted_fragment : run RtpFu data st = Bad BadConversion <->
  exists h last ty rest, nal_header_ok h /\ bits_of rbsp = enc_nal_header h ++ [true; last] ++ enc_u 6 ty ++ rest /\ unsized_slice ty st rest.
Proof.
  cbn [run]. unfold ParseRtpFu. rewrite (conv_data _ _ _ _ rbsp_bytes Er). unfold ParseRtpFuBuffer.
  pose proof (bits_read 1 ltac:(lia)) as [P1 W1]. pose proof (bits_read 6 ltac:(lia)) as [P6 W6].
  rewrite (conv_lift _ _ _ _ _ _ _ rbsp_wf (proj1 header_read) (proj2 header_read)). split.
  - intros (h & b1 & O & Wb1 & _ & R1 & E). rewrite (conv_lift _ _ _ _ _ _ _ Wb1 P1 W1) in E. destruct E as (s & b2 & Os & Wb2 & _ & R2 & E).
    rewrite (conv_lift _ _ _ _ _ _ _ Wb2 P1 W1) in E. destruct E as (e & b3 & Oe & Wb3 & _ & R3 & E).
    rewrite (conv_lift _ _ _ _ _ _ _ Wb3 P6 W6) in E. destruct E as (t & b4 & Ot & Wb4 & _ & R4 & E).
    destruct (Z.eqb_spec s 0) as [|Hs]; [discriminate E|]. rewrite conv_last in E by (intros; discriminate).
    exists h, (negb (e =? 0)), t, (rem b4). split; [exact O|]. split; [|apply (payload_conversion _ _ _ Wb4 P), E].
    unfold u_ok in Os, Oe. assert (s = 1) as -> by lia. change (bits_of rbsp) with (rem (mk_bb rbsp)). rewrite R1, R2, R3, R4. f_equal. change (enc_u (Z.to_nat 1) 1) with [true].
    change (Z.to_nat 6) with 6%nat. assert (e = 0 \/ e = 1) as [->| ->] by lia; reflexivity.
  - intros (h & l & t & rest & O & R & U). destruct (adv_rest (mk_bb rbsp) _ _ rbsp_wf R) as (R1 & Wb1 & R2). clear R.
    set (b1 := adv (mk_bb rbsp) (length (enc_nal_header h))) in *. exists h, b1. split; [exact O|]. split; [exact Wb1|]. split; [reflexivity|]. split; [exact R1|].
    rewrite (conv_lift _ _ _ _ _ _ _ Wb1 P1 W1). change ([true; l] ++ enc_u 6 t ++ rest) with (enc_u (Z.to_nat 1) 1 ++ l :: enc_u 6 t ++ rest) in R2.
    destruct (adv_rest b1 _ _ Wb1 R2) as (R3 & Wb2 & R4). exists 1, (adv b1 (length (enc_u (Z.to_nat 1) 1))). split; [unfold u_ok; lia|]. split; [exact Wb2|]. split; [reflexivity|]. split; [exact R3|].
    set (b2 := adv b1 (length (enc_u (Z.to_nat 1) 1))) in *. rewrite (conv_lift _ _ _ _ _ _ _ Wb2 P1 W1).
    assert (R4' : rem b2 = enc_u (Z.to_nat 1) (Z.b2z l) ++ enc_u (Z.to_nat 6) t ++ rest) by (rewrite R4; destruct l; reflexivity). clear R4.
    destruct (adv_rest b2 _ _ Wb2 R4') as (R5 & Wb3 & R6). exists (Z.b2z l), (adv b2 (length (enc_u (Z.to_nat 1) (Z.b2z l)))). split; [unfold u_ok; destruct l; cbn; lia|]. split; [exact Wb3|].
    split; [reflexivity|]. split; [exact R5|]. set (b3 := adv b2 (length (enc_u (Z.to_nat 1) (Z.b2z l)))) in *. rewrite (conv_lift _ _ _ _ _ _ _ Wb3 P6 W6).
    destruct (adv_rest b3 _ _ Wb3 R6) as (R7 & Wb4 & R8). exists t, (adv b3 (length (enc_u (Z.to_nat 6) t))). split; [unfold u_ok; destruct U as [U _]; unfold slice_type in U; lia|]. split; [exact Wb4|].
    split; [reflexivity|]. split; [exact R7|]. cbv beta iota. change (1 =? 0) with false. cbv iota. rewrite conv_last by (intros; discriminate).
    apply (payload_conversion _ _ _ Wb4 P). rewrite R8. exact U.
Qed.
End Calls.

(** What meets the conversion: a payload, a NAL unit, a packet with a single unit, a fragment *)
Theorem C93_conversion_payload : forall ty data rbsp st, visited false st -> byte_string data -> UnescapeRbsp data = Done rbsp ->
  (run (Payload ty) data st = Bad BadConversion <-> unsized_slice ty st (bits_of rbsp)).
Proof. intros ty data rbsp st V D E. exact (planted_payload _ _ _ (visited_planted _ _ V) D E ty). Qed.
Theorem C93_conversion_unit : forall opts data rbsp st, visited false st -> byte_string data -> UnescapeRbsp data = Done rbsp ->
  (new_state (ParseNalUnit opts data st) = Bad BadConversion <->
   exists h rest, nal_header_ok h /\ bits_of rbsp = enc_nal_header h ++ rest /\ unsized_slice (nal_unit_type h) st rest).
Proof. intros opts data rbsp st V D E. exact (planted_unit _ _ _ (visited_planted _ _ V) D E opts). Qed.
Theorem C93_conversion_single : forall data rbsp st, visited false st -> byte_string data -> UnescapeRbsp data = Done rbsp ->
  (run RtpSingle data st = Bad BadConversion <->
   exists h rest, nal_header_ok h /\ bits_of rbsp = enc_nal_header h ++ rest /\ unsized_slice (nal_unit_type h) st rest).
Proof. intros data rbsp st V D E. exact (planted_single _ _ _ (visited_planted _ _ V) D E). Qed.
Theorem C93_conversion_fragment : forall data rbsp st, visited false st -> byte_string data -> UnescapeRbsp data = Done rbsp ->
  (run RtpFu data st = Bad BadConversion <->
   exists h last ty rest, nal_header_ok h /\ bits_of rbsp = enc_nal_header h ++ [true; last] ++ enc_u 6 ty ++ rest /\ unsized_slice ty st rest).
Proof. intros data rbsp st V D E. exact (planted_fragment _ _ _ (visited_planted _ _ V) D E). Qed.
(** An Annex B stream: the units before it were parsed, and left the sets that it refers to. *)
Lemma all_bad opts x : forall ds st, parse_all opts ds st = Bad x <->
  exists l1 d l2 us st1, ds = l1 ++ d :: l2 /\ parse_all opts l1 st = Done (us, st1) /\ ParseNalUnit opts d st1 = Bad x.
Proof.
  induction ds as [|d ds IH]; intros st; cbn [parse_all].
  - split; [discriminate|]. intros ([|? ?] & d & l2 & us & st1 & E & _); discriminate E.
  - destruct (ParseNalUnit opts d st) as [[u st1]|e] eqn:E.
    + specialize (IH st1). split.
      * intros H. assert (H' : parse_all opts ds st1 = Bad x) by (destruct (parse_all opts ds st1) as [[us st2]|y]; [discriminate H|exact H]).
        apply IH in H'. destruct H' as (l1 & d' & l2 & us & st2 & -> & H1 & H2). exists (d :: l1), d', l2, (u :: us), st2.
        split; [reflexivity|]. split; [|exact H2]. cbn [parse_all]. rewrite E, H1. reflexivity.
      * intros (l1 & d' & l2 & us & st2 & Eq & H1 & H2). destruct l1 as [|d1 l1]; cbn [app] in Eq; injection Eq as -> ->.
        { cbn [parse_all] in H1. injection H1 as <- <-. rewrite E in H2. discriminate H2. }
        cbn [parse_all] in H1. rewrite E in H1. destruct (parse_all opts l1 st1) as [[us' st']|y] eqn:E1; [|discriminate H1]. injection H1 as <- <-.
        rewrite (proj2 IH); [reflexivity|]. exists l1, d', l2, us', st'. auto.
    + split.
      * intros H. injection H as ->. exists [], d, ds, [], st. auto.
      * intros (l1 & d' & l2 & us & st2 & Eq & H1 & H2). destruct l1 as [|d1 l1]; cbn [app] in Eq; injection Eq as -> ->.
        { cbn [parse_all] in H1. injection H1 as <- <-. rewrite E in H2. congruence. }
        cbn [parse_all] in H1. rewrite E in H1. discriminate H1.
Qed.
Theorem C93_conversion_stream : forall opts data st, visited false st -> byte_string data ->
  (new_state (ParseBitstream opts data st) = Bad BadConversion <->
   exists before ix after us st1 rbsp h rest, annexb_units data = before ++ ix :: after /\ parse_all opts (map (payload data) before) st = Done (us, st1) /\
     UnescapeRbsp (payload data ix) = Done rbsp /\ nal_header_ok h /\ bits_of rbsp = enc_nal_header h ++ rest /\ unsized_slice (nal_unit_type h) st1 rest).
Proof.
  intros opts data st V D. pose proof D as [F L]. rewrite ParseBitstream_spec by lia. pose proof (annexb_in_bounds data ltac:(lia)) as B.
  assert (Fb : forall ix, In ix (annexb_units data) -> byte_string (payload data ix)).
  { intros ix I. rewrite Forall_forall in B. apply sub_bytes; [exact D|]. exact (B ix I). }
  assert (Q : forall before us st1, (forall ix, In ix before -> In ix (annexb_units data)) -> parse_all opts (map (payload data) before) st = Done (us, st1) -> planted false st1).
  { intros before us st1 I E. assert (Fa : Forall byte_string (map (payload data) before)) by (apply Forall_map, Forall_forall; intros ix H; apply Fb, I, H).
    pose proof (pgood_all false opts _ st Fa (visited_planted _ _ V)) as G. rewrite E in G. exact G. }
  transitivity (parse_all opts (map (payload data) (annexb_units data)) st = Bad BadConversion).
  { destruct (parse_all opts (map (payload data) (annexb_units data)) st) as [[us st1]|e]; cbn [new_state]; (split; intros E; first [discriminate E|injection E as ->; reflexivity]). }
  rewrite all_bad. split.
  - intros (l1 & d & l2 & us & st1 & E & H1 & H2). apply map_eq_app in E. destruct E as (before & r & Eu & <- & Er). destruct r as [|ix after]; [discriminate Er|]. cbn [map] in Er. injection Er as <- <-.
    assert (Dx : byte_string (payload data ix)) by (apply Fb; rewrite Eu; apply in_elt).
    destruct (Unescape_byte_string _ Dx) as (rbsp & Ex & _).
    assert (P1 : planted false st1) by (eapply Q; [|exact H1]; intros i I; rewrite Eu; apply in_or_app; left; exact I).
    assert (H3 : new_state (ParseNalUnit opts (payload data ix) st1) = Bad BadConversion) by (rewrite H2; reflexivity).
    apply (planted_unit _ _ _ P1 Dx Ex opts) in H3. destruct H3 as (h & rest & O & R & U). exists before, ix, after, us, st1, rbsp, h, rest. auto 10.
  - intros (before & ix & after & us & st1 & rbsp & h & rest & Eu & H1 & Ex & O & R & U).
    assert (Dx : byte_string (payload data ix)) by (apply Fb; rewrite Eu; apply in_elt).
    assert (P1 : planted false st1) by (eapply Q; [|exact H1]; intros i I; rewrite Eu; apply in_or_app; left; exact I).
    exists (map (payload data) before), (payload data ix), (map (payload data) after), us, st1. split; [rewrite Eu, map_app; reflexivity|]. split; [exact H1|].
    assert (H3 : new_state (ParseNalUnit opts (payload data ix) st1) = Bad BadConversion) by (apply (planted_unit _ _ _ P1 Dx Ex opts); exists h, rest; auto).
    destruct (ParseNalUnit opts (payload data ix) st1) as [[o s]|e]; cbn [new_state] in H3; congruence.
Qed.

(** The slice headers that meet it with the sets of the fuzz targets *)
Lemma mock_unsized ty l : unsized_slice ty mock l <-> slice_type ty /\ exists z rest, length z = (if 16 <=? ty then 1%nat else 0%nat) /\ l = false :: z ++ true :: rest.
Proof.
  unfold unsized_slice. split; intros [T H]; (split; [exact T|]).
  - destruct H as (s & (z & pid & p & x & y & d & rest & -> & Hp & Ep & Es & Lz & Ld) & _).
    unfold mock in Ep. cbn [st_pps] in Ep. destruct (Z.eqb_spec pid 0) as [->|]; [|discriminate Ep]. exists z, (d ++ rest).
    split; [rewrite Lz; unfold slice_type in T; destruct (Z.leb_spec 16 ty); [replace (ty <=? 23) with true by lia|]; reflexivity|]. reflexivity.
  - destruct H as (z & rest & Lz & ->). exists fuzz_sps_set. split; [|vm_compute; reflexivity]. exists z, 0, new_pps, 0, 0, [], rest.
    split; [reflexivity|]. split; [lia|]. split; [reflexivity|]. split; [reflexivity|]. split; [|reflexivity].
    rewrite Lz. unfold slice_type in T. destruct (Z.leb_spec 16 ty); [replace (ty <=? 23) with true by lia|]; reflexivity.
Qed.
(** The target for fragments meets the conversion on exactly the inputs that are the first fragment of a slice segment which is not the first of its picture
    and names PPS 0. *)
Theorem C94_fragment : forall data rbsp, byte_string data -> UnescapeRbsp data = Done rbsp ->
  (fuzz_rtp_fu data = Bad BadConversion <-> exists header last ty z rest, length header = 16%nat /\ slice_type ty /\ length z = (if 16 <=? ty then 1%nat else 0%nat) /\
    bits_of rbsp = header ++ [true; last] ++ enc_u 6 ty ++ [false] ++ z ++ [true] ++ rest).
Proof.
  intros data rbsp D Er. pose proof (C93_conversion_fragment data rbsp mock mock_visited D Er) as G.
  assert (K : fuzz_rtp_fu data = Bad BadConversion <-> run RtpFu data mock = Bad BadConversion).
  { unfold fuzz_rtp_fu. cbn [run]. destruct (ParseRtpFu data mock) as [[o s]|x]; cbn [drop new_state]; (split; intros E; first [discriminate E|injection E as ->; reflexivity]). }
  rewrite K, G. clear K G. split.
  - intros (h & l & t & rest & O & R & U). apply mock_unsized in U. destruct U as (T & z & r & Lz & ->). exists (enc_nal_header h), l, t, z, r.
    split; [apply enc_nal_header_length|]. split; [exact T|]. split; [exact Lz|exact R].
  - intros (hb & l & t & z & r & Lh & T & Lz & R).
    assert (exists h, nal_header_ok h /\ hb = enc_nal_header h) as (h & O & ->).
    { destruct (Unescape_byte_string data D) as (r' & E & [F L]). rewrite Er in E. injection E as <-. pose proof (wf_mk _ F L) as W.
      assert (K : 16 <= remaining (mk_bb rbsp)).
      { rewrite remaining_spec by exact W. change (rem (mk_bb rbsp)) with (bits_of rbsp). rewrite R, app_length, Lh. lia. }
      destruct (proj2 (C20_succeeds_iff_16_bits _ W) K) as (h & b' & E).
      pose proof (wp_nal_header (mk_bb rbsp) W) as H. rewrite E in H. destruct H as (bs & [S _] & O & ->). exists h. split; [exact O|].
      change (rem (mk_bb rbsp)) with (bits_of rbsp) in S. rewrite R in S.
      apply (f_equal (firstn 16)) in S. rewrite !firstn_app, Lh, enc_nal_header_length, Nat.sub_diag, !firstn_O, !app_nil_r in S.
      rewrite <- Lh in S at 1. rewrite firstn_all in S. rewrite S. rewrite <- (enc_nal_header_length h) at 1. apply firstn_all. }
    exists h, l, t, ([false] ++ z ++ [true] ++ r). split; [exact O|]. split; [exact R|]. apply mock_unsized. split; [exact T|]. exists z, r. split; [exact Lz|reflexivity].
Qed.
(** The target for QPs: the same for the units of a stream, with the sets that the units before it may have replaced. *)
Theorem C94_utils : forall data, byte_string data ->
  (fuzz_utils data = Bad BadConversion <->
   exists before ix after us st1 rbsp h rest, annexb_units data = before ++ ix :: after /\ parse_all qp_options (map (payload data) before) mock = Done (us, st1) /\
     UnescapeRbsp (payload data ix) = Done rbsp /\ nal_header_ok h /\ bits_of rbsp = enc_nal_header h ++ rest /\ unsized_slice (nal_unit_type h) st1 rest).
Proof.
  intros data D. rewrite <- (C93_conversion_stream qp_options data mock mock_visited D). unfold fuzz_utils, GetSliceQpY.
  destruct (ParseBitstream qp_options data mock) as [[bs st']|e]; cbn [new_state drop]; [|split; intros E; injection E as ->; reflexivity].
  split; [|discriminate]. intros E. exfalso. destruct (qp_loop (bs_units bs) st') as [l|e] eqn:Q; [discriminate E|]. cbn [drop] in E. pose proof (qp_loop_mishap _ _ _ Q). congruence.
Qed.
Example C93_conversion_case : visited false mock /\ byte_string [0x26; 1; 0x20] /\ unsized_slice 19 mock [false; false; true; false] /\
  new_state (ParseNalUnit default_options [0x26; 1; 0x20] mock) = Bad BadConversion /\ run RtpFu [0x62; 1; 0x93; 0x20] mock = Bad BadConversion /\
  run RtpFu [0x62; 1; 0x13; 0x20] mock = Done mock.
Proof.
  split; [exact mock_visited|]. split; [apply bytesb_ok; reflexivity|]. split; [|split; [vm_compute; reflexivity|split; vm_compute; reflexivity]].
  apply mock_unsized. split; [right; lia|]. exists [false], [false]. split; reflexivity.
Qed.
