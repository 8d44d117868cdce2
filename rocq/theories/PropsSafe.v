(** C47, C48: undefined behaviour, termination and positions of all parsers, over histories of calls. *)
From Coq Require Import ZArith List Bool Lia ZifyBool ZifyNat.
From Verif Require Import MBase MBitBuffer Spec BitsFacts Reader ReaderFacts Rules Syntax SyntaxSe MCommon CommonFacts PropsBits PropsCommon
  MFraming FramingFacts PropsFraming MSyntaxA SpecA FactsA Api PropsA MSyntaxB SpecB FactsB FactsRps PropsB MSps SpecSps FactsSps PropsSps
  MPps SpecPps FactsPps PropsPps MSlice SpecSlice FactsSlice PropsSlice MSei SpecSei FactsSei PropsSei MNal FactsNal PropsNal MRtp FactsRtp PropsRtp PropsQp FactsTame.
Import ListNotations.
Open Scope Z_scope.
Ltac Zify.zify_post_hook ::= Z.div_mod_to_equations.

(** * Histories of calls *)
(** The calls that take a parser state. *)
Inductive call : Type :=
| CallUnit (opts : options) (data : list Z)
| CallAnnexB (opts : options) (data : list Z)
| CallLengthPrefixed (opts : options) (data : list Z) (length_bytes : nat)
| CallBox (opts : options) (data : list Z)
| CallRtp (data : list Z).
(** The new state, or the undefined behaviour. *)
Definition new_state {A} (o : outcome (A * state)) : outcome state := match o with Done (_, st) => Done st | Bad e => Bad e end.
Definition perform (c : call) (st : state) : outcome state :=
  match c with
  | CallUnit opts data => new_state (ParseNalUnit opts data st)
  | CallAnnexB opts data => new_state (ParseBitstream opts data st)
  | CallLengthPrefixed opts data n => new_state (ParseBitstreamNALULength opts data (Z.of_nat n) st)
  | CallBox opts data => new_state (ParseConfigurationBox opts data st)
  | CallRtp data => new_state (ParseRtp data st)
  end.
(** Any bytes (at most 4 GiB, as BitBuffer asserts); lengths of 1 to 7 bytes (with 8: C18_refuted). *)
Definition call_ok (c : call) : Prop :=
  match c with
  | CallUnit _ data | CallAnnexB _ data | CallBox _ data | CallRtp data => byte_string data
  | CallLengthPrefixed _ data n => byte_string data /\ (0 < n <= 7)%nat
  end.
(** The NAL units (RTP: the packet) in the bytes of a call, still escaped. *)
Definition nal_of_call (c : call) (nal : list Z) : Prop :=
  match c with
  | CallUnit _ data | CallRtp data => nal = data
  | CallAnnexB _ data => exists ix, In ix (annexb_units data) /\ nal = payload data ix
  | CallLengthPrefixed _ data n => exists nals tail, data = framed n nals ++ tail /\ Forall (unit_ok false n) nals /\ In nal nals
  | CallBox _ data => unit_in_box (bits_of data) nal
  end.
(** States that calls can produce, starting with a new state. *)
Inductive reached (P : call -> Prop) : state -> Prop :=
| reached_new : reached P empty_state
| reached_call st c st' : reached P st -> P c -> perform c st = Done st' -> reached P st'.

Lemma rbsp_run_of nal rbsp : UnescapeRbsp nal = Done rbsp -> zrun 24 (bits_of rbsp) -> rbsp_run nal.
Proof. intros E Z. exists rbsp. auto. Qed.
Lemma parse_all_safe opts : forall ds st, Forall byte_string ds -> store_ok st ->
  match parse_all opts ds st with
  | Done (_, st') => store_ok st' /\ (pocs_ok st -> pocs_ok st' \/ exists nal, In nal ds /\ rbsp_run nal)
  | Bad e => e = SignedOverflow /\ (pocs_ok st -> exists nal, In nal ds /\ rbsp_run nal)
  end.
Proof.
  induction ds as [|d ds IH]; intros st F S; cbn [parse_all]; [auto|]. inversion F as [|? ? D F']; subst.
  destruct (Unescape_byte_string d D) as (rbsp & Er & _). destruct (ParseNalUnit opts d st) as [[u st1]|e] eqn:E.
  - pose proof (C22_invariant _ _ _ _ _ D S E) as S1. specialize (IH st1 F' S1).
    assert (G : pocs_ok st -> pocs_ok st1 \/ exists nal, In nal (d :: ds) /\ rbsp_run nal).
    { intros P. destruct (nal_unit_pocs _ _ _ _ _ _ D Er S P E) as [Q|Q]; [left; exact Q|right]. exists d. split; [left; reflexivity|eapply rbsp_run_of; eassumption]. }
    destruct (parse_all opts ds st1) as [[us st2]|e].
    + destruct IH as [S2 P2]. split; [exact S2|]. intros P. destruct (G P) as [Q|Q]; [|right; exact Q]. destruct (P2 Q) as [R|(nal & I & R)]; [left; exact R|right].
      exists nal. split; [right; exact I|exact R].
    + destruct IH as [-> P2]. split; [reflexivity|]. intros P. destruct (G P) as [Q|Q]; [|exact Q]. destruct (P2 Q) as (nal & I & R). exists nal. split; [right; exact I|exact R].
  - destruct (C21_safe _ _ _ _ _ D (store_state_ok _ S) Er E) as [-> Q]. split; [reflexivity|]. intros P. exists d. split; [left; reflexivity|]. eapply rbsp_run_of; eauto.
Qed.
Lemma framed_bytes n nals tail : byte_string (framed n nals ++ tail) -> Forall byte_string nals.
Proof.
  induction nals as [|x nals IH]; intros [F L]; [constructor|]. rewrite framed_cons, <- !app_assoc in F. rewrite framed_cons, <- !app_assoc in L.
  rewrite !app_length in L. apply Forall_app in F. destruct F as [_ F]. apply Forall_app in F. destruct F as [Fx F]. constructor.
  - split; [exact Fx|lia].
  - apply IH. split; [exact F|]. rewrite app_length. lia.
Qed.
Lemma call_safe c st : call_ok c -> store_ok st ->
  match perform c st with
  | Done st' => store_ok st' /\ (pocs_ok st -> pocs_ok st' \/ exists nal, nal_of_call c nal /\ rbsp_run nal)
  | Bad e => e = SignedOverflow /\ (pocs_ok st -> exists nal, nal_of_call c nal /\ rbsp_run nal)
  end.
Proof.
  intros H S. destruct c as [opts data|opts data|opts data n|opts data|data]; cbn [perform call_ok nal_of_call] in *.
  - pose proof (parse_all_safe opts [data] st (Forall_cons _ H (Forall_nil _)) S) as G. cbn [parse_all] in G. unfold new_state.
    assert (X : (exists nal, In nal [data] /\ rbsp_run nal) -> exists nal, nal = data /\ rbsp_run nal) by (intros (nal & [<-|[]] & R); eauto).
    destruct (ParseNalUnit opts data st) as [[u st1]|e]; destruct G as [G1 G2]; (split; [exact G1|]); intros P; specialize (G2 P); tauto.
  - pose proof H as [F L]. rewrite ParseBitstream_spec by lia. pose proof (annexb_in_bounds data ltac:(lia)) as B.
    assert (Fb : Forall byte_string (map (payload data) (annexb_units data))).
    { apply Forall_map. eapply Forall_impl; [|exact B]. intros ix. apply sub_bytes, H. }
    pose proof (parse_all_safe opts _ st Fb S) as G.
    assert (X : (exists nal, In nal (map (payload data) (annexb_units data)) /\ rbsp_run nal) -> exists nal, (exists ix, In ix (annexb_units data) /\ nal = payload data ix) /\ rbsp_run nal).
    { intros (nal & I & R). apply in_map_iff in I. destruct I as (ix & <- & I). eauto. }
    destruct (parse_all opts (map (payload data) (annexb_units data)) st) as [[us st1]|e]; cbn [new_state]; destruct G as [G1 G2]; (split; [exact G1|]); intros P; specialize (G2 P); tauto.
  - destruct H as [[F L] Hn]. destruct (C24_length_prefixed opts data n st F ltac:(lia) Hn) as (nals & tail & E & Fu & I & ->).
    assert (Fb : Forall byte_string nals) by (apply (framed_bytes n nals tail); rewrite <- E; split; assumption).
    pose proof (parse_all_safe opts _ st Fb S) as G.
    assert (X : (exists nal, In nal nals /\ rbsp_run nal) -> exists nal, (exists nals tail, data = framed n nals ++ tail /\ Forall (unit_ok false n) nals /\ In nal nals) /\ rbsp_run nal).
    { intros (nal & I' & R). exists nal. split; [exists nals, tail; auto|exact R]. }
    destruct (parse_all opts nals st) as [[us st1]|e]; cbn [new_state]; destruct G as [G1 G2]; (split; [exact G1|]); intros P; specialize (G2 P); tauto.
  - pose proof (C42_safe opts data st H S) as G. unfold nal_run in G. destruct (ParseConfigurationBox opts data st) as [[o st1]|e]; exact G.
  - destruct (Unescape_byte_string data H) as (rbsp & Er & _). pose proof (C43_safe data rbsp st H S Er) as G.
    assert (X : zrun 24 (bits_of rbsp) -> exists nal, nal = data /\ rbsp_run nal) by (intros R; exists data; split; [reflexivity|eapply rbsp_run_of; eassumption]).
    destruct (ParseRtp data st) as [[o st1]|e]; destruct G as [G1 G2]; (split; [exact G1|]); intros P; specialize (G2 P); tauto.
Qed.

Lemma reached_store st : reached call_ok st -> store_ok st.
Proof. intros R. induction R as [|st c' st' R IH H E]; [apply empty_store_ok|]. pose proof (call_safe c' st H IH) as G. rewrite E in G. apply G. Qed.

(** * C47 *)
(** In every history of calls the only undefined behaviour that can occur is signed overflow: no access outside the buffers, no null
    dereference, no failed assertion, no bad shift, no endless loop.  Signed overflow is possible (C47_refuted). *)
Theorem C47_only_overflow : forall st c e, reached call_ok st -> call_ok c -> perform c st = Bad e -> e = SignedOverflow.
Proof.
  intros st c e R H E. assert (S : store_ok st).
  { clear H E. induction R as [|st c' st' R IH H E]; [apply empty_store_ok|]. pose proof (call_safe c' st H IH) as G. rewrite E in G. apply G. }
  pose proof (call_safe c st H S) as G. rewrite E in G. apply G.
Qed.
(** And there is none at all -- every call returns -- if all NAL units are tame ([tame], FactsTame.v): the payload has no run of 24 zero bits where
    signed Exp-Golomb codes or delta POC sums can occur, or it conforms to the layouts and ranges of the standard.  For an RTP packet: no such run
    in the packet, or a single NAL unit packet with a tame unit, or a fragment that is not the first or has a tame payload. *)
Definition tame_call (c : call) (st : state) : Prop := call_ok c /\
  match c with
  | CallUnit opts data => tame_nals opts st [data]
  | CallAnnexB opts data => tame_nals opts st (map (payload data) (annexb_units data))
  | CallLengthPrefixed opts data n => forall nals tail, data = framed n nals ++ tail -> Forall (unit_ok false n) nals -> incomplete false n tail -> tame_nals opts st nals
  | CallBox opts data => (forall nal, unit_in_box (bits_of data) nal -> ~ rbsp_run nal) \/
      exists h arrs rest, box_ok h arrs /\ bits_of data = enc_box h arrs ++ rest /\ tame_nals opts st (flat_map ba_nals arrs)
  | CallRtp data => ~ rbsp_run data \/ exists rbsp h, UnescapeRbsp data = Done rbsp /\ nal_header_ok h /\ bits_of (firstn 2 rbsp) = enc_nal_header h /\
      (nal_unit_type h <= 47 /\ tame_nal st data \/
       nal_unit_type h = 49 /\ forall e t rest, u_ok 6 t -> skipn 16 (bits_of rbsp) = enc_u 1 1 ++ enc_u 1 e ++ enc_u 6 t ++ rest -> tame st t rest)
  end.
Inductive reached_tame : state -> Prop :=
| tame_new : reached_tame empty_state
| tame_step st c st' : reached_tame st -> tame_call c st -> perform c st = Done st' -> reached_tame st'.

Lemma same_header rbsp h h' : byte_string rbsp -> nal_header_ok h -> nal_header_ok h' -> bits_of (firstn 2 rbsp) = enc_nal_header h -> bits_of (firstn 2 rbsp) = enc_nal_header h' -> h = h'.
Proof.
  intros [F L] H H' E E'. pose proof (wf_mk _ F L) as W.
  assert (R : forall x, bits_of (firstn 2 rbsp) = enc_nal_header x -> rem (mk_bb rbsp) = enc_nal_header x ++ bits_of (skipn 2 rbsp)).
  { intros x Ex. change (rem (mk_bb rbsp)) with (bits_of rbsp). rewrite <- (firstn_skipn 2 rbsp) at 1. rewrite bits_of_app, Ex. reflexivity. }
  pose proof (parses_nal_header h H _ _ W (R h E)) as P. rewrite (parses_nal_header h' H' _ _ W (R h' E')) in P. injection P as ->. reflexivity.
Qed.
Lemma tame_call_ok c st : tame_call c st -> store_ok st -> pocs_ok st -> exists st', perform c st = Done st' /\ store_ok st' /\ pocs_ok st'.
Proof.
  intros [H T] S P. destruct c as [opts data|opts data|opts data n|opts data|data]; cbn [perform call_ok] in *.
  - destruct T as [T _]. destruct (tame_unit opts data st H S P T) as (u & st' & E & R). rewrite E. cbn [new_state]. eauto.
  - pose proof H as [F L]. rewrite ParseBitstream_spec by lia. pose proof (annexb_in_bounds data ltac:(lia)) as B.
    assert (Fb : Forall byte_string (map (payload data) (annexb_units data))).
    { apply Forall_map. eapply Forall_impl; [|exact B]. intros ix. apply sub_bytes, H. }
    destruct (tame_all opts _ st Fb S P T) as (us & st' & E & R). rewrite E. cbn [new_state]. eauto.
  - destruct H as [[F L] Hn]. destruct (C24_length_prefixed opts data n st F ltac:(lia) Hn) as (nals & tail & E & Fu & I & ->).
    assert (Fb : Forall byte_string nals) by (apply (framed_bytes n nals tail); rewrite <- E; split; assumption).
    destruct (tame_all opts _ st Fb S P (T nals tail E Fu I)) as (us & st' & E' & R). rewrite E'. cbn [new_state]. eauto.
  - destruct T as [T|(h & arrs & rest & O & Eb & T)].
    + pose proof (C42_safe opts data st H S) as G. destruct (ParseConfigurationBox opts data st) as [[o st1]|e]; cbn [new_state].
      * destruct G as [G1 G2]. exists st1. split; [reflexivity|]. split; [exact G1|]. destruct (G2 P) as [Q|(nal & Q1 & Q2)]; [exact Q|destruct (T nal Q1 Q2)].
      * destruct G as [_ G]. destruct (G P) as (nal & Q1 & Q2). destruct (T nal Q1 Q2).
    + assert (Fb : Forall byte_string (flat_map ba_nals arrs)).
      { destruct O as (_ & _ & O). clear - O. induction O as [|a arrs Ha _ IH]; [constructor|]. apply Forall_app. split; [|exact IH].
        destruct Ha as (_ & _ & _ & Ha). eapply Forall_impl; [|exact Ha]. intros x [X1 X2]. split; [exact X1|lia]. }
      pose proof (C42_complete opts data st h arrs rest H O Eb) as G. destruct (tame_all opts _ st Fb S P T) as (us & st' & E & R). rewrite E in G.
      destruct G as (box & -> & _). cbn [new_state]. eauto.
  - destruct (Unescape_byte_string data H) as (rbsp & Er & D'). pose proof (C43_safe data rbsp st H S Er) as G.
    destruct T as [T|(rbsp' & h & Er' & Hh & Eh & T)].
    + assert (N : ~ zrun 24 (bits_of rbsp)) by (intros Z; apply T; eapply rbsp_run_of; eassumption).
      destruct (ParseRtp data st) as [[o st1]|e]; cbn [new_state].
      * destruct G as [G1 G2]. exists st1. split; [reflexivity|]. split; [exact G1|]. destruct (G2 P); [assumption|contradiction].
      * destruct G as [_ G]. destruct (N (G P)).
    + rewrite Er in Er'. injection Er' as <-. destruct (C43_choice data rbsp st H Er) as [C1 C2]. destruct (le_lt_dec 2 (length rbsp)) as [L|L].
      2:{ rewrite C1 by exact L. cbn [new_state]. eauto. }
      destruct (C2 L) as (h' & Hh' & Eh' & ->). rewrite (same_header rbsp h' h D' Hh' Hh Eh' Eh). clear h' Hh' Eh'. destruct T as [[Ty T]|[Ty T]].
      * replace (nal_unit_type h <=? 47) with true by lia. rewrite (C43_single default_options data st H (store_state_ok _ S)).
        destruct (tame_unit default_options data st H S P T) as (u & st' & E & R). rewrite E. destruct u as [u|]; cbn [as_rtp new_state]; eauto.
      * rewrite Ty. change (49 <=? 47) with false. change (49 =? 48) with false. change (49 =? 49) with true. cbv iota.
        destruct (C45_exact data rbsp st H (store_state_ok _ S) Er) as [D1 D2]. destruct (le_lt_dec 3 (length rbsp)) as [L3|L3].
        2:{ rewrite D1 by exact L3. cbn [as_rtp new_state]. eauto. }
        destruct (D2 L3) as (h' & s & e & t & Hh' & Hs & He & Ht & E3 & K0 & K1).
        assert (Es : s = 0 \/ s = 1) by (unfold u_ok in Hs; lia). destruct Es as [->| ->]; [rewrite K0 by reflexivity; cbn [as_rtp new_state]; eauto|].
        pose proof D' as [F' L']. pose proof (wf_mk _ F' L') as W.
        assert (R0 : rem (mk_bb rbsp) = (enc_nal_header h' ++ enc_u 1 1 ++ enc_u 1 e ++ enc_u 6 t) ++ bits_of (skipn 3 rbsp)).
        { change (rem (mk_bb rbsp)) with (bits_of rbsp). rewrite <- (firstn_skipn 3 rbsp) at 1. rewrite bits_of_app, E3. reflexivity. }
        pose proof (wf_adv_app _ _ _ W R0) as W3. pose proof (rem_adv_app _ _ _ W R0) as R3.
        assert (Ln : length (enc_nal_header h' ++ enc_u 1 1 ++ enc_u 1 e ++ enc_u 6 t) = 24%nat) by (rewrite !app_length, enc_nal_header_length, !length_enc_u; reflexivity).
        rewrite Ln in W3, R3.
        assert (T' : tame st t (rem (adv (mk_bb rbsp) 24))).
        { rewrite R3. apply (T e t _ Ht). change (bits_of rbsp) with (rem (mk_bb rbsp)). rewrite R0, <- !app_assoc. rewrite skipn_app, enc_nal_header_length, Nat.sub_diag.
          rewrite skipn_all2 by (rewrite enc_nal_header_length; lia). reflexivity. }
        destruct (payload_tame t st _ W3 S P T') as [PF PP]. specialize (K1 eq_refl).
        destruct (ParseRtpFu data st) as [[r st']|er] eqn:EF; [|rewrite PF in K1; discriminate]. destruct K1 as [-> K1]. cbn [as_rtp new_state].
        pose proof (C45_safe data rbsp st H S Er) as G'. rewrite EF in G'. exists st'. split; [reflexivity|]. split; [apply G'|].
        intros k sp x Hk. destruct K1 as (_ & K1 & _). rewrite K1 in Hk. destruct (stored_eq (payload_of t st (adv (mk_bb rbsp) 24)) st) as (_ & E2 & _). apply (PP k sp x). rewrite E2. exact Hk.
Qed.
Theorem C47_tame : forall st c, reached_tame st -> tame_call c st -> exists st', perform c st = Done st'.
Proof.
  intros st c R T. assert (S : store_ok st /\ pocs_ok st).
  { clear T. induction R as [|st c' st' R [IH1 IH2] T E]; [apply empty_store_ok|]. destruct (tame_call_ok c' st T IH1 IH2) as (st1 & E1 & G). rewrite E in E1. injection E1 as <-. exact G. }
  destruct S as [S P]. destruct (tame_call_ok c st T S P) as (st' & E & _). eauto.
Qed.
(** Refuted: a PPS with init_qp_minus26 = 2^30 (its only NAL unit). *)
Definition C47_pps : list Z := C24_nal 34 (enc_pps false (C46_pps (2 ^ 30))).
Theorem C47_refuted : call_ok (CallAnnexB default_options (0 :: 0 :: 1 :: C47_pps)) /\ perform (CallAnnexB default_options (0 :: 0 :: 1 :: C47_pps)) empty_state = Bad SignedOverflow.
Proof.
  split; [|vm_compute; reflexivity]. split; [|vm_compute; reflexivity]. apply Forall_forall. intros x I.
  assert (H : forallb (fun x => (0 <=? x) && (x <? 256)) (0 :: 0 :: 1 :: C47_pps) = true) by (vm_compute; reflexivity). rewrite forallb_forall in H. specialize (H x I). unfold is_byte. lia.
Qed.

(** A clean history: the stream of C24 (VPS, SPS, PPS, slice, PPS, AUD), then an aggregation packet. *)
Fixpoint longest_run (l : list bool) (cur best : nat) : nat :=
  match l with [] => Nat.max cur best | true :: r => longest_run r 0 (Nat.max cur best) | false :: r => longest_run r (S cur) best end.
Lemma longest_mono : forall l cur best, (Nat.max cur best <= longest_run l cur best)%nat.
Proof.
  induction l as [|[] l IH]; intros cur best; cbn [longest_run]; [lia| |].
  - specialize (IH O (Nat.max cur best)). lia.
  - specialize (IH (S cur) best). lia.
Qed.
Lemma longest_zeros n post : forall cur best, (cur + n <= longest_run (repeat false n ++ post) cur best)%nat.
Proof.
  induction n as [|n IH]; intros cur best; cbn [repeat app longest_run].
  - pose proof (longest_mono post cur best). lia.
  - specialize (IH (S cur) best). lia.
Qed.
Lemma longest_zrun n pre post : forall cur best, (n <= longest_run (pre ++ repeat false n ++ post) cur best)%nat.
Proof.
  induction pre as [|[] pre IH]; intros cur best; cbn [app longest_run].
  - pose proof (longest_zeros n post cur best). lia.
  - apply IH.
  - apply IH.
Qed.
Lemma no_run nal : match UnescapeRbsp nal with Done r => (longest_run (bits_of r) 0 0 <? 24)%nat | Bad _ => true end = true -> ~ rbsp_run nal.
Proof. intros H (rbsp & E & pre & post & E2). rewrite E, E2 in H. pose proof (longest_zrun 24 pre post 0 0). lia. Qed.
Definition bytesb (l : list Z) : bool := forallb (fun x => (0 <=? x) && (x <? 256)) l && (Z.of_nat (length l) <? 2 ^ 32).
Lemma bytesb_ok l : bytesb l = true -> byte_string l.
Proof.
  unfold bytesb. intros H. apply andb_prop in H. destruct H as [H1 H2]. split; [|lia]. apply Forall_forall. intros x I. rewrite forallb_forall in H1. specialize (H1 x I). unfold is_byte. lia.
Qed.
Lemma tame_nal_intro st h bits nal : match UnescapeRbsp nal with Done r => bits_of r = enc_nal_header h ++ bits | Bad _ => False end -> nal_header_ok h ->
  byte_string nal -> tame st (nal_unit_type h) bits -> tame_nal st nal.
Proof.
  intros E Hh D T rbsp h' Er Hh' Eh. rewrite Er in E. destruct (Unescape_byte_string nal D) as (r & Er2 & D'). rewrite Er in Er2. injection Er2 as <-.
  assert (Eh2 : bits_of (firstn 2 rbsp) = enc_nal_header h).
  { pose proof E as E2. rewrite <- (firstn_skipn 2 rbsp), bits_of_app in E2. apply app_inv_length in E2; [apply E2|].
    apply (f_equal (@length bool)) in E. rewrite app_length, length_bits_of, enc_nal_header_length in E. rewrite length_bits_of, firstn_length_le, enc_nal_header_length by lia. reflexivity. }
  rewrite (same_header rbsp h' h D' Hh' Hh Eh Eh2). rewrite E, skipn_app, enc_nal_header_length, Nat.sub_diag, skipn_all2 by (rewrite enc_nal_header_length; lia). exact T.
Qed.
Lemma no_run_bits l : (longest_run l 0 0 <? 24)%nat = true -> ~ zrun 24 l.
Proof. intros H (pre & post & E). rewrite E in H. pose proof (longest_zrun 24 pre post 0 0). lia. Qed.
Definition C47_call1 : call := CallAnnexB default_options (annexb_stream C24_nals).
Definition C47_call2 : call := CallRtp ([0x60; 1] ++ framed 2 C44_packet).
Example C47_case : tame_call C47_call1 empty_state /\ exists st, perform C47_call1 empty_state = Done st /\ reached_tame st /\
  tame_call C47_call2 st /\ exists st', perform C47_call2 st = Done st' /\ reached_tame st'.
Proof.
  assert (K1 : tame_call C47_call1 empty_state).
  { split; [apply bytesb_ok; vm_compute; reflexivity|]. cbn [C47_call1]. 
    assert (E : map (payload (annexb_stream C24_nals)) (annexb_units (annexb_stream C24_nals)) = map snd C24_nals) by (vm_compute; reflexivity). rewrite E. clear E.
    unfold C24_nals. cbn [map snd].
    assert (Hd : forall t, 0 <= t < 64 -> nal_header_ok (mkNH 0 t 0 1)) by (intros t Ht; repeat split; cbn; lia).
    split; [eapply (tame_nal_intro _ (mkNH 0 32 0 1)); [vm_compute; reflexivity|apply Hd; lia|apply bytesb_ok; vm_compute; reflexivity|exact I]|].
    intros u1 st1 _. split; [eapply (tame_nal_intro _ (mkNH 0 33 0 1) (enc_sps false C31_sps ++ true :: repeat false 3)); [vm_compute; reflexivity|apply Hd; lia|apply bytesb_ok; vm_compute; reflexivity|]|].
    { right. exists C31_sps. eexists. split; [destruct C31_case as (G1 & G2 & _); apply sps_std_in; assumption|reflexivity]. }
    intros u2 st2 _. split; [eapply (tame_nal_intro _ (mkNH 0 34 0 1)); [vm_compute; reflexivity|apply Hd; lia|apply bytesb_ok; vm_compute; reflexivity|]|].
    { left. apply no_run_bits. vm_compute. reflexivity. }
    intros u3 st3 _. split; [eapply (tame_nal_intro _ (mkNH 0 1 0 1)); [vm_compute; reflexivity|apply Hd; lia|apply bytesb_ok; vm_compute; reflexivity|]|].
    { left. apply no_run_bits. vm_compute. reflexivity. }
    intros u4 st4 _. split; [eapply (tame_nal_intro _ (mkNH 0 34 0 1)); [vm_compute; reflexivity|apply Hd; lia|apply bytesb_ok; vm_compute; reflexivity|]|].
    { left. apply no_run_bits. vm_compute. reflexivity. }
    intros u5 st5 _. split; [eapply (tame_nal_intro _ (mkNH 0 35 0 1)); [vm_compute; reflexivity|apply Hd; lia|apply bytesb_ok; vm_compute; reflexivity|exact I]|].
    intros u6 st6 _. exact I. }
  split; [exact K1|]. destruct (C47_tame _ _ tame_new K1) as (st & E). exists st. split; [exact E|].
  assert (R : reached_tame st) by (eapply tame_step; [apply tame_new|exact K1|exact E]). split; [exact R|].
  assert (K2 : tame_call C47_call2 st).
  { split; [apply bytesb_ok; vm_compute; reflexivity|]. left. apply no_run. vm_compute. reflexivity. }
  split; [exact K2|]. destruct (C47_tame _ _ R K2) as (st' & E'). exists st'. split; [exact E'|]. eapply tame_step; eassumption.
Qed.

(** * C48 *)
(** [m], started anywhere in any buffer, returns (or meets a signed overflow: C47); the bytes are left alone and the position moves forward and
    stays in the buffer. *)
Definition moves_forward {A} (m : M A) : Prop := forall b, wf b ->
  match m b with
  | Ok _ b' | Fail b' => bb_bytes b' = bb_bytes b /\ pos b <= pos b' <= 8 * Z.of_nat (length (bb_bytes b)) /\ wf b'
  | Err e => e = SignedOverflow
  end.
Lemma steps_forward b b' bs : wf b -> steps b b' bs -> bb_bytes b' = bb_bytes b /\ pos b <= pos b' <= 8 * Z.of_nat (length (bb_bytes b)) /\ wf b'.
Proof.
  intros W S. pose proof (steps_wf _ _ _ W S) as W'. pose proof W' as (_ & W1 & _ & _ & _ & W2). destruct S as [_ S]. rewrite S in *. clear S.
  split; [reflexivity|]. split; [|exact W']. rewrite pos_adv in *. cbn [adv bb_bytes bb_count] in *. lia.
Qed.
Lemma wp_forward (E : errs) {A} (m : M A) Q : (forall e l, E e l -> e = SignedOverflow) -> wp E m Q -> moves_forward m.
Proof.
  intros HE H b W. specialize (H b W). destruct (m b) as [a b'|b'|e]; [| |exact (HE _ _ H)].
  - destruct H as (bs & S & _). apply (steps_forward _ _ _ W S).
  - destruct H as (bs & S). apply (steps_forward _ _ _ W S).
Qed.
Lemma no_err_ovf e l : no_err e l -> e = SignedOverflow.
Proof. intros []. Qed.
Lemma ovf_only_ovf e l : ovf_only e l -> e = SignedOverflow.
Proof. intros [H _]. exact H. Qed.
Lemma ovf_any_ovf e l : ovf_any e l -> e = SignedOverflow.
Proof. intros H. exact H. Qed.

(** Reading primitives of the bit buffer. *)
Theorem C48_reader : (forall n, 0 < n -> moves_forward (ReadBits n)) /\ (forall n, 0 < n -> moves_forward (ReadBits64 n)) /\ moves_forward ReadUInt8 /\ moves_forward ReadUInt16 /\ moves_forward ReadUInt32 /\
  moves_forward ReadExponentialGolomb /\ moves_forward ReadSignedExponentialGolomb /\ (forall n, moves_forward (ReadBytes n)) /\ moves_forward rbsp_trailing_bits.
Proof.
  assert (U : forall n, 0 < n -> moves_forward (ReadBits n)) by (intros n H; eapply wp_forward; [apply no_err_ovf|apply (wp_u_ok n H)]).
  split; [exact U|]. split; [intros n H; eapply wp_forward; [apply no_err_ovf|apply (wp_u64 n H)]|].
  split; [apply U; lia|]. split; [apply U; lia|]. split; [apply U; lia|].
  split; [eapply wp_forward; [apply no_err_ovf|apply wp_ue]|]. split; [eapply wp_forward; [apply ovf_only_ovf|apply wp_se]|].
  split; [intros n; eapply wp_forward; [apply no_err_ovf|apply wp_bytes]|]. eapply wp_forward; [apply no_err_ovf|apply wp_trailing].
Qed.
(** Substructures. *)
Theorem C48_substructures :
  moves_forward ParseNalUnitHeader /\ (forall present n, moves_forward (ParseProfileTierLevel present n)) /\
  (forall n sp, moves_forward (ParseSubLayerHrdParameters n sp)) /\ (forall common n, moves_forward (ParseHrdParameters common n)) /\
  (forall n, moves_forward (ParseVuiParameters n)) /\ moves_forward ParseScalingListData /\
  (forall idx num sets m, sets_ok idx sets -> 0 <= m <= 16 -> moves_forward (ParseStRefPicSet idx num sets m)) /\
  moves_forward ParseSpsRangeExtension /\ moves_forward ParseSpsMultilayerExtension /\ moves_forward ParseSps3dExtension /\
  (forall cf l c, 0 <= l <= 8 -> 0 <= c <= 8 -> moves_forward (ParseSpsSccExtension cf l c)) /\
  moves_forward ParsePpsMultilayerExtension /\ moves_forward ParsePpsSccExtension /\ (forall cat n, moves_forward (ParsePredWeightTable cat n)) /\
  (forall ty size, 0 <= size -> moves_forward (parse_payload ty size)) /\ moves_forward ParseHvccHeader.
Proof.
  split; [eapply wp_forward; [apply no_err_ovf|apply wp_nal_header]|]. split; [intros; eapply wp_forward; [apply no_err_ovf|apply wp_ptl]|].
  split; [intros; eapply wp_forward; [apply no_err_ovf|apply wp_sub_layer_hrd]|]. split; [intros; eapply wp_forward; [apply no_err_ovf|apply wp_hrd]|].
  split; [intros; eapply wp_forward; [apply no_err_ovf|apply wp_vui]|]. split; [eapply wp_forward; [apply ovf_only_ovf|apply (wpa_scaling_list_data ovf_only ovf_in_only)]|].
  split; [intros; eapply wp_forward; [apply ovf_any_ovf|apply wp_rps; assumption]|]. split; [eapply wp_forward; [apply no_err_ovf|apply wp_sps_range_ext]|].
  split; [eapply wp_forward; [apply no_err_ovf|apply wp_u1_ext]|]. split; [eapply wp_forward; [apply no_err_ovf|apply wp_sps_3d_ext]|].
  split; [intros; eapply wp_forward; [apply no_err_ovf|apply wp_sps_scc_ext; assumption]|]. split; [eapply wp_forward; [apply ovf_only_ovf|apply wpa_pps_ml_ext]|].
  split; [eapply wp_forward; [apply ovf_only_ovf|apply wpa_pps_scc_ext]|]. split; [intros; eapply wp_forward; [apply ovf_only_ovf|apply (wpa_pwt ovf_only _ _ ovf_in_only)]|].
  split; [intros; eapply wp_forward; [apply ovf_only_ovf|apply wpa_payload; assumption]|]. eapply wp_forward; [apply no_err_ovf|apply wp_hvcc_header].
Qed.
(** The payload parsers of NAL units; slice headers with any reachable state. *)
Theorem C48_payload_parsers : moves_forward ParseVps /\ moves_forward ParseSps /\ moves_forward ParsePps /\ moves_forward ParseAud /\ moves_forward ParseSei /\
  (forall st ty, reached call_ok st -> moves_forward (ParseSliceSegmentHeader ty st)).
Proof.
  split; [eapply wp_forward; [apply no_err_ovf|apply wp_Vps]|]. split; [eapply wp_forward; [apply ovf_only_ovf|apply wp_Sps]|].
  split; [eapply wp_forward; [apply ovf_only_ovf|apply wp_Pps]|]. split; [eapply wp_forward; [apply no_err_ovf|apply wp_Aud]|].
  split; [eapply wp_forward; [apply ovf_only_ovf|apply wp_Sei]|].
  intros st ty R. eapply wp_forward; [apply ovf_any_ovf|apply wp_Slice]. apply store_state_ok, (reached_store _ R).
Qed.
(** The parsers that also change the state: NAL unit payloads, RTP packets, configuration boxes. *)
Definition smoves_forward {A} (m : SM A) : Prop := forall st b, reached call_ok st -> wf b ->
  match m st b with
  | Ok _ b' => bb_bytes b' = bb_bytes b /\ pos b <= pos b' <= 8 * Z.of_nat (length (bb_bytes b)) /\ wf b'
  | Fail _ => False
  | Err e => e = SignedOverflow
  end.
Lemma ssafe_forward {A} (m : SM A) Zs : (forall N, ssafe N Zs m) -> smoves_forward m.
Proof.
  intros H st b R W. specialize (H _ st b W (reached_store _ R) (le_n _)). destruct (m st b) as [[o st1] b1|b1|e]; [|exact H|apply H].
  destruct H as ((bs & S) & _). apply (steps_forward _ _ _ W S).
Qed.
Lemma sspec_forward {A} (m : SM A) Zs Q : sspec Zs m Q -> smoves_forward m.
Proof.
  intros H st b R W. specialize (H st b W (reached_store _ R)). destruct (m st b) as [[o st1] b1|b1|e]; [|exact H|apply H].
  destruct H as ((bs & S & _) & _). apply (steps_forward _ _ _ W S).
Qed.
Theorem C48_stateful_parsers : (forall ty, smoves_forward (ParseNalUnitPayload ty)) /\ smoves_forward ParseRtpSingleBuffer /\ smoves_forward ParseRtpApBuffer /\ smoves_forward ParseRtpFuBuffer /\
  (forall opts, smoves_forward (ParseConfigurationBoxBuffer opts)).
Proof.
  split; [intros ty; apply (ssafe_forward _ (zrun 24)); intros N; apply ssafe_payload|]. split; [apply (ssafe_forward _ (zrun 24)), ssafe_single|].
  split; [apply (ssafe_forward _ (zrun 24)), ssafe_ap|]. split; [apply (ssafe_forward _ (zrun 24)), ssafe_fu|]. intros opts. eapply sspec_forward, sspec_box.
Qed.
(** Every call, on any bytes and after any history, halts (the model's loops carry fuel: [OutOfFuel] would be a loop that does not end). *)
Theorem C48_halts : forall st c, reached call_ok st -> call_ok c -> perform c st <> Bad OutOfFuel.
Proof. intros st c R H E. discriminate (C47_only_overflow st c _ R H E). Qed.
(** parsed_length never exceeds the length of the unescaped NAL unit, and is at least the two header bytes. *)
Theorem C48_parsed_length : forall st opts data rbsp u st', reached call_ok st -> byte_string data -> UnescapeRbsp data = Done rbsp -> ParseNalUnit opts data st = Done (Some u, st') ->
  2 <= nu_parsed_length u <= Z.of_nat (length rbsp) /\ Z.of_nat (length rbsp) <= Z.of_nat (length data).
Proof.
  intros st opts data rbsp u st' R D E E1. split; [apply (C21_fields opts data rbsp st u st' D (store_state_ok _ (reached_store _ R)) E E1)|].
  destruct (C10_unescape_only_removes data) as (o & Eo & _ & L & _). rewrite E in Eo. injection Eo as <-. lia.
Qed.
(** A reached state with parameter sets in it, and the lengths parsed in the stream that gave it (bytes parsed and bytes of the unit). *)
Example C48_case : exists st bs, reached call_ok st /\ ParseBitstream default_options (annexb_stream C24_nals) empty_state = Done (bs, st) /\
  map (fun u => (nu_parsed_length u, nu_length u)) (bs_units bs) = [(30, 33); (227, 230); (20, 20); (29, 29); (7, 7); (3, 3)].
Proof.
  destruct (ParseBitstream default_options (annexb_stream C24_nals) empty_state) as [[bs st]|e] eqn:E; [|vm_compute in E; discriminate E].
  exists st, bs. split; [|split; [reflexivity|]].
  - eapply (reached_call _ _ C47_call1); [apply reached_new|apply bytesb_ok; vm_compute; reflexivity|]. unfold C47_call1, perform. rewrite E. reflexivity.
  - assert (G : match ParseBitstream default_options (annexb_stream C24_nals) empty_state with Done (b, _) => map (fun u => (nu_parsed_length u, nu_length u)) (bs_units b) | Bad _ => [] end = [(30, 33); (227, 230); (20, 20); (29, 29); (7, 7); (3, 3)]).
    { vm_compute. reflexivity. }
    rewrite E in G. exact G.
Qed.
