(** NAL units without undefined behaviour (for C47): where the long runs of zero bits that can overflow a signed integer would have to be. *)
From Coq Require Import ZArith List Bool Lia ZifyBool ZifyNat.
From Verif Require Import MBase MBitBuffer Spec BitsFacts Reader ReaderFacts Rules Syntax SyntaxSe MCommon CommonFacts PropsBits PropsCommon
  MFraming FramingFacts PropsFraming MSyntaxA SpecA FactsA Api PropsA MSyntaxB SpecB FactsB FactsRps PropsB MSps SpecSps FactsSps PropsSps
  MPps SpecPps FactsPps PropsPps MSlice SpecSlice FactsSlice PropsSlice MSei SpecSei FactsSei PropsSei MNal FactsNal PropsNal.
Import ListNotations.
Open Scope Z_scope.
Ltac Zify.zify_post_hook ::= Z.div_mod_to_equations.

(** * SPS: only after profile_tier_level() (whose 43 reserved bits are zero) *)
Definition sps_late_run (l : list bool) : Prop := exists a m n p l2, ptl_ok false true m p /\
  l = enc_u 4 a ++ enc_u 3 m ++ enc_u 1 n ++ enc_ptl false true m p ++ l2 /\ zrun 24 l2.
Lemma late_app l1 l2 : sps_late_run l1 -> sps_late_run (l1 ++ l2).
Proof.
  intros (a & m & n & p & l & Hp & -> & Z). exists a, m, n, p, (l ++ l2). rewrite <- !app_assoc. split; [exact Hp|]. split; [reflexivity|apply zrun_app_l, Z].
Qed.
Lemma sps_body_late b : wf b ->
  match ParseSpsBody b with
  | Ok s b' => exists bs, steps b b' bs /\ (Forall poc_limits (sps_st_ref_pic_set s) \/ sps_late_run bs)
  | Fail b' => exists bs, steps b b' bs
  | Err e => e = SignedOverflow /\ sps_late_run (rem b)
  end.
Proof.
  intros W. unfold ParseSpsBody.
  unfold bind at 1. pose proof (wp_u_ok 4 ltac:(lia) b W) as H1. destruct (ReadBits 4 b) as [a b1|b1|e]; [|exact H1|destruct H1].
  destruct H1 as (bs1 & S1 & U1 & ->). pose proof (steps_wf _ _ _ W S1) as W1.
  unfold bind at 1. pose proof (wp_u_ok 3 ltac:(lia) b1 W1) as H2. destruct (ReadBits 3 b1) as [m b2|b2|e]; [|destruct H2 as (bs2 & S2); eexists; eapply steps_trans; eassumption|destruct H2].
  destruct H2 as (bs2 & S2 & U2 & ->). pose proof (steps_wf _ _ _ W1 S2) as W2. pose proof (steps_trans _ _ _ _ _ S1 S2) as T2.
  unfold bind at 1. pose proof (wp_u_ok 1 ltac:(lia) b2 W2) as H3. destruct (ReadBits 1 b2) as [n b3|b3|e]; [|destruct H3 as (bs3 & S3); eexists; eapply steps_trans; eassumption|destruct H3].
  destruct H3 as (bs3 & S3 & U3 & ->). pose proof (steps_wf _ _ _ W2 S3) as W3. pose proof (steps_trans _ _ _ _ _ T2 S3) as T3.
  unfold bind at 1. pose proof (wp_ptl true m b3 W3) as H4. destruct (ParseProfileTierLevel true m b3) as [p b4|b4|e]; [|destruct H4 as (bs4 & S4); eexists; eapply steps_trans; eassumption|destruct H4].
  destruct H4 as (bs4 & S4 & U4 & ->). pose proof (steps_wf _ _ _ W3 S4) as W4. pose proof (steps_trans _ _ _ _ _ T3 S4) as T4.
  match goal with |- match ?K b4 with _ => _ end => assert (T : wp ovf_only K (fun s bs => Forall poc_limits (sps_st_ref_pic_set s) \/ zrun 24 bs)) end.
  { clear - U2. do 6 astep. pic_sizes. repeat astep. apply wp_ret. cbn [sps_st_ref_pic_set].
    match goal with |- Forall poc_limits ?l \/ _ => match goal with A : agree _ (enc_from 0 (fun i => enc_rps i ?num) l) |- _ => destruct (rps_from_run num l 0) as [F|Z]; [left; exact F|]; apply agree_eq in A; right;
      assert (Z2 : zrun 24 (enc_from 0 (fun i => enc_rps i num) l)) by exact Z end end.
    match goal with A : ?x = _ \/ zrun 31 ?x |- _ => assert (Z3 : zrun 24 x) by (destruct A as [->|A]; [assumption|eapply zrun_le; [|exact A]; lia]) end.
    repeat (first [apply zrun_app_l; exact Z3|apply zrun_app_r]). }
  specialize (T b4 W4).
  match goal with |- match ?K b4 with _ => _ end => destruct (K b4) as [s b5|b5|e] end.
  - destruct T as (bs5 & S5 & [F|Z]); (eexists; split; [eapply steps_trans; eassumption|]); [left; exact F|right].
    exists a, m, n, p, bs5. rewrite <- !app_assoc. auto.
  - destruct T as (bs5 & S5). eexists. eapply steps_trans; eassumption.
  - destruct T as [-> Z]. split; [reflexivity|]. exists a, m, n, p, (rem b4). destruct T4 as [-> _]. rewrite <- !app_assoc. auto.
Qed.
Lemma sps_late b : wf b ->
  match ParseSps b with
  | Ok r _ => Forall poc_limits (sps_st_ref_pic_set (fst r)) \/ sps_late_run (rem b)
  | Fail _ => True
  | Err e => e = SignedOverflow /\ sps_late_run (rem b)
  end.
Proof.
  intros W. unfold ParseSps, finish. unfold bind at 1. pose proof (sps_body_late b W) as H. destruct (ParseSpsBody b) as [s b1|b1|e]; [|exact I|exact H].
  destruct H as (bs & S & H). destruct (finish_tail (fun s => nz (sps_extension_4bits s)) s b1 (steps_wf _ _ _ W S)) as (x & b2 & bs2 & E & _). rewrite E. cbn [fst].
  destruct H as [H|H]; [left; exact H|right]. destruct S as [-> _]. apply late_app, H.
Qed.

(** * SEI: only in colour remapping messages *)
Lemma payload_no_err ty size : 0 <= size -> ty <> 142 -> wp no_err (parse_payload ty size) (fun _ _ => True).
Proof.
  assert (G : forall A B (f : A -> B) (m : M A) Q, wp no_err m Q -> wp no_err (fmap f m) (fun _ _ => True)).
  { intros A B f m Q H. unfold fmap. eapply wp_bind; [exact H|]. intros. apply wp_ret. exact I. }
  intros Hs N. unfold parse_payload.
  destruct (ty =? 4); [eapply G, wp_t35, Hs|]. destruct (ty =? 5); [eapply G, wp_unregistered|]. destruct (ty =? 137); [eapply G, wp_mastering|].
  destruct (ty =? 144); [eapply G, wp_light|]. destruct (ty =? 141); [eapply G, wp_knee|]. destruct (Z.eqb_spec ty 142); [contradiction|].
  destruct (ty =? 149); [eapply G, wp_ccv|]. destruct (ty =? 147); [eapply G, (wp_u_ok 8); lia|]. destruct (ty =? 148); [eapply G, wp_ambient|].
  destruct (ty =? 165); [eapply G, wp_alpha|]. eapply G. unfold parse_unknown. apply wp_guard. intros _. apply wp_bytes.
Qed.
Lemma sei_fault b e : wf b -> ParseSei b = Err e -> e = SignedOverflow /\ zrun 24 (rem b) /\ exists rest, rem b = enc_ff 142 ++ rest.
Proof.
  intros W E. pose proof (wp_Sei b W) as H. rewrite E in H. destruct H as [-> Z]. split; [reflexivity|]. split; [exact Z|].
  unfold ParseSei in E. unfold bind at 1 in E. pose proof (wp_ff b W) as H1. destruct (read_ff b) as [t b1|b1|e1]; [|discriminate|destruct H1].
  destruct H1 as (bs1 & S1 & Ht & ->). pose proof (steps_wf _ _ _ W S1) as W1.
  unfold bind at 1 in E. pose proof (wp_ff b1 W1) as H2. destruct (read_ff b1) as [s b2|b2|e1]; [|discriminate|destruct H2].
  destruct H2 as (bs2 & S2 & Hs & ->). pose proof (steps_wf _ _ _ W1 S2) as W2.
  destruct (Z.eq_dec t 142) as [->|N]; [exists (rem b1); apply S1|]. exfalso. unfold ff_ok in Hs. pose proof (payload_no_err t s ltac:(lia) N b2 W2) as H3.
  unfold bind at 1 in E. unfold attempt in E. destruct (parse_payload t s b2); [discriminate|discriminate|destruct H3].
Qed.

(** * Tame payloads *)
(** [bits]: the payload bits of a NAL unit of type [ty] parsed with state [st].
    Either there is no run of 24 zero bits where it matters or the payload conforms: its bits start with the encoding of a syntax structure whose
    values are in the ranges of the standard. *)
Definition tame (st : state) (ty : Z) (bits : list bool) : Prop :=
  if slice_nut ty then
    ~ zrun 24 bits \/
    exists p s h rest, sps_ok_in s /\ refers_to st (slice_pic_parameter_set_id h) p s /\ slice_ok false (own_rps_std s) ty s p h /\ bits = enc_slice false ty s p h ++ rest
  else if ty =? 33 then ~ sps_late_run bits \/ exists s rest, sps_ok_in s /\ bits = enc_sps false s ++ rest
  else if ty =? 34 then ~ zrun 24 bits \/ exists s rest, pps_ok_in s /\ bits = enc_pps false s ++ rest
  else if (ty =? 39) || (ty =? 40) then
    ~ zrun 24 bits \/ (forall rest, bits <> enc_ff 142 ++ rest) \/
    exists size p rest, ff_ok size /\ payload_ok false 142 size p /\ bits = enc_ff 142 ++ enc_ff size ++ enc_payload false p ++ rest
  else True.

Lemma sps_in_limits s : sps_ok_in s -> Forall poc_limits (sps_st_ref_pic_set s).
Proof. unfold sps_ok_in, sps_ok. cbv zeta. intros H. assert (S : rps_sets_std (num_short_term_ref_pic_sets s) (sps_st_ref_pic_set s)) by tauto. apply S. Qed.
Lemma payload_tame ty st b : wf b -> store_ok st -> pocs_ok st -> tame st ty (rem b) ->
  payload_fault ty st b = None /\ pocs_ok (stored' (payload_of ty st b) st).
Proof.
  intros W S P T. pose proof (store_state_ok _ S) as St.
  assert (Q : forall r, np_sps (payload_of ty st b) = Some r -> Forall poc_limits (sps_st_ref_pic_set (fst r))).
  { unfold payload_of. cbn [np_sps]. destruct (Z.eqb_spec ty 33) as [->|]; [|discriminate]. intros r E. unfold tame in T. change (slice_nut 33) with false in T. change (33 =? 33) with true in T. cbv iota in T.
    destruct T as [T|(s & rest & O & R)].
    - pose proof (sps_late b W) as H. unfold result in E. destruct (ParseSps b) as [r' b'|b'|e]; try discriminate. injection E as <-. destruct H as [H|H]; [exact H|contradiction].
    - unfold result, ParseSps, finish, bind at 1 in E. rewrite (parses_sps s O b rest W R) in E.
      assert (W' : wf (adv b (length (enc_sps false s)))) by (eapply wf_adv_app; eassumption).
      destruct (finish_tail (fun s => nz (sps_extension_4bits s)) s _ W') as (x & b2 & bs2 & E2 & _). rewrite E2 in E. injection E as <-. apply sps_in_limits, O. }
  split.
  - destruct (payload_fault ty st b) as [e|] eqn:F; [exfalso|reflexivity]. pose proof (payload_fault_ovf ty st b e W St F) as [-> Z]. specialize (Z P).
    unfold payload_fault in F. unfold tame in T. destruct (slice_nut ty).
    { destruct T as [T|(p & s & h & rest & Os & R & O & E)]; [contradiction|]. unfold fault in F.
      pose proof R as [[x Hx] _]. rewrite (C37_layout_of_the_code st ty b s p h rest W Os (proj2 St _ _ _ Hx) R O E) in F. discriminate. }
    destruct (ty =? 32); [rewrite (fault_none _ _ _ W wp_Vps) in F; discriminate|].
    destruct (ty =? 33).
    { unfold fault in F. destruct T as [T|(s & rest & O & R)].
      - pose proof (sps_late b W) as H. destruct (ParseSps b); try discriminate. destruct H as [_ H]. contradiction.
      - unfold ParseSps, finish, bind at 1 in F. rewrite (parses_sps s O b rest W R) in F.
        assert (W' : wf (adv b (length (enc_sps false s)))) by (eapply wf_adv_app; eassumption).
        destruct (finish_tail (fun s => nz (sps_extension_4bits s)) s _ W') as (x & b2 & bs2 & E2 & _). rewrite E2 in F. discriminate. }
    destruct (ty =? 34).
    { unfold fault in F. destruct T as [T|(s & rest & O & R)]; [contradiction|].
      destruct (C36_layout_of_the_code b s rest W O R) as (x & b' & E & _). rewrite E in F. discriminate. }
    destruct (ty =? 35); [rewrite (fault_none _ _ _ W wp_Aud) in F; discriminate|].
    destruct ((ty =? 39) || (ty =? 40)); [|discriminate]. unfold fault in F. destruct (ParseSei b) as [m b'|b'|e] eqn:E; try discriminate. injection F as ->.
    destruct (sei_fault b _ W E) as (_ & _ & rest & R). destruct T as [T|[T|(size & p & rest' & Hf & O & R')]]; [contradiction|exact (T rest R)|].
    rewrite (C40_layout b 142 size p rest' W ltac:(unfold ff_ok; lia) Hf O R') in E. discriminate.
  - intros k s x. destruct (stored_eq (payload_of ty st b) st) as (_ & E2 & _). rewrite E2. cbn [stored st_sps]. destruct (np_sps (payload_of ty st b)) as [r|]; [|apply P].
    destruct (k =? sps_seq_parameter_set_id (fst r)); [|apply P]. intros E. injection E as ->. apply (Q (s, x) eq_refl).
Qed.

(** A NAL unit (still escaped) that is tame for [st], and a sequence of units with one state. *)
Definition tame_nal (st : state) (nal : list Z) : Prop := forall rbsp h, UnescapeRbsp nal = Done rbsp -> nal_header_ok h ->
  bits_of (firstn 2 rbsp) = enc_nal_header h -> tame st (nal_unit_type h) (skipn 16 (bits_of rbsp)).
Fixpoint tame_nals (opts : options) (st : state) (nals : list (list Z)) : Prop :=
  match nals with
  | [] => True
  | nal :: r => tame_nal st nal /\ forall u st', ParseNalUnit opts nal st = Done (u, st') -> tame_nals opts st' r
  end.
Lemma tame_unit opts nal st : byte_string nal -> store_ok st -> pocs_ok st -> tame_nal st nal ->
  exists u st', ParseNalUnit opts nal st = Done (u, st') /\ store_ok st' /\ pocs_ok st'.
Proof.
  intros D S P T. destruct (Unescape_byte_string nal D) as (rbsp & Er & D'). rewrite (nal_unit_unesc _ _ _ _ Er). destruct (le_lt_dec 2 (length rbsp)) as [L|L].
  - destruct (nal_unit_long opts rbsp st D' (store_state_ok _ S) L) as (h & Hh & Eh & W & ->). specialize (T rbsp h Er Hh Eh). rewrite <- rem_adv16 in T by exact D'.
    destruct (payload_tame _ st _ W S P T) as [-> P']. eexists _, _. split; [reflexivity|]. split; [apply payload_store_ok; assumption|exact P'].
  - rewrite (nal_unit_short opts rbsp st D' L). eauto.
Qed.
Lemma tame_all opts : forall nals st, Forall byte_string nals -> store_ok st -> pocs_ok st -> tame_nals opts st nals ->
  exists us st', parse_all opts nals st = Done (us, st') /\ store_ok st' /\ pocs_ok st'.
Proof.
  induction nals as [|nal nals IH]; intros st F S P T; [cbn; eauto|]. inversion F as [|? ? D F']; subst. destruct T as [T1 T2].
  destruct (tame_unit opts nal st D S P T1) as (u & st1 & E1 & S1 & P1). destruct (IH st1 F' S1 P1 (T2 u st1 E1)) as (us & st2 & E2 & H). cbn [parse_all]. rewrite E1, E2. eauto.
Qed.
