(** C89: from the encoder to the printed text and back. *)
From Coq Require Import ZArith List Bool Lia String Ascii.
From Verif Require PropsRel PropsStream.
From Verif Require Import MBase MBitBuffer Spec BitsFacts Reader ReaderFacts Rules Syntax SyntaxSe MCommon CommonFacts PropsCommon MFraming FramingFacts PropsFraming MSyntaxA SpecA FactsA MSps SpecSps FactsSps MPps SpecPps FactsPps
  MSyntaxB MSlice SpecSlice FactsSlice PropsSlice SpecSliceStd MNal FactsNal PropsNal PropsLocal MRtp FactsRtp PropsRtp Api MText SpecText FactsText PropsText FactsTells FactsFaithA FactsFaithB FactsFaithC FactsFaithD FactsFaithE FactsFaithF
  PropsBits PropsSafe PropsDump PropsFaithful FactsOutput PropsQp MTool SpecTool FactsTool PropsTool PropsToolB PropsToolC PropsToolD PropsWide PropsToolE PropsSps MProcess PropsProcess PropsOutput PropsSame.
Import ListNotations.
Open Scope string_scope.
Open Scope Z_scope.

(** * Specification *)
(** A stream of the standard (C80): NAL unit headers and contents, coded, with emulation prevention, stored in a container. *)
Notation sent_units := (list (nal_header * PropsStream.item)).
Definition coded (fin : bool) (us : sent_units) : list (list Z) := map (fun u => escape fin 0 (PropsStream.unit_bytes u)) us.
Definition sent (c : container) (fin : bool) (us : sent_units) : list Z := packed c (coded fin us).
Definition sendable (c : container) (fin : bool) (us : sent_units) : Prop := PropsStream.conforms [] us /\ fits c (coded fin us) /\ Z.of_nat (List.length (sent c fin us)) < 2 ^ 28.
(** The contents are the same in all that is ever printed: of a VPS everything, of an SPS or PPS everything but the coded differences of scaling lists and (PPS)
    diff_cu_qp_delta_depth and chroma_bit_depth_entry_minus8, of a slice segment its header, of an SEI unit the first message; nothing of the slice data and of units of reserved types. *)
Definition same_item (a b : PropsStream.item) : Prop :=
  match a, b with
  | PropsStream.Vps v, PropsStream.Vps v' => v = v'
  | PropsStream.Sps s, PropsStream.Sps s' => sps_stored s = sps_stored s'
  | PropsStream.Pps p, PropsStream.Pps p' => pps_shown p = pps_shown p'
  | PropsStream.Aud t, PropsStream.Aud t' => t = t'
  | PropsStream.Slice _ _ h _, PropsStream.Slice _ _ h' _ => base h = base h'
  | PropsStream.Sei ty size m _, PropsStream.Sei ty' size' m' _ => ty = ty' /\ size = size' /\ m = m'
  | PropsStream.Other _, PropsStream.Other _ => True
  | _, _ => False
  end.
Definition same_sent (u u' : nal_header * PropsStream.item) : Prop := fst u = fst u' /\ same_item (snd u) (snd u').

(** * Proofs *)
Lemma coded_bytes us : Forall (Forall is_byte) (map PropsStream.unit_bytes us).
Proof. apply Forall_map, Forall_forall. intros u _. apply PropsStream.pack_is_bytes. Qed.
Lemma sent_parsed c fin us opts : PropsStream.conforms [] us -> fits c (coded fin us) -> exists bs st, stream opts (sent c fin us) (length_option c) empty_state = Done (bs, st) /\
  Forall2 (PropsStream.unit_returned opts) us (map PropsRel.contents (bs_units bs)).
Proof.
  intros C F. destruct (PropsStream.stream_steps opts us [] empty_state PropsStream.holds_empty C) as (l & st & E & R & _).
  pose proof (packed_fold c (coded fin us) opts empty_state F) as G.
  assert (P : parse_all opts (coded fin us) empty_state = Done (l, st)).
  { unfold coded. rewrite <- (map_map PropsStream.unit_bytes (escape fin 0)). rewrite PropsRel.parse_all_escaped by apply coded_bytes. exact E. }
  rewrite P in G. unfold PropsRel.as_fold in G. unfold sent. destruct (stream opts _ _ empty_state) as [[bs st']|e]; [|contradiction G]. destruct G as [G _].
  exists bs, st'. split; [reflexivity|]. rewrite G. exact R.
Qed.
Definition no_hrds (it : PropsStream.item) : Prop := match it with PropsStream.Vps v => vps_hrds v = [] | _ => True end.
Lemma conforms_no_hrds us : forall before, PropsStream.conforms before us -> Forall (fun u => no_hrds (snd u)) us.
Proof.
  induction us as [|u us IH]; intros before C; [constructor|]. destruct C as [(_ & C1 & _) C2]. constructor; [|exact (IH _ C2)].
  destruct u as [h it]. cbn [fst snd] in *. destruct it; cbn [no_hrds]; try exact I. cbn [PropsStream.item_ok] in C1. tauto.
Qed.
Lemma vps_stored_plain v v' : vps_hrds v = [] -> vps_hrds v' = [] -> vps_stored v = vps_stored v' -> v = v'.
Proof.
  intros H H' E. destruct v, v'. cbn in H, H'. subst. unfold vps_stored in E. cbn in E. injection E. intros. subst. reflexivity.
Qed.
Lemma returned_same it it' p p' : no_hrds it -> no_hrds it' -> PropsStream.returns it p -> PropsStream.returns it' p' -> seen p = seen p' -> same_item it it'.
Proof.
  intros N N' R R' E. destruct it, it'; cbn [PropsStream.returns no_hrds] in *;
    repeat match goal with H : exists _, _ |- _ => destruct H as (? & H) end; repeat match goal with H : _ /\ _ |- _ => destruct H end; subst; unfold seen in E; cbn in E; try discriminate E; cbn [same_item].
  - apply vps_stored_plain; [assumption | assumption|]. congruence.
  - congruence.
  - congruence.
  - congruence.
  - congruence.
  - repeat split; congruence.
  - exact I.
Qed.
Lemma dumps_units args o fs stdin c fin us vs t : parse_args args = Ready o -> a_nalu_length_bytes o = length_option c -> sendable c fin us -> dumps args fs stdin (sent c fin us) vs t ->
  Forall2 (PropsStream.unit_returned (parsing_options (imply o))) us (map PropsRel.contents vs).
Proof.
  intros A N (C & F & _) (o1 & name & rest & bs & st' & w & spb & sp & A1 & D & B & I & R & St & U & X & M). assert (o1 = o) by congruence. subst o1. rewrite N in St.
  destruct (sent_parsed c fin us (parsing_options (imply o)) C F) as (bs2 & st2 & E2 & R2). rewrite E2 in St. assert (bs2 = bs) by congruence. subst bs2 vs. exact R2.
Qed.
Lemma escape_bytes fin l : Forall is_byte l -> forall z, Forall is_byte (escape fin z l).
Proof.
  induction 1 as [|x l Hx F IH]; intros z; cbn [escape].
  - destruct (fin && _)%bool; repeat constructor; lia.
  - destruct (Nat.eqb z 2); [destruct (x <=? 3)|]; repeat (constructor; [first [exact Hx | split; lia]|]); apply IH.
Qed.
Lemma be_bytes_bytes n : forall v, Forall is_byte (be_bytes n v).
Proof. induction n as [|n IH]; intros v; [constructor|]. cbn [be_bytes]. constructor; [apply Z.mod_pos_bound; lia | apply IH]. Qed.
Lemma packed_bytes c nals : Forall (Forall is_byte) nals -> Forall is_byte (packed c nals).
Proof.
  intros F. destruct c as [long|n]; cbn [packed].
  - apply Forall_flat_map. apply Forall_forall. intros [b x] I. cbn [fst snd]. apply Forall_app. split; [destruct b; repeat constructor; lia|].
    apply in_combine_r in I. rewrite Forall_forall in F. exact (F x I).
  - induction F as [|x l Fx F IH]; [constructor|]. rewrite framed_cons. apply Forall_app. split; [apply be_bytes_bytes | apply Forall_app; split; assumption].
Qed.
Lemma sendable_small c fin us : sendable c fin us -> small (sent c fin us).
Proof.
  intros (_ & _ & L). split; [|exact L]. split; [|lia]. apply packed_bytes. unfold coded. rewrite <- (map_map PropsStream.unit_bytes (escape fin 0)). apply Forall_map.
  eapply Forall_impl; [|apply coded_bytes]. cbn. intros x Fx. apply escape_bytes, Fx.
Qed.
Lemma returned_lockstep opts us us' vs vs' o buf buf' : Forall (fun u => no_hrds (snd u)) us -> Forall (fun u => no_hrds (snd u)) us' ->
  Forall2 (PropsStream.unit_returned opts) us (map PropsRel.contents vs) -> Forall2 (PropsStream.unit_returned opts) us' (map PropsRel.contents vs') -> Forall2 (same_shown o buf buf') vs vs' -> Forall2 same_sent us us'.
Proof.
  intros N N' R R' S. revert us us' N N' R R'. induction S as [|v v' vs vs' (Q & _) S IH]; intros us us' N N' R R'.
  - inversion R; subst. inversion R'; subst. constructor.
  - cbn [map] in R, R'. inversion R as [|u x us0 xs Hu Hus]; subst. inversion R' as [|u' x' us0' xs' Hu' Hus']; subst. inversion N as [|? ? Nu Nus]; subst. inversion N' as [|? ? Nu' Nus']; subst.
    constructor; [|apply IH; assumption]. unfold PropsRel.contents, PropsStream.unit_returned in Hu, Hu'. destruct Hu as (H1 & H2 & _), Hu' as (H1' & H2' & _). destruct Q as (Q1 & Q2 & _).
    split; [congruence|]. eapply returned_same; try eassumption.
Qed.

(** * C89 *)
(** Two streams of the standard, each stored in some container and printed by the tool with the same options: if the same words are printed, the same units were sent, as many, in the same
    order, with the same headers and the same contents, as far as contents are ever printed. *)
Theorem C89_same_output : forall args o fs fs' stdin stdin' c c' fin fin' us us' vs vs' t t', parse_args args = Ready o -> a_nalu_length_bytes o = length_option c -> a_nalu_length_bytes o = length_option c' ->
  sendable c fin us -> sendable c' fin' us' -> dumps args fs stdin (sent c fin us) vs t -> dumps args fs' stdin' (sent c' fin' us') vs' t' -> words t = words t' -> Forall2 same_sent us us'.
Proof.
  intros args o fs fs' stdin stdin' c c' fin fin' us us' vs vs' t t' A N N' S S' H H' W.
  pose proof (C85_tool args o fs fs' stdin stdin' _ _ vs vs' t t' A (sendable_small _ _ _ S) (sendable_small _ _ _ S') H H' W) as F.
  eapply returned_lockstep; [exact (conforms_no_hrds _ _ (proj1 S)) | exact (conforms_no_hrds _ _ (proj1 S')) | exact (dumps_units args o fs stdin c fin us vs t A N S H) | exact (dumps_units args o fs' stdin' c' fin' us' vs' t' A N' S' H') | exact F].
Qed.
(** With --add-contents and start codes, the very bytes of the units are the same: also slice data, all SEI messages and units of reserved types. *)
Lemma placed_shown data ixs : forall us, List.length (placed ixs us) = List.length ixs -> map (shown_bytes data) (placed ixs us) = map (payload data) ixs.
Proof.
  assert (Le : forall ixs us, (List.length (placed ixs us) <= List.length ixs)%nat).
  { clear. induction ixs as [|ix ixs IH]; intros [|o us]; cbn [placed List.length]; try lia. rewrite app_length. specialize (IH us). destruct o; cbn [place List.length]; lia. }
  induction ixs as [|ix ixs IH]; intros [|o us] L; cbn [placed List.length] in *; try discriminate L; [reflexivity|reflexivity|]. rewrite app_length in L. pose proof (Le ixs us) as G.
  destruct o as [u|]; cbn [place List.length] in L; [|lia]. cbn [place List.app map]. rewrite (IH us) by lia. reflexivity.
Qed.
Lemma sent_length {A B} (P : A -> B -> Prop) l m : Forall2 P l m -> List.length l = List.length m.
Proof. induction 1; [reflexivity|]. cbn [List.length]. congruence. Qed.
Lemma dumps_bytes args o fs stdin long fin us vs t : parse_args args = Ready o -> a_nalu_length_bytes o = -1 -> sendable (Start_codes long) fin us -> dumps args fs stdin (sent (Start_codes long) fin us) vs t ->
  map (shown_bytes (sent (Start_codes long) fin us)) vs = coded fin us.
Proof.
  intros A N S H. pose proof (dumps_units args o fs stdin (Start_codes long) fin us vs t A N S H) as R. apply sent_length in R. rewrite map_length in R.
  destruct H as (o1 & name & rest & bs & st' & w & spb & sp & A1 & D & B & I & Rd & St & U & X & M). assert (o1 = o) by congruence. subst o1. rewrite N in St. destruct S as (C & (El & F & L) & _).
  unfold sent in *. cbn [packed] in L, St |- *. unfold stream in St. change (-1 <? 0) with true in St. cbv iota in St. rewrite ParseBitstream_spec in St by exact L.
  assert (Fs : Forall (fun u => nal_ok (snd u)) (combine long (coded fin us))) by (apply Forall_map with (f := snd) (P := nal_ok); rewrite combine_snd by exact El; exact F).
  destruct (C16_round_trip _ L Fs) as (l & E1 & E2). rewrite (C15_exact _ L) in E1. apply done_inj1 in E1. subst l. rewrite combine_snd in E2 by exact El.
  destruct (parse_all _ _ empty_state) as [[os s]|e]; [|discriminate St]. assert (Eb : bs = mkBS default_options (placed (annexb_units (annexb_stream (combine long (coded fin us)))) os)) by congruence.
  subst bs vs. cbn [bs_units] in *. rewrite placed_shown; [exact E2|]. rewrite <- R. rewrite <- (map_length (payload (annexb_stream (combine long (coded fin us))))), E2. unfold coded. rewrite map_length. reflexivity.
Qed.
Theorem C89_same_bytes : forall args o fs fs' stdin stdin' long long' fin fin' us us' vs vs' t t', parse_args args = Ready o -> a_nalu_length_bytes o = -1 -> a_add_contents o = true ->
  sendable (Start_codes long) fin us -> sendable (Start_codes long') fin' us' -> dumps args fs stdin (sent (Start_codes long) fin us) vs t -> dumps args fs' stdin' (sent (Start_codes long') fin' us') vs' t' ->
  words t = words t' -> map PropsStream.unit_bytes us = map PropsStream.unit_bytes us' /\ coded fin us = coded fin' us'.
Proof.
  intros args o fs fs' stdin stdin' long long' fin fin' us us' vs vs' t t' A N Ct S S' H H' W.
  pose proof (C85_tool args o fs fs' stdin stdin' _ _ vs vs' t t' A (sendable_small _ _ _ S) (sendable_small _ _ _ S') H H' W) as F.
  assert (E : coded fin us = coded fin' us').
  { rewrite <- (dumps_bytes args o fs stdin long fin us vs t A N S H), <- (dumps_bytes args o fs' stdin' long' fin' us' vs' t' A N S' H').
    assert (Ci : a_add_contents (imply o) = true) by (clear - Ct; destruct o; exact Ct).
    clear - F Ci. induction F as [|v v' vs vs' (_ & Q) F IH]; [reflexivity|]. cbn [map]. rewrite (Q Ci), IH. reflexivity. }
  split; [|exact E]. unfold coded in E. apply (f_equal (map UnescapeRbsp)) in E. rewrite !map_map in E.
  assert (G : forall f l, map (fun u : nal_header * PropsStream.item => UnescapeRbsp (escape f 0 (PropsStream.unit_bytes u))) l = map Done (map PropsStream.unit_bytes l)).
  { intros f l. rewrite map_map. apply map_ext. intros u. apply C09_unescape_inverts_escape, PropsStream.pack_is_bytes. }
  rewrite !G in E. clear - E. revert E. generalize (map PropsStream.unit_bytes us) (map PropsStream.unit_bytes us'). intros l. induction l as [|x l IH]; intros [|y m] E; try discriminate E; [reflexivity|].
  cbn [map] in E. f_equal; [congruence|]. apply IH. congruence.
Qed.

(** * Example: the stream of C80 (VPS, SPS, PPS, SEI, slice, access unit delimiter, reserved type) meets the hypotheses and is printed. *)
Definition C89_data : list Z := sent (Start_codes (map fst PropsStream.C80_units)) true (map snd PropsStream.C80_units).
Example C89_case : sendable (Start_codes (map fst PropsStream.C80_units)) true (map snd PropsStream.C80_units) /\
  exists o vs t, parse_args C85_args = Ready o /\ a_nalu_length_bytes o = -1 /\ a_add_contents o = true /\ dumps C85_args (tool_fs C89_data) [] C89_data vs t /\ List.length vs = 7%nat /\ (2000 < String.length t)%nat.
Proof.
  split.
  - destruct PropsStream.C80_case as [C _]. split; [exact C|]. split; [|vm_compute; reflexivity]. split; [reflexivity|]. split; [|vm_compute; reflexivity].
    unfold coded. apply Forall_map, Forall_forall. intros u _. unfold PropsStream.unit_bytes. rewrite app_assoc. apply PropsRel.escape_ok; [apply PropsStream.pack_is_bytes | apply PropsStream.pack_last | apply PropsStream.pack_last].
  - assert (H : match C85_run C89_data C85_args with Done (0, t) => (2000 <? String.length t)%nat | _ => false end = true) by (vm_compute; reflexivity).
    destruct (C85_run C89_data C85_args) as [[[|z|z] t]|e] eqn:E; try discriminate H.
    eexists. eexists. exists t. split; [reflexivity|]. split; [reflexivity|]. split; [reflexivity|]. 
    split; [eapply C85_dumps; [reflexivity | reflexivity | reflexivity | reflexivity | reflexivity | vm_compute; reflexivity | exact E]|]. split; [vm_compute; reflexivity | apply Nat.ltb_lt; exact H].
Qed.
