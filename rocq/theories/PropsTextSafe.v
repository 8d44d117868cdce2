(** What the parsers return can be printed: C51 and C68 for the printed text of parsed streams. *)
From Coq Require Import ZArith List Bool Lia String Ascii.
From Verif Require Import MBase MBitBuffer Spec Syntax MCommon MFraming Api MSyntaxA MProfile MSyntaxB MSps MPps MSlice MSei MNal FactsSlice FactsNal MRtp PropsSafe MDump PropsDump
  MText SpecText FactsText PropsText FactsTextDump.
Import ListNotations.
Open Scope string_scope.
Open Scope Z_scope.

Lemma agree_done d e level : ag d e -> e = Done tt -> exists t, fdump d level = Done t.
Proof. unfold ag, er, fdump. destruct d; [eauto|]. intros <-. discriminate. Qed.
Lemma agree_bad d e x level : ag d e -> e = Bad x -> fdump d level = Bad x.
Proof. unfold ag, er, fdump. destruct d; intros <-; [discriminate | intros H; injection H as ->; reflexivity]. Qed.

(** A NAL unit, printed with any options at any level *)
Theorem C51_text_nal : forall opts data st u st' sp o level, byte_string data -> state_ok st -> ParseNalUnit opts data st = Done (Some u, st') ->
  if (add_checksum o && negb (add_checksum opts)) || unprintable (nal_unit_type (nu_header u)) (nu_payload u)
  then fdump (text_nal sp o u) level = Bad NullDeref else exists t, fdump (text_nal sp o u) level = Done t.
Proof.
  intros opts data st u st' sp o level D S E. pose proof (C51_nal_unit opts data st u st' o D S E) as H. pose proof (ag_nal sp o u) as A.
  destruct (_ || _); [eapply agree_bad | eapply agree_done]; eassumption.
Qed.
(** A stream: every unit is printed, on a line of its own at level -1, iff no unit is unprintable. *)
Definition printed (o : options) (us : list ((sps * pps) * nal_unit)) (ok : Prop) : Prop :=
  (ok /\ exists t ts, fdump (text_bitstream o us) (-1) = Done t /\ lines t = (ts ++ [""])%list /\ List.length ts = List.length us) \/
  (~ ok /\ forall level, fdump (text_bitstream o us) level = Bad NullDeref).
Lemma printed_of o us e ok : ag (text_bitstream o us) e -> dump_result e ok -> printed o us ok.
Proof.
  intros A [[E H]|[E H]].
  - left. split; [exact H|]. destruct (agree_done _ _ (-1) A E) as (t & Ht). destruct (C68_one_line_per_unit o us t Ht) as (ts & L & Hl & _). eauto.
  - right. split; [exact H|]. intros level. eapply agree_bad; eassumption.
Qed.
Lemma ag_units o us units : map snd us = units -> ag (text_bitstream o us) (dump_bitstream (mkBS o units)).
Proof. intros <-. apply ag_bitstream_of. Qed.
Theorem C51_text_annexb : forall opts data bs us, byte_string data -> ParseBitstreamNoState opts data = Done bs -> map snd us = bs_units bs ->
  printed opts us (forall u, In u (bs_units bs) -> unprintable (nal_unit_type (nu_header u)) (nu_payload u) = false).
Proof.
  intros opts data bs us D E Hu. destruct (C51_annexb_no_state opts data bs D E) as [O R]. eapply printed_of; [|exact R].
  destruct bs as [o units]. cbn [bs_options bs_units] in *. subst o. apply ag_units, Hu.
Qed.
Theorem C51_text_length_prefixed_short : forall opts data n bs us, byte_string data -> (0 < n <= 7)%nat ->
  ParseBitstreamNALULengthNoState opts data (Z.of_nat n) = Done bs -> map snd us = bs_units bs ->
  printed opts us (forall u, In u (bs_units bs) -> unprintable (nal_unit_type (nu_header u)) (nu_payload u) = false).
Proof.
  intros opts data n bs us D Hn E Hu. destruct (C51_length_prefixed_no_state_short opts data n bs D Hn E) as [O R]. eapply printed_of; [|exact R].
  destruct bs as [o units]. cbn [bs_options bs_units] in *. subst o. apply ag_units, Hu.
Qed.
(** RTP packets and the configuration box: as in C51_rtp, C51_box_units *)
Theorem C51_text_rtp : forall data st r st' sp o level, byte_string data -> reached call_ok st -> ParseRtp data st = Done (Some r, st') ->
  (forall ty p, In (ty, p) (rtp_payloads r) -> unprintable ty p = false) -> exists t, fdump (text_rtp sp o r) level = Done t.
Proof.
  intros data st r st' sp o level D S E H. pose proof (C51_rtp data st r st' o D S E) as R. pose proof (ag_rtp sp o r) as A.
  destruct R as [[R _]|[_ R]]; [eapply agree_done; eassumption | contradiction].
Qed.
Theorem C51_text_box : forall opts data st v st' sp o level, byte_string data -> reached call_ok st -> ParseConfigurationBox opts data st = Done (Some v, st') ->
  (forall e, In e (box_units v) -> exists u, e = Some u /\ (add_checksum o = false \/ add_checksum opts = true) /\ unprintable (nal_unit_type (nu_header u)) (nu_payload u) = false) ->
  exists t, fdump (text_box sp o v) level = Done t.
Proof.
  intros opts data st v st' sp o level D S E H. pose proof (C51_box_units opts data st v st' o D S E) as R. pose proof (ag_box sp o v) as A.
  destruct R as [[R _]|[_ R]]; [eapply agree_done; eassumption | contradiction].
Qed.
(** Both cases occur: an AUD, and one without its payload *)
Example C51_text_case : exists bs, ParseBitstreamNoState (mkOpts true true false false true) [0; 0; 1; 0x46; 1; 0x50] = Done bs /\
  forall sp, fdump (text_bitstream (mkOpts true true false false true) (map (fun u => (sp, u)) (bs_units bs))) (-1) =
  Done ("nal_unit { offset: 0x00000003 length: 3 nal_unit_header { forbidden_zero_bit: 0 nal_unit_type: 35 nuh_layer_id: 0 nuh_temporal_id_plus1: 1 }"
        ++ " nal_unit_payload { aud { pic_type: 2 } } }" ++ newline_string).
Proof. eexists. split; [vm_compute; reflexivity|]. intros sp. vm_compute. reflexivity. Qed.
