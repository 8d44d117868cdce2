(** C95: streams whose SPSs are those of the standard. *)
From Coq Require Import ZArith List Bool Lia.
From Verif Require Import MBase MBitBuffer Spec BitsFacts Reader ReaderFacts Rules Syntax SyntaxSe MCommon CommonFacts PropsBits PropsCommon
  MFraming FramingFacts PropsFraming MSyntaxA SpecA FactsA Api PropsA MSyntaxB SpecB FactsB FactsRps PropsB MSps SpecSps FactsSps PropsSps
  MPps SpecPps FactsPps PropsPps MSlice SpecSlice FactsSlice PropsSlice SpecSliceStd PropsSliceStd MSei SpecSei FactsSei PropsSei MNal FactsNal PropsNal MRtp FactsRtp PropsQp PropsRel PropsStream SpecLimits PropsLimits.
Import ListNotations.
Open Scope Z_scope.

(** As [conforms] of C80, but an SPS only has to be one of the standard, for a level up to 6.2; no limit of the parser occurs. *)
Definition standard_unit (sent : list item) (u : nal_header * item) : Prop :=
  match snd u with
  | Sps s => nal_header_ok (fst u) /\ nal_unit_type (fst u) = 33 /\ sps_of_level s /\ window_condition s /\ sps_no_deviation s /\ Z.of_nat (length (unit_bytes u)) < 2 ^ 32
  | _ => unit_conforms sent u
  end.
Fixpoint standard_stream (sent : list item) (us : list (nal_header * item)) : Prop :=
  match us with [] => True | u :: r => standard_unit sent u /\ standard_stream (sent ++ [snd u]) r end.
Lemma standard_conforms us : forall sent, standard_stream sent us -> conforms sent us.
Proof.
  induction us as [|u r IH]; intros sent S; [exact I|]. destruct S as (U & S). split; [|apply IH, S].
  unfold standard_unit in U. destruct u as [h it]. cbn [fst snd] in *. destruct it; try exact U.
  destruct U as (H & T & L & W & N & B). split; [exact H|]. split; [|exact B]. split; [exact T|]. split; [apply level_std; assumption | exact N].
Qed.
(** Every such stream is returned exactly, in Annex B framing and with length prefixes. *)
Theorem C95_annexb : forall opts fin us, standard_stream [] (map snd us) -> Z.of_nat (length (sent_annexb fin us)) < 2 ^ 64 ->
  exists bs st, ParseBitstream opts (sent_annexb fin us) empty_state = Done (bs, st) /\ Forall2 (unit_returned opts) (map snd us) (map contents (bs_units bs)) /\
    forall id, option_map fst (st_sps st id) = last_sps id (map snd (map snd us)) /\ option_map fst (st_pps st id) = last_pps id (map snd (map snd us)).
Proof. intros opts fin us S. apply C80_annexb, standard_conforms, S. Qed.
Theorem C95_length_prefixed : forall opts fin us n, standard_stream [] us -> (0 < n)%nat -> Z.of_nat n < 2 ^ 63 ->
  let nals := map (fun u => escape fin 0 (unit_bytes u)) us in
  Forall (fun x => Z.of_nat (length x) < 256 ^ Z.of_nat n) nals -> Z.of_nat (length (framed n nals)) < 2 ^ 63 -> Z.of_nat (length (sent_annexb fin (map (pair true) us))) < 2 ^ 64 ->
  exists bs st, ParseBitstreamNALULength opts (framed n nals) (Z.of_nat n) empty_state = Done (bs, st) /\ Forall2 (unit_returned opts) us (map contents (bs_units bs)).
Proof. intros opts fin us n S. apply C80_length_prefixed, standard_conforms, S. Qed.
(** A stream that is nothing but the SPS of C95_case *)
Definition C95_unit : nal_header * item := (mkNH 0 33 0 1, Sps C95_sps_ex).
Example C95_stream_case : standard_stream [] [C95_unit] /\ Z.of_nat (length (sent_annexb false [(true, C95_unit)])) < 2 ^ 64.
Proof.
  split; [|vm_compute; reflexivity]. split; [|exact I]. destruct C95_case as (L & N & W & _). cbn [standard_unit snd fst C95_unit].
  split; [repeat split; vm_compute; (reflexivity || discriminate)|]. split; [reflexivity|]. split; [exact L|]. split; [exact W|]. split; [exact N | vm_compute; reflexivity].
Qed.
