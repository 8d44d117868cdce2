(** C44 in full: what ParseRtpAp does with every packet.  The announced sizes are only compared with what is left of the packet; each unit is
    parsed in place, and the next one begins where the parser of the payload stopped. *)
From Coq Require Import ZArith List Bool Lia ZifyBool ZifyNat.
From Verif Require Import MBase MBitBuffer Spec BitsFacts Reader ReaderFacts Rules Syntax SyntaxSe MCommon CommonFacts PropsBits PropsCommon
  MFraming FramingFacts PropsFraming MSyntaxA SpecA FactsA Api PropsA MSyntaxB SpecB FactsB FactsRps PropsB MSps SpecSps FactsSps PropsSps
  MPps SpecPps FactsPps PropsPps MSlice SpecSlice FactsSlice PropsSlice MSei SpecSei FactsSei PropsSei MNal FactsNal PropsNal MRtp FactsRtp PropsRtp PropsQp.
Import ListNotations.
Open Scope Z_scope.
Ltac Zify.zify_post_hook ::= Z.div_mod_to_equations.

(** * Specification *)
(** [units b st us st']: from the position [b] to the end of the packet there are the units [us]; the store goes from [st] to [st'].  Per unit:
    the 16-bit size, which the rest of the packet must reach; the header; the payload, whose parser gives [payload_of] (the dispatch of C21) and
    stops at [payload_stop]; the next unit starts there. *)
Inductive units : bb -> state -> list ap_unit -> state -> Prop :=
| units_end : forall b st, rem b = [] -> units b st [] st
| units_next : forall b st size h rest us st',
    0 <= size < 2 ^ 16 -> nal_header_ok h -> rem b = enc_u 16 size ++ enc_nal_header h ++ rest -> 8 * size <= 16 + Z.of_nat (length rest) ->
    payload_fault (nal_unit_type h) st (adv b 32) = None ->
    units (payload_stop (nal_unit_type h) st (adv b 32)) (stored' (payload_of (nal_unit_type h) st (adv b 32)) st) us st' ->
    units b st (mkAU size h (payload_of (nal_unit_type h) st (adv b 32)) :: us) st'.

Lemma units_sound : forall fuel st b us st' b', wf b -> store_ok st -> ap_loop fuel st b = Ok (Some us, st') b' -> units b st us st'.
Proof.
  assert (Z0 : forall b, (0 <? Z.of_nat (length (rem b))) = false -> rem b = []) by (intros b H; destruct (rem b); [reflexivity|cbn in H; lia]).
  induction fuel as [|fuel IH]; intros st b us st' b' W S E; rewrite ap_loop_eq in E; rewrite remaining_spec in E by exact W.
  - destruct (0 <? Z.of_nat (length (rem b))) eqn:N; [discriminate E|]. injection E as <- <- <-. constructor. apply Z0, N.
  - destruct (0 <? Z.of_nat (length (rem b))) eqn:N.
    2:{ injection E as <- <- <-. constructor. apply Z0, N. }
    cbn [negb] in E. apply sbind_some in E. destruct E as (size & s1 & b1 & E1 & E). apply lift_some in E1. destruct E1 as [E1 ->].
    pose proof (wp_u_ok 16 ltac:(lia) b W) as H1. rewrite E1 in H1. destruct H1 as (l1 & T1 & U1 & ->). pose proof (steps_wf _ _ _ W T1) as W1.
    apply sbind_some in E. destruct E as (r & s2 & b2 & E2 & E). apply lift_some in E2. destruct E2 as [E2 ->]. injection E2 as <- <-.
    destruct (remaining b1 <? u32 (size * 8)) eqn:C; [discriminate|]. apply sbind_some in E. destruct E as (hd & s3 & b3 & E3 & E). apply lift_some in E3. destruct E3 as [E3 ->].
    pose proof (wp_nal_header b1 W1) as H3. rewrite E3 in H3. destruct H3 as (l3 & T3 & U3 & ->). pose proof (steps_wf _ _ _ W1 T3) as W3.
    apply sbind_some in E. destruct E as (p & s4 & b4 & E4 & E).
    pose proof (ssafe_payload (length (rem b3)) (nal_unit_type hd) st b3 W3 S (le_n _)) as H4. rewrite E4 in H4. destruct H4 as ((seg & T4) & S4 & _). pose proof (steps_wf _ _ _ W3 T4) as W4.
    apply sbind_some in E. destruct E as (us' & s5 & b5 & E5 & E). injection E as <- <- <-. pose proof (IH _ _ _ _ _ W4 S4 E5) as G.
    rewrite remaining_spec in C by exact W1. unfold u_ok in U1. unfold u32 in C. rewrite Z.mod_small in C by lia.
    destruct T1 as [T1 A1], T3 as [T3 A3]. rewrite length_enc_u in A1. rewrite enc_nal_header_length in A3. subst b1.
    assert (A : b3 = adv b 32) by (rewrite A3, adv_adv; reflexivity). rewrite A in E4, T3.
    rewrite payload_spec in E4. destruct (payload_fault (nal_unit_type hd) st (adv b 32)) eqn:PF; [discriminate|].
    assert (Ep : payload_of (nal_unit_type hd) st (adv b 32) = p) by congruence.
    assert (Es : stored' (payload_of (nal_unit_type hd) st (adv b 32)) st = s4) by congruence.
    assert (Eb : payload_stop (nal_unit_type hd) st (adv b 32) = b4) by congruence.
    rewrite <- Ep at 1. apply (units_next b st size hd (rem (adv b 32))); try assumption.
    + rewrite T1, T3. reflexivity.
    + rewrite T3, app_length, enc_nal_header_length in C. lia.
    + rewrite Es, Eb. exact G.
Qed.
Lemma units_complete b st us st' : units b st us st' -> wf b -> store_ok st -> forall fuel, (length us <= fuel)%nat -> exists b', ap_loop fuel st b = Ok (Some us, st') b'.
Proof.
  induction 1 as [b st R|b st size h rest us st' Hs Hh R Hz PF U IH]; intros W S fuel Lf; rewrite ap_loop_eq; rewrite remaining_spec by exact W.
  - rewrite R. change (negb (0 <? Z.of_nat (length (@nil bool)))) with true. cbv iota. exists b. reflexivity.
  - destruct fuel as [|fuel]; [cbn in Lf; lia|]. replace (0 <? Z.of_nat (length (rem b))) with true by (rewrite R, app_length, length_enc_u; lia). cbn [negb].
    rewrite (lift_parses _ _ _ _ _ size _ W R) by (apply (parses_u_ok 16); [lia|unfold u_ok; lia]). rewrite length_enc_u.
    pose proof (wf_adv_app _ _ _ W R) as W1. pose proof (rem_adv_app _ _ _ W R) as R1. rewrite length_enc_u in W1, R1.
    assert (Er : lift (fun b0 => Ok (remaining b0) b0) st (adv b 16) = Ok (Some (remaining (adv b 16)), st) (adv b 16)) by reflexivity.
    rewrite (sbind_eq _ _ _ _ _ _ _ Er). rewrite remaining_spec by exact W1. unfold u32 at 1. rewrite Z.mod_small by lia.
    replace (Z.of_nat (length (rem (adv b 16))) <? size * 8) with false by (rewrite R1, app_length, enc_nal_header_length; lia).
    rewrite (lift_parses _ _ _ _ _ _ _ W1 R1) by (apply parses_nal_header, Hh). rewrite enc_nal_header_length.
    pose proof (wf_adv_app _ _ _ W1 R1) as W2. rewrite enc_nal_header_length in W2. rewrite adv_adv in W2 |- *. change (16 + 16)%nat with 32%nat in *.
    pose proof (ssafe_payload (length (rem (adv b 32))) (nal_unit_type h) st (adv b 32) W2 S (le_n _)) as H4.
    assert (P : ParseNalUnitPayload (nal_unit_type h) st (adv b 32) = Ok (Some (payload_of (nal_unit_type h) st (adv b 32)), stored' (payload_of (nal_unit_type h) st (adv b 32)) st)
      (payload_stop (nal_unit_type h) st (adv b 32))) by (rewrite payload_spec, PF; reflexivity).
    rewrite P in H4. destruct H4 as ((seg & T4) & S4 & _). pose proof (steps_wf _ _ _ W2 T4) as W4.
    destruct (IH W4 S4 fuel ltac:(cbn in Lf; lia)) as (b' & E'). rewrite (sbind_eq _ _ _ _ _ _ _ P), (sbind_eq _ _ _ _ _ _ _ E'). eexists. reflexivity.
Qed.
Lemma units_count b st us st' : units b st us st' -> wf b -> store_ok st -> (length us <= length (rem b))%nat.
Proof.
  induction 1 as [b st R|b st size h rest us st' Hs Hh R Hz PF U IH]; intros W S; [cbn; lia|].
  rewrite app_assoc in R. pose proof (wf_adv_app _ _ _ W R) as W2. pose proof (rem_adv_app _ _ _ W R) as R2. rewrite app_length, length_enc_u, enc_nal_header_length in W2, R2. change (16 + 16)%nat with 32%nat in *.
  pose proof (ssafe_payload (length (rem (adv b 32))) (nal_unit_type h) st (adv b 32) W2 S (le_n _)) as H4. rewrite payload_spec, PF in H4. destruct H4 as ((seg & T4) & S4 & _).
  pose proof (steps_wf _ _ _ W2 T4) as W4. specialize (IH W4 S4). destruct T4 as [T4 _]. apply (f_equal (@length bool)) in T4. rewrite app_length in T4. rewrite R2 in T4. rewrite R, !app_length, length_enc_u, enc_nal_header_length. cbn [length]. lia.
Qed.

(** * The packets that are accepted, and what they give: in both directions *)
Theorem C44_exact : forall data rbsp st h us st', byte_string data -> store_ok st -> UnescapeRbsp data = Done rbsp ->
  ParseRtpAp data st = Done (Some (mkRA h us), st') <->
  nal_header_ok h /\ (exists body, bits_of rbsp = enc_nal_header h ++ body) /\ units (adv (mk_bb rbsp) 16) st us st'.
Proof.
  intros data rbsp st h us st' D S E. unfold ParseRtpAp. rewrite (on_data_st_eq _ _ _ _ D E). pose proof (unesc_bytes _ _ D E) as [F L]. pose proof (wf_mk _ F L) as W.
  split.
  - intros P. destruct (ParseRtpApBuffer st (mk_bb rbsp)) as [[o s1] b1|b1|e] eqn:Q; try discriminate P. injection P as -> <-.
    unfold ParseRtpApBuffer in Q. apply sbind_some in Q. destruct Q as (hd & s2 & b2 & E2 & Q). apply lift_some in E2. destruct E2 as [E2 ->].
    pose proof (wp_nal_header _ W) as H2. rewrite E2 in H2. destruct H2 as (l2 & T2 & U2 & ->). pose proof (steps_wf _ _ _ W T2) as W2.
    apply sbind_some in Q. destruct Q as (us' & s3 & b3 & E3 & Q). injection Q as <- <- <- <-.
    destruct T2 as [T2 A2]. rewrite enc_nal_header_length in A2. split; [exact U2|]. split; [exists (rem b2); exact T2|]. rewrite <- A2. exact (units_sound _ _ _ _ _ _ W2 S E3).
  - intros (Hh & (body & R) & U). change (bits_of rbsp) with (rem (mk_bb rbsp)) in R. unfold ParseRtpApBuffer. rewrite (lift_parses _ _ _ _ _ _ _ W R) by (apply parses_nal_header, Hh).
    pose proof (wf_adv_app _ _ _ W R) as W1. rewrite enc_nal_header_length in *.
    destruct (units_complete _ _ _ _ U W1 S (Datatypes.S (Z.to_nat (remaining (adv (mk_bb rbsp) 16))))) as (b' & E'); [rewrite remaining_spec by exact W1; pose proof (units_count _ _ _ _ U W1 S); lia|].
    unfold sbind at 1, bind. rewrite E'. reflexivity.
Qed.

(** The units come from the announced places iff every parser stopped at the end of its unit. *)
Inductive in_place : bb -> state -> list ap_unit -> Prop :=
| in_place_end : forall b st, in_place b st []
| in_place_next : forall b st u us, let stop := payload_stop (nal_unit_type (au_header u)) st (adv b 32) in
    pos stop = pos b + 16 + 8 * au_size u -> in_place stop (stored' (au_payload u) st) us -> in_place b st (u :: us).
Fixpoint announced_bits (us : list ap_unit) : Z := match us with [] => 0 | u :: r => 16 + 8 * au_size u + announced_bits r end.
Theorem C44_in_place : forall b st us st', wf b -> store_ok st -> units b st us st' -> in_place b st us ->
  Z.of_nat (length (rem b)) = announced_bits us.
Proof.
  intros b st us st' W S U. revert W S. induction U as [b st R|b st size h rest us st' Hs Hh R Hz PF U IH]; intros W S P; [rewrite R; reflexivity|].
  rewrite app_assoc in R. pose proof (wf_adv_app _ _ _ W R) as W2. pose proof (rem_adv_app _ _ _ W R) as R2. rewrite app_length, length_enc_u, enc_nal_header_length in W2, R2. change (16 + 16)%nat with 32%nat in *.
  pose proof (ssafe_payload (length (rem (adv b 32))) (nal_unit_type h) st (adv b 32) W2 S (le_n _)) as H4. rewrite payload_spec, PF in H4. destruct H4 as ((seg & T4) & S4 & _).
  pose proof (steps_wf _ _ _ W2 T4) as W4. assert (LR : length rest = length (rem (adv b 32))) by (rewrite R2; reflexivity). clear R2. inversion P as [|b0 st0 u0 us0 stop0 Hp Hi]; subst. cbn [au_header au_size au_payload] in *.
  specialize (IH W4 S4 Hi). cbn [announced_bits au_size]. rewrite <- IH. subst stop0. destruct T4 as [T4 A4]. rewrite A4 in Hp.
  assert (Q1 : pos (adv (adv b 32) (length seg)) = pos b + 32 + Z.of_nat (length seg)) by (rewrite !pos_adv; lia). rewrite Q1 in Hp.
  rewrite A4 in T4 |- *. apply (f_equal (@length bool)) in T4. rewrite app_length in T4. rewrite R, !app_length, length_enc_u, enc_nal_header_length. lia.
Qed.
