(** The SPS parser reads the layout of SpecSps.v. *)
From Coq Require Import ZArith List Bool Lia ZifyBool ZifyNat.
From Verif Require Import MBase MBitBuffer Spec BitsFacts Reader ReaderFacts Rules Syntax SyntaxSe MCommon
  MSyntaxA SpecA FactsA MSyntaxB SpecB FactsB FactsRps MSps SpecSps.
Import ListNotations.
Open Scope Z_scope.

Lemma MinCb0 : MinCbSizeY_of 0 = 8.
Proof. reflexivity. Qed.
Lemma pic_size_guard kmax v : kmax < 2 ^ 31 -> 0 <= v ->
  negb ((v <? 1) || (kmax <? v)) = true -> negb ((v =? 0) || negb (u32 (8 * (v / 8)) =? v)) = true -> pic_size_ok kmax v.
Proof.
  intros Hk Hv H1 H2. assert (R : 1 <= v <= kmax) by lia. split; [exact R|].
  assert (E : u32 (8 * (v / 8)) = 8 * (v / 8)) by (unfold u32; apply Z.mod_small; lia). rewrite E in H2. lia.
Qed.
Lemma parses_pic_size kmax v : kmax < 2 ^ 31 -> pic_size_ok kmax v -> parses (read_pic_size kmax) (enc_ue v) v.
Proof.
  intros Hk [R D]. unfold read_pic_size. apply parses_app_nil. eapply parses_bind; [apply parses_ue_ok; unfold ue_ok; lia|].
  rewrite MinCb0. cbv zeta. assert (E : u32 (8 * (v / 8)) = v) by (unfold u32; rewrite Z.mod_small; lia). rewrite E.
  apply parses_guard; [lia|]. apply parses_guard; [lia|]. apply parses_ret.
Qed.
Lemma wp_pic_size kmax : kmax < 2 ^ 31 -> wp no_err (read_pic_size kmax) (fun v bs => pic_size_ok kmax v /\ bs = enc_ue v).
Proof.
  intros Hk. unfold read_pic_size. rewrite MinCb0. wrun. split; [apply pic_size_guard; auto; unfold ue_ok in *; lia|]. rewrite app_nil_r. reflexivity.
Qed.
Lemma parses_sps_ordering s : sps_ordering_ok s -> parses read_sps_ordering (enc_ordering s) s.
Proof. destruct s. unfold sps_ordering_ok, enc_ordering. cbn. intros H. split_hyps. unfold read_sps_ordering. prun. Qed.
Lemma wp_sps_ordering : wp no_err read_sps_ordering (fun s bs => sps_ordering_ok s /\ bs = enc_ordering s).
Proof. unfold read_sps_ordering. wrun. unfold sps_ordering_ok, enc_ordering. cbn. split; [conjs|reflexivity]. Qed.
Lemma parses_lt k e : 0 <= k <= 12 -> lt_ok k e -> parses (read_lt k) (enc_lt k e) e.
Proof.
  intros Hk. destruct e. unfold lt_ok, enc_lt. cbn. intros [H1 H2]. unfold read_lt. prun.
Qed.
Lemma wp_lt k : 0 <= k -> wp no_err (read_lt k) (fun e bs => lt_ok k e /\ bs = enc_lt k e).
Proof. intros Hk. unfold read_lt. wrun. unfold lt_ok, enc_lt. cbn. split; [conjs|reflexivity]. Qed.

Lemma kMax_lt : kMaxWidth < 2 ^ 31 /\ kMaxHeight < 2 ^ 31.
Proof. unfold kMaxWidth, kMaxHeight. lia. Qed.
#[export] Hint Extern 1 (kMaxWidth < _) => apply kMax_lt : parses_db wp_db.
#[export] Hint Extern 1 (kMaxHeight < _) => apply kMax_lt : parses_db wp_db.
#[export] Hint Resolve parses_pic_size parses_sps_ordering parses_lt : parses_db.
#[export] Hint Resolve wp_pic_size wp_sps_ordering wp_lt : wp_db.

(** * The list of short-term sets *)
Lemma ref_of_app idx pre post s : 0 <= ref_idx idx s < Z.of_nat (length pre) -> ref_of idx (pre ++ post) s = ref_of idx pre s.
Proof. intros H. unfold ref_of, znth. rewrite app_nth1 by lia. reflexivity. Qed.
Lemma rps_ok_app idx num pre post m s : idx <= Z.of_nat (length pre) -> rps_ok idx num pre m s <-> rps_ok idx num (pre ++ post) m s.
Proof.
  intros Hi. unfold rps_ok. destruct (nz (inter_ref_pic_set_prediction_flag s)); [|tauto].
  split; intros (H1 & H2 & H3 & H4 & H5 & H); (split; [exact H1|]; split; [exact H2|]; split; [exact H3|]; split; [exact H4|]; split; [exact H5|]).
  - rewrite ref_of_app by lia. exact H.
  - rewrite ref_of_app in H by lia. exact H.
Qed.
Lemma rps_derived_app idx num pre post m s : idx <= Z.of_nat (length pre) -> rps_ok idx num pre m s ->
  rps_derived idx pre s <-> rps_derived idx (pre ++ post) s.
Proof.
  intros Hi H. unfold rps_derived, rps_ok in *. destruct (nz (inter_ref_pic_set_prediction_flag s)); [|split; discriminate].
  rewrite ref_of_app by lia. tauto.
Qed.
Lemma all_from_app {A} (P : Z -> A -> Prop) l1 l2 : forall i, all_from i P (l1 ++ l2) <-> all_from i P l1 /\ all_from (i + Z.of_nat (length l1)) P l2.
Proof.
  induction l1 as [|a l1 IH]; intros i.
  - cbn [app length]. change (all_from i P []) with True. rewrite Z.add_0_r. tauto.
  - change (P i a /\ all_from (i + 1) P (l1 ++ l2) <-> (P i a /\ all_from (i + 1) P l1) /\ all_from (i + Z.of_nat (length (a :: l1))) P l2).
    rewrite IH. replace (i + 1 + Z.of_nat (length l1)) with (i + Z.of_nat (length (a :: l1))) by (cbn [length]; lia). tauto.
Qed.
Lemma enc_from_app {A} (enc : Z -> A -> list bool) l1 l2 : forall i,
  enc_from i enc (l1 ++ l2) = enc_from i enc l1 ++ enc_from (i + Z.of_nat (length l1)) enc l2.
Proof.
  induction l1 as [|a l1 IH]; intros i.
  - cbn [app length]. rewrite Z.add_0_r. reflexivity.
  - change (enc i a ++ enc_from (i + 1) enc (l1 ++ l2) = (enc i a ++ enc_from (i + 1) enc l1) ++ enc_from (i + Z.of_nat (length (a :: l1))) enc l2).
    rewrite IH, <- app_assoc. do 3 f_equal. cbn [length]. lia.
Qed.
Lemma all_from_and {A} (P Q : Z -> A -> Prop) l : forall i, all_from i P l -> all_from i Q l -> all_from i (fun i a => P i a /\ Q i a) l.
Proof. induction l as [|a l IH]; intros i H1 H2; [exact I|]. destruct H1, H2. split; [split; assumption|]. apply IH; assumption. Qed.
(** What [all_from] says of prefixes *)
Lemma all_from_ok_shape num l m : all_from 0 (fun i s => rps_ok i num l m s) l -> Forall rps_shape l.
Proof.
  generalize l at 1 as full. generalize 0 as i. induction l as [|s l IH]; intros i full H; [constructor|]. destruct H as [H1 H2].
  constructor; [apply H1|eapply IH, H2].
Qed.

(** The bound of the set number i. *)
Definition bound (n : nat) : Z := 2 ^ 28 + 32768 * Z.of_nat n.
Lemma explicit_bounded s : rps_shape s -> nz (inter_ref_pic_set_prediction_flag s) = false -> poc_limits s -> rps_bounded (2 ^ 28) s.
Proof.
  intros (N0 & N1 & N16 & G0 & G1) Hi L. destruct (L Hi) as [L0 L1].
  assert (D : forall sign l, sign = 1 \/ sign = -1 -> forall B p, Forall (fun e : Z * Z => 0 <= fst e < 2 ^ 32 /\ u_ok 1 (snd e)) l ->
    Forall (fun e => fst e <= 2 ^ 24 - 2) l -> small B p -> 0 <= B -> Forall (small (B + 2 ^ 24 * Z.of_nat (length l))) (delta_pocs sign p l)).
  { intros sign l Hs. induction l as [|e l IH]; intros B p F F' Hp HB; [constructor|]. inversion F; subst. inversion F'; subst. cbn [delta_pocs length].
    assert (S : small (B + 2 ^ 24) (p + sign * (fst e + 1))) by (unfold small in *; destruct Hs as [-> | ->]; lia).
    constructor; [unfold small in *; lia|]. eapply Forall_impl; [|apply (IH (B + 2 ^ 24)); [assumption|assumption|exact S|lia]]. unfold small. intros. lia. }
  pose proof (D (-1) (rps_s0 s) (or_intror eq_refl) 0 0 G0 L0 ltac:(unfold small; lia) ltac:(lia)) as H0.
  pose proof (D 1 (rps_s1 s) (or_introl eq_refl) 0 0 G1 L1 ltac:(unfold small; lia) ltac:(lia)) as H1.
  split; (eapply Forall_impl; [|eassumption]); unfold small; intros a Ha; lia.
Qed.
Lemma rps_bounded_mono B B' s : B <= B' -> rps_bounded B s -> rps_bounded B' s.
Proof. intros H [H1 H2]. split; (eapply Forall_impl; [|eassumption]); cbv beta; intros; lia. Qed.
Lemma bound_next n s : rps_shape s -> poc_limits s -> (nz (inter_ref_pic_set_prediction_flag s) = true -> rps_bounded (bound n + 32768) s) -> rps_bounded (bound (S n)) s.
Proof.
  intros Sh L H. destruct (nz (inter_ref_pic_set_prediction_flag s)) eqn:Ei.
  - eapply rps_bounded_mono; [|apply H; reflexivity]. unfold bound. lia.
  - eapply rps_bounded_mono; [|apply explicit_bounded; assumption]. unfold bound. lia.
Qed.
Lemma sets_bounded_of n l : (n <= 64)%nat -> Forall (rps_bounded (bound n)) l -> sets_bounded (bound n) l.
Proof. intros Hn F. unfold bound in *. split; [lia|]. split; [lia|exact F]. Qed.

Lemma big_entry_run l : Forall (fun e => fst e <= 2 ^ 24 - 2) l \/ zrun 24 (flat_map enc_rps_entry l).
Proof.
  induction l as [|[d u] l [IH|IH]].
  - left. constructor.
  - destruct (Z_le_dec d (2 ^ 24 - 2)) as [L|L]; [left; constructor; assumption|]. right.
    cbn [flat_map]. apply zrun_app_l. unfold enc_rps_entry. cbn [concat fst snd]. apply zrun_app_l, enc_ue_zrun. lia.
  - right. cbn [flat_map]. apply zrun_app_r, IH.
Qed.
Lemma poc_limits_run idx num s : poc_limits s \/ zrun 24 (enc_rps idx num s).
Proof.
  unfold poc_limits, enc_rps. destruct (nz (inter_ref_pic_set_prediction_flag s)); [left; discriminate|].
  destruct (big_entry_run (rps_s0 s)) as [L0|Z0]; [destruct (big_entry_run (rps_s1 s)) as [L1|Z1]; [left; auto|]|]; right; cbn [concat].
  - apply zrun_app_r, zrun_app_r, zrun_app_r, zrun_app_r, zrun_app_l, Z1.
  - apply zrun_app_r, zrun_app_r, zrun_app_r, zrun_app_l, Z0.
Qed.
(** The overflow of the derivation needs a set outside these limits. *)
Lemma wp_rps_E (E : errs) n num sets m : sets_ok (Z.of_nat n) sets -> (n <= 64)%nat -> 0 <= m <= 16 ->
  (Forall poc_limits sets -> Forall (rps_bounded (bound n)) sets) -> (Forall poc_limits sets \/ forall l, E SignedOverflow l) ->
  wp E (ParseStRefPicSet (Z.of_nat n) num sets m) (fun s bs => (rps_ok (Z.of_nat n) num sets m s /\ bs = enc_rps (Z.of_nat n) num s) /\
      (Forall poc_limits sets -> rps_derived (Z.of_nat n) sets s /\ (nz (inter_ref_pic_set_prediction_flag s) = true -> rps_bounded (bound n + 32768) s))).
Proof.
  intros So Hn Hm Hd HL b W. pose proof (wp_rps (Z.of_nat n) num sets m So Hm b W) as H1.
  assert (H2 : Forall poc_limits sets -> _) by (intros F; exact (wp_rps_bounded (bound n) (Z.of_nat n) num sets m So Hm (sets_bounded_of n sets Hn (Hd F)) b W)).
  destruct (ParseStRefPicSet (Z.of_nat n) num sets m b) as [s b'|b'|e] eqn:E1; [|exact H1|].
  - destruct H1 as (bs & S & H1). exists bs. split; [exact S|]. split; [exact H1|]. intros F.
    destruct (H2 F) as (_ & _ & _ & _ & H3 & H4). auto.
  - cbn in H1. subst e. destruct HL as [F|HL]; [destruct (H2 F)|apply HL].
Qed.

Lemma wp_rps_loop num k : forall E sets, ovf_in E -> (length sets + k <= 64)%nat -> all_from 0 (fun i s => rps_ok i num sets 15 s) sets ->
  (Forall poc_limits sets -> Forall (rps_bounded (bound (length sets))) sets /\ rps_sets_derived sets) ->
  (Forall poc_limits sets \/ forall l, E SignedOverflow l) ->
  wp E (rps_loop k num sets) (fun l bs => exists suf, l = sets ++ suf /\ length suf = k /\
    all_from 0 (fun i s => rps_ok i num l 15 s) l /\ (Forall poc_limits l -> rps_sets_derived l) /\
    bs = enc_from (Z.of_nat (length sets)) (fun i => enc_rps i num) suf).
Proof.
  induction k as [|k IH]; intros E sets HE Hl Ha Hd HL; cbn [rps_loop].
  - apply wp_ret. exists []. rewrite app_nil_r. split; [reflexivity|]. split; [reflexivity|]. split; [exact Ha|]. split; [|reflexivity].
    intros F. apply Hd, F.
  - set (n := length sets) in *. assert (So : sets_ok (Z.of_nat n) sets).
    { split; [lia|]. split; [lia|]. eapply all_from_ok_shape, Ha. }
    eapply wp_bind_run; [exact HE|apply (wp_rps_E E n num sets 15 So ltac:(lia) ltac:(lia)); [apply Hd|exact HL]|].
    + cbv beta. intros s bs ((O & ->) & Hs).
      assert (Ha' : all_from 0 (fun i x => rps_ok i num (sets ++ [s]) 15 x) (sets ++ [s])).
      { apply all_from_app. split.
        - eapply all_from_impl; [|exact Ha]. cbv beta. intros i a Hi Hai. apply rps_ok_app; [lia|exact Hai].
        - split; [|exact I]. rewrite Z.add_0_l. apply rps_ok_app; [lia|exact O]. }
      assert (Hd' : Forall poc_limits (sets ++ [s]) -> Forall (rps_bounded (bound (length (sets ++ [s])))) (sets ++ [s]) /\ rps_sets_derived (sets ++ [s])).
      { intros F. apply Forall_app in F. destruct F as [F Fs]. inversion Fs as [|? ? Ps _]; subst. destruct (Hd F) as [Bd Dd]. destruct (Hs F) as [Ds Bs].
        rewrite app_length. cbn [length]. replace (length sets + 1)%nat with (S n) by (unfold n; lia). split.
        - apply Forall_app. split; [eapply Forall_impl; [|exact Bd]; intros a; apply rps_bounded_mono; unfold bound; lia|].
          constructor; [|constructor]. apply bound_next; [apply O|exact Ps|exact Bs].
        - apply all_from_app. split.
          + assert (Z : all_from 0 (fun i s => rps_ok i num sets 15 s /\ rps_derived i sets s) sets).
            { apply all_from_and; [exact Ha|exact Dd]. }
            eapply all_from_impl; [|exact Z]. cbv beta. intros i a Hi [Hoi Hdi]. apply (proj1 (rps_derived_app i num sets [s] 15 a ltac:(lia) Hoi)), Hdi.
          + split; [|exact I]. rewrite Z.add_0_l. apply (proj1 (rps_derived_app (Z.of_nat n) num sets [s] 15 s ltac:(lia) O)), Ds. }
      assert (G : forall E', ovf_in E' -> (Forall poc_limits (sets ++ [s]) \/ forall l, E' SignedOverflow l) ->
        wp E' (rps_loop k num (sets ++ [s])) (fun l bs => exists suf, l = sets ++ suf /\ length suf = S k /\
          all_from 0 (fun i s => rps_ok i num l 15 s) l /\ (Forall poc_limits l -> rps_sets_derived l) /\
          enc_rps (Z.of_nat n) num s ++ bs = enc_from (Z.of_nat n) (fun i => enc_rps i num) suf)).
      { intros E' HE' HL'.
        eapply wp_weaken; [apply (IH E' (sets ++ [s]) HE' ltac:(rewrite app_length; cbn [length]; lia) Ha' Hd' HL')|]. cbv beta.
        intros l bs (suf & -> & L & A & D & ->). exists (s :: suf). rewrite <- app_assoc. cbn [app]. split; [reflexivity|]. split; [cbn [length]; lia|].
        rewrite <- app_assoc in A, D. split; [exact A|]. split; [exact D|]. rewrite app_length. cbn [length].
        change (enc_from (Z.of_nat n) (fun i => enc_rps i num) (s :: suf)) with (enc_rps (Z.of_nat n) num s ++ enc_from (Z.of_nat n + 1) (fun i => enc_rps i num) suf).
        replace (Z.of_nat (length sets + 1)) with (Z.of_nat n + 1) by lia. reflexivity. }
      destruct HL as [HL|HL]; [|left; apply G; auto].
      destruct (poc_limits_run (Z.of_nat n) num s) as [P|Zr].
      * left. apply G; [exact HE|]. left. apply Forall_app. auto.
      * right. split; [exact Zr|]. apply G; [apply ovf_in_any|]. right. reflexivity.
Qed.

Definition rps_sets_out (num : Z) (l : list rps) : Prop := rps_sets_ok num l /\ (Forall poc_limits l -> rps_sets_derived l).
Lemma wp_rps_sets num : 0 <= num <= 64 ->
  wp ovf_only (read_rps_sets num) (fun l bs => rps_sets_out num l /\ bs = enc_from 0 (fun i => enc_rps i num) l).
Proof.
  intros Hn. unfold read_rps_sets. eapply wp_weaken; [apply wp_rps_loop; [apply ovf_in_only|cbn [length]; lia|exact I|intros _; split; [constructor|exact I]|left; constructor]|].
  cbv beta. intros l bs (suf & -> & L & A & D & ->). cbn [app] in *. split; [|reflexivity]. split; [|exact D]. split; [exact L|exact A].
Qed.

Lemma parses_rps_loop num suf : forall sets b rest, wf b -> (length sets + length suf <= 64)%nat ->
  all_from 0 (fun i s => rps_ok i num (sets ++ suf) 15 s) (sets ++ suf) -> Forall poc_limits (sets ++ suf) ->
  rps_sets_derived (sets ++ suf) -> Forall (rps_bounded (bound (length sets))) sets ->
  rem b = enc_from (Z.of_nat (length sets)) (fun i => enc_rps i num) suf ++ rest ->
  rps_loop (length suf) num sets b = Ok (sets ++ suf) (adv b (length (enc_from (Z.of_nat (length sets)) (fun i => enc_rps i num) suf))).
Proof.
  induction suf as [|s suf IH]; intros sets b rest W Hl Ha Fp Hd Bd R; cbn [length rps_loop].
  - change (enc_from (Z.of_nat (length sets)) (fun i => enc_rps i num) []) with (@nil bool). cbn [length]. rewrite adv_0, app_nil_r by assumption. reflexivity.
  - set (n := length sets) in *. cbn [length] in Hl.
    change (enc_from (Z.of_nat n) (fun i => enc_rps i num) (s :: suf)) with (enc_rps (Z.of_nat n) num s ++ enc_from (Z.of_nat n + 1) (fun i => enc_rps i num) suf) in *.
    rewrite <- app_assoc in R.
    assert (Fs : Forall rps_shape (sets ++ s :: suf)) by (eapply all_from_ok_shape, Ha).
    pose proof Ha as Ha0. apply all_from_app in Ha. destruct Ha as [Ha1 [Ha2 Ha3]]. rewrite Z.add_0_l in Ha2. fold n in Ha2.
    pose proof Hd as Hd0. apply all_from_app in Hd. destruct Hd as [Hd1 [Hd2 Hd3]]. rewrite Z.add_0_l in Hd2. fold n in Hd2.
    assert (O : rps_ok (Z.of_nat n) num sets 15 s) by (apply (proj2 (rps_ok_app (Z.of_nat n) num sets (s :: suf) 15 s ltac:(lia))), Ha2).
    assert (D : rps_derived (Z.of_nat n) sets s) by (apply (proj2 (rps_derived_app (Z.of_nat n) num sets (s :: suf) 15 s ltac:(lia) O)), Hd2).
    assert (So : sets_ok (Z.of_nat n) sets). { split; [lia|]. split; [lia|]. apply Forall_app in Fs. tauto. }
    assert (Sb : sets_bounded (bound n) sets) by (apply sets_bounded_of; [lia|exact Bd]).
    pose proof (parses_rps (bound n) (Z.of_nat n) num sets 15 s So ltac:(lia) Sb O D b _ W R) as E.
    unfold bind. rewrite E.
    assert (Bn : rps_bounded (bound (S n)) s).
    { pose proof (wp_rps_bounded (bound n) (Z.of_nat n) num sets 15 So ltac:(lia) Sb b W) as H2. rewrite E in H2.
      destruct H2 as (_ & _ & _ & _ & _ & H4). apply bound_next; [apply O| |exact H4]. apply Forall_app in Fp. destruct Fp as [_ Fp]. inversion Fp; assumption. }
    assert (EA : sets ++ s :: suf = (sets ++ [s]) ++ suf) by (rewrite <- app_assoc; reflexivity).
    assert (LN : Z.of_nat (length (sets ++ [s])) = Z.of_nat n + 1) by (rewrite app_length; cbn [length]; lia).
    rewrite EA in *. specialize (IH (sets ++ [s]) (adv b (length (enc_rps (Z.of_nat n) num s))) rest). rewrite LN in IH.
    rewrite IH.
    + rewrite adv_adv, app_length. reflexivity.
    + eapply wf_adv_app; eassumption.
    + rewrite app_length. cbn [length]. lia.
    + exact Ha0.
    + exact Fp.
    + exact Hd0.
    + rewrite app_length. cbn [length]. replace (length sets + 1)%nat with (S n) by (unfold n; lia). apply Forall_app. split; [|constructor; [exact Bn|constructor]].
      eapply Forall_impl; [|exact Bd]. intros a. apply rps_bounded_mono. unfold bound. lia.
    + rewrite (rem_adv_app _ _ _ W R). reflexivity.
Qed.
Lemma parses_rps_sets num l : 0 <= num <= 64 -> rps_sets_std num l -> parses (read_rps_sets num) (enc_from 0 (fun i => enc_rps i num) l) l.
Proof.
  intros Hn ((L & A) & P & D) b rest W R. unfold read_rps_sets. rewrite <- L.
  apply (parses_rps_loop num l [] b rest W); try assumption; [cbn [length]; lia|constructor].
Qed.
#[export] Hint Resolve parses_rps_sets wp_rps_sets : parses_db wp_db.

(** * The whole structure *)
Definition sps_ok_in : sps -> Prop := sps_ok false 0 sl_range rps_sets_std.
Definition sps_ok_out : sps -> Prop := sps_ok false 0 se_ok rps_sets_out.
Global Arguments enc_sps : simpl never.
Global Arguments sps_ok : simpl never.
Global Arguments enc_lt : simpl never.
Global Arguments lt_ok : simpl never.
Global Arguments pic_size_ok : simpl never.
Global Arguments sps_ordering_ok : simpl never.
Global Arguments rps_sets_std : simpl never.
Global Arguments rps_sets_out : simpl never.
Global Arguments enc_rps : simpl never.
Global Arguments kMaxWidth : simpl never.
Global Arguments kMaxHeight : simpl never.

Lemma parses_u1_ext v : u_ok 1 v -> parses ParseSpsMultilayerExtension (enc_u 1 v) v.
Proof. intros H. apply (parses_u_ok 1); [lia|exact H]. Qed.
Lemma wp_u1_ext : wp no_err ParseSpsMultilayerExtension (fun v bs => u_ok 1 v /\ bs = enc_u 1 v).
Proof. apply (wp_u_ok 1). lia. Qed.
#[export] Hint Resolve parses_u1_ext : parses_db.
#[export] Hint Resolve wp_u1_ext : wp_db.

Lemma pic_size_le kmax v : pic_size_ok kmax v -> kmax = kMaxWidth \/ kmax = kMaxHeight -> 1 <= v <= 16888.
Proof. intros [H _] [-> | ->]; exact H. Qed.
Ltac pic_sizes := repeat match goal with H : pic_size_ok ?k ?v |- _ => 
  lazymatch goal with _ : 1 <= v <= 16888 |- _ => fail | _ => pose proof (pic_size_le k v H ltac:(auto)) end end.

#[export] Hint Extern 2 (0 <= _ <= _) => (unfold ue_le in *; lia) : parses_db wp_db.
#[export] Hint Extern 2 (0 <= _) => (unfold ue_le in *; lia) : parses_db wp_db.
Lemma parses_sps s : sps_ok_in s -> parses ParseSpsBody (enc_sps false s) s.
Proof.
  destruct s. unfold sps_ok_in, sps_ok, enc_sps. cbn. intros H. split_hyps. unfold ParseSpsBody. pic_sizes.
  prun.
Qed.
Lemma wpa_sps : wpa ovf_only ParseSpsBody sps_ok_out (enc_sps false).
Proof.
  unfold ParseSpsBody, wpa. do 10 astep. pic_sizes. arun.
  unfold sps_ok_out, sps_ok, enc_sps. cbn. split; [conjs|agrees].
Qed.
