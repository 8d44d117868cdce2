(** Structures with se(v) fields.  ReadSignedExponentialGolomb misreads code numbers >= 2^31 - 1 (codewords with at
    least 31 leading zeros): see C03.  For such structures soundness is stated with [agree]: the consumed bits are the
    encoding of the result up to aliased codewords (see [agree]). *)
From Coq Require Import ZArith List Bool Lia ZifyBool ZifyNat.
From Verif Require Import MBase MBitBuffer Spec BitsFacts Reader ReaderFacts Rules Syntax.
Import ListNotations.
Open Scope Z_scope.
Ltac Zify.zify_post_hook ::= Z.div_mod_to_equations.

(** [agree bs e]: [bs] is [e], except that some codewords of values v - 2^31 (2^30 < v < 2^31) may be replaced by those of v, which
    ReadSignedExponentialGolomb takes for v - 2^31 (C03). *)
Inductive agree : list bool -> list bool -> Prop :=
| agree_nil : agree [] []
| agree_bit x a b : agree a b -> agree (x :: a) (x :: b)
| agree_alias v a b : 2 ^ 30 < v < 2 ^ 31 -> agree a b -> agree (enc_se v ++ a) (enc_se (v - 2 ^ 31) ++ b).

Lemma agree_refl l : agree l l.
Proof. induction l; constructor; assumption. Qed.
Lemma agree_app l1 l2 e1 e2 : agree l1 e1 -> agree l2 e2 -> agree (l1 ++ l2) (e1 ++ e2).
Proof. intros H1 H2. induction H1; cbn [app]; rewrite <- ?app_assoc; [assumption| |]; constructor; assumption. Qed.
Lemma agree_nil_app l1 e1 : agree l1 e1 -> agree (l1 ++ []) e1.
Proof. rewrite app_nil_r. exact (fun H => H). Qed.
Lemma enc_se_zrun n v : 2 ^ Z.of_nat n - 1 <= 2 * v - 1 \/ 2 ^ Z.of_nat n - 1 <= - 2 * v -> zrun n (enc_se v).
Proof.
  intros H. unfold enc_se. apply enc_ue_zrun. unfold ue_of_se. assert (0 < 2 ^ Z.of_nat n) by (apply Z.pow_pos_nonneg; lia).
  destruct (Z.ltb_spec 0 v); lia.
Qed.
(** Without 31 consecutive zero bits there is no such codeword. *)
Lemma agree_eq bs e : agree bs e -> bs = e \/ zrun 31 bs.
Proof.
  induction 1 as [|x a b H [->|IH]|v a b Hv H IH]; [auto|auto| |].
  - right. apply (zrun_app_r 31 [x]). exact IH.
  - right. apply zrun_app_l, enc_se_zrun. lia.
Qed.

Definition wpa (E : errs) {A} (m : M A) (P : A -> Prop) (enc : A -> list bool) : Prop :=
  wp E m (fun a bs => P a /\ agree bs (enc a)).

Lemma wpa_exact E {A} (m : M A) P enc : wp E m (fun a bs => P a /\ bs = enc a) -> wpa E m P enc.
Proof. intros H. eapply wp_weaken; [exact H|]. cbv beta. intros a bs [Ha ->]. split; [exact Ha|apply agree_refl]. Qed.

(** [E] allows the overflow of ReadSignedExponentialGolomb. *)
Definition ovf_in (E : errs) : Prop := forall l, zrun 24 l -> E SignedOverflow l.
Lemma ovf_in_only : ovf_in ovf_only.
Proof. intros l H. split; [reflexivity|exact H]. Qed.
Lemma wpa_se (E : errs) : ovf_in E -> wpa E ReadSignedExponentialGolomb se_ok enc_se.
Proof.
  intros HE b W. unfold ReadSignedExponentialGolomb, bind at 1. pose proof (wp_ue b W) as U.
  destruct (ReadExponentialGolomb b) as [k b'|b'|e]; [|exact U|destruct U].
  destruct U as (bs & St & Hk & ->). destruct (Z.eq_dec k (2 ^ 31 - 1)) as [->|Hne].
  { apply HE. destruct St as [-> _]. apply zrun_app_l, enc_ue_zrun. lia. }
  rewrite se_model_spec by assumption. exists (enc_ue k). split; [assumption|].
  assert (G : k < 2 ^ 31 \/ Z.even k = true -> se_ok (se_of_ue k) /\ agree (enc_ue k) (enc_se (se_of_ue k))).
  { intros H. split.
    - unfold se_ok, se_of_ue. pose proof (Zmod_even k). destruct (Z.even k); lia.
    - unfold enc_se. rewrite ue_of_se_of_ue by lia. apply agree_refl. }
  destruct (Z.ltb_spec k (2 ^ 31)) as [L|L]; [apply G; auto|]. destruct (Z.even k) eqn:Ev; [apply G; auto|]. cbn [orb].
  pose proof (Zmod_even k) as M. rewrite Ev in M.
  assert (Q : Z.quot (k + 1 - 2 ^ 32) 2 = (k + 1) / 2 - 2 ^ 31).
  { replace (k + 1 - 2 ^ 32) with (((k + 1) / 2 - 2 ^ 31) * 2) by lia. apply Z.quot_mul. lia. }
  rewrite Q. split; [unfold se_ok; lia|].
  replace (enc_ue k) with (enc_se ((k + 1) / 2) ++ []).
  - rewrite <- (app_nil_r (enc_se ((k + 1) / 2 - 2 ^ 31))). apply agree_alias; [lia|constructor].
  - rewrite app_nil_r. unfold enc_se, ue_of_se. destruct (Z.ltb_spec 0 ((k + 1) / 2)); [f_equal; lia|lia].
Qed.
(** A value outside this range had a long codeword. *)
Lemma agree_se_zrun bs v : agree bs (enc_se v) -> - 2 ^ 23 < v < 2 ^ 23 \/ zrun 24 bs.
Proof.
  intros H. destruct (agree_eq _ _ H) as [->|Z31].
  - destruct (Z_lt_dec (- 2 ^ 23) v); [destruct (Z_lt_dec v (2 ^ 23)); [auto|]|]; right; apply enc_se_zrun; lia.
  - right. eapply zrun_le; [|exact Z31]. lia.
Qed.

Lemma wpa_when E (c : bool) {A} (m : M A) (d : A) P enc :
  (c = true -> wpa E m P enc) -> wpa E (when c m d) (optf c P d) (fun a => opt c (enc a)).
Proof.
  intros H. destruct c; cbn.
  - apply H. reflexivity.
  - apply wp_ret. split; [reflexivity|apply agree_refl].
Qed.

Lemma wpa_some E {A} (m : M A) P enc : wpa E m P enc -> wpa E (some m) (is_some P) (enc_opt enc).
Proof.
  intros H. unfold some. eapply wp_bind; [exact H|]. cbv beta. intros a bs [Ha Hb]. apply wp_ret. rewrite app_nil_r. split; assumption.
Qed.

Lemma seqR_agree {A} (P : Z -> A -> Prop) (enc : Z -> A -> list bool) l : forall i bs,
  seqR (fun i a bs => P i a /\ agree bs (enc i a)) i l bs -> all_from i P l /\ agree bs (enc_from i enc l).
Proof.
  induction l as [|a l IH]; intros i bs H; cbn in H.
  - subst. split; [exact I|apply agree_refl].
  - destruct H as (b1 & b2 & -> & (Pa & Ha) & H). apply IH in H. destruct H as [H1 H2]. split.
    + split; assumption.
    + change (agree (b1 ++ b2) (enc i a ++ enc_from (i + 1) enc l)). apply agree_app; assumption.
Qed.
Lemma wpa_veci E {A} n (body : Z -> M A) (P : Z -> A -> Prop) (enc : Z -> A -> list bool) :
  (forall j, 0 <= j < n -> wpa E (body j) (P j) (enc j)) -> wpa E (collect n body) (veci n P) (enc_from 0 enc).
Proof.
  intros H. eapply wp_weaken; [apply (wp_collect_rel E body (fun i a bs => P i a /\ agree bs (enc i a)) n H)|].
  cbv beta. intros l bs (L & S). apply seqR_agree in S. destruct S. split; [split|]; assumption.
Qed.
Lemma wpa_vec E {A} n (body : Z -> M A) (P : A -> Prop) (enc : A -> list bool) :
  (forall j, 0 <= j < n -> wpa E (body j) P enc) -> wpa E (collect n body) (vec n P) (flat_map enc).
Proof.
  intros H. eapply wp_weaken; [apply (wpa_veci E n body (fun _ => P) (fun _ => enc) H)|].
  cbv beta. intros l bs ((L & F) & Hb). rewrite enc_from_const in Hb. rewrite all_from_const in F. split; [split|]; assumption.
Qed.

Lemma wpa_bind E {A B} (m : M A) (f : A -> M B) P enc Q :
  wpa E m P enc -> (forall a bs, P a -> agree bs (enc a) -> wp E (f a) (fun c bs' => Q c (bs ++ bs'))) -> wp E (bind m f) Q.
Proof. intros H1 H2. eapply wp_bind; [exact H1|]. cbv beta. intros a bs [Ha Hb]. apply H2; assumption. Qed.

(** After a codeword with a run of zeros any signed overflow is tolerated. *)
Lemma wp_bind_run (E : errs) {A B} (m : M A) (f : A -> M B) Q1 Q : ovf_in E -> wp E m Q1 ->
  (forall a bs, Q1 a bs -> wp E (f a) (fun c bs' => Q c (bs ++ bs')) \/
     (zrun 24 bs /\ wp ovf_any (f a) (fun c bs' => Q c (bs ++ bs')))) -> wp E (bind m f) Q.
Proof.
  intros HE H1 H2 b W. specialize (H1 b W). unfold bind. destruct (m b) as [a b'|b'|e]; [|assumption|assumption].
  destruct H1 as (bs & S & q). pose proof (steps_wf b b' bs W S) as W'.
  destruct (H2 a bs q) as [H|[Zr H]]; specialize (H b' W').
  - destruct (f a b') as [c b''|b''|e].
    + destruct H as (bs' & S' & q'). exists (bs ++ bs'). split; [|exact q']. eapply steps_trans; eassumption.
    + destruct H as (bs' & S'). exists (bs ++ bs'). eapply steps_trans; eassumption.
    + destruct S as [-> _]. apply err_app, H.
  - destruct (f a b') as [c b''|b''|e].
    + destruct H as (bs' & S' & q'). exists (bs ++ bs'). split; [|exact q']. eapply steps_trans; eassumption.
    + destruct H as (bs' & S'). exists (bs ++ bs'). eapply steps_trans; eassumption.
    + cbn in H. subst e. apply HE. destruct S as [-> _]. apply zrun_app_l, Zr.
Qed.
Lemma ovf_in_any : ovf_in ovf_any.
Proof. intros l _. reflexivity. Qed.

Global Arguments se_ok : simpl never.

Create HintDb wpa_db.
#[export] Hint Resolve ovf_in_only : wpa_db.
#[export] Hint Resolve wpa_se : wpa_db.

Ltac afield :=
  lazymatch goal with
  | |- wpa _ ReadSignedExponentialGolomb _ _ => apply wpa_se; auto with wpa_db
  | |- wpa _ (when _ _ _) _ _ => first [apply wpa_exact; wfield; fail | eapply wpa_when; intros ?; afield]
  | |- wpa _ (some _) _ _ => first [apply wpa_exact; wfield; fail | eapply wpa_some; afield]
  | |- wpa _ (collect _ _) _ _ => first [apply wpa_exact; wfield; fail | eapply wpa_vec; intros ? ?; cbv beta; afield]
  | |- _ => first [solve [eauto with wpa_db] | apply wpa_exact; wfield]
  end.
Ltac astep :=
  cbv beta zeta;
  lazymatch goal with
  | |- wp _ (bind (guard _) _) _ => apply wp_guard; intros ?
  | |- wp _ (bind (ret _) _) _ => apply wp_bind_ret
  | |- wp _ (bind _ _) _ => eapply wpa_bind; [afield|intros ? ? ? ?]
  end.
Ltac arun := repeat astep; cbv beta; try apply wp_ret.
(** Closes [agree (bs1 ++ (bs2 ++ ... [])) (e1 ++ e2 ... ++ [])]. *)
Ltac agrees := repeat (apply agree_app; [assumption|]); first [assumption | apply agree_refl | apply agree_nil_app; assumption].

(** * How the layout of such parsers is stated.
    Started in any valid reader state, [m]: has no undefined behaviour other than [E]; only moves forward inside the buffer; what it
    returns satisfies [ok_out] and its encoding [agree]s with what was consumed; and whenever the next
    bits are the encoding of a structure [s] with [ok_in s], it returns [s] and consumes exactly these bits. *)
Definition reads_layout (E : errs) {A} (m : M A) (ok_in ok_out : A -> Prop) (enc : A -> list bool) : Prop :=
  forall b, wf b ->
    match m b with
    | Ok s b' => ok_out s /\ exists bs, rem b = bs ++ rem b' /\ b' = adv b (length bs) /\ agree bs (enc s)
    | Fail b' => wf b' /\ bb_bytes b' = bb_bytes b /\ pos b <= pos b'
    | Err e => E e (rem b)
    end /\
    forall s rest, ok_in s -> rem b = enc s ++ rest -> m b = Ok s (adv b (length (enc s))).

Lemma reads_layout_intro E {A} (m : M A) (ok_in ok_out : A -> Prop) (enc : A -> list bool) :
  (forall s, ok_in s -> parses m (enc s) s) -> wpa E m ok_out enc -> reads_layout E m ok_in ok_out enc.
Proof.
  intros C S b W. split.
  - specialize (S b W). destruct (m b) as [a b'|b'|e].
    + destruct S as (bs & [S1 S2] & Hs & Hb). split; [exact Hs|]. exists bs. auto.
    + destruct S as (bs & S). split; [eapply steps_wf; eassumption|]. destruct S as [_ ->]. split; [reflexivity|]. rewrite pos_adv. lia.
    + exact S.
  - intros s rest Hs E1. apply (C s Hs b rest W E1).
Qed.
