(** Proof rules for the parser monad: one rule per construct for [parses] (completeness)
    and [wp] (safety and soundness). *)
From Coq Require Import ZArith List Bool Lia ZifyBool ZifyNat.
From Verif Require Import MBase MBitBuffer Spec BitsFacts Reader ReaderFacts.
Import ListNotations.
Open Scope Z_scope.

(** A part of a syntax structure present only under a condition. *)
Definition opt (c : bool) (l : list bool) : list bool := if c then l else [].
(** A field that satisfies [P] when present and has its default value otherwise. *)
Definition optf {A} (c : bool) (P : A -> Prop) (d a : A) : Prop := if c then P a else a = d.

(** Encoding of an indexed sequence. *)
Fixpoint enc_from {A} (i : Z) (enc : Z -> A -> list bool) (l : list A) : list bool :=
  match l with
  | [] => []
  | a :: r => enc i a ++ enc_from (i + 1) enc r
  end.
Fixpoint all_from {A} (i : Z) (P : Z -> A -> Prop) (l : list A) : Prop :=
  match l with
  | [] => True
  | a :: r => P i a /\ all_from (i + 1) P r
  end.

(** * bind, ret, fail *)
Lemma parses_bind {A B} (m : M A) (f : A -> M B) bs1 bs2 a c :
  parses m bs1 a -> parses (f a) bs2 c -> parses (bind m f) (bs1 ++ bs2) c.
Proof. apply parses_bind_raw. Qed.

Lemma parses_ret_eq {A} (a v : A) : a = v -> parses (ret a) [] v.
Proof. intros ->. apply parses_ret. Qed.

Lemma parses_bind_nil {A B} (m : M A) (f : A -> M B) bs a c :
  parses m [] a -> parses (f a) bs c -> parses (bind m f) bs c.
Proof. intros H1 H2. change bs with ([] ++ bs). eapply parses_bind; eassumption. Qed.

Lemma parses_bind_ret {A B} (a : A) (f : A -> M B) bs c :
  parses (f a) bs c -> parses (bind (ret a) f) bs c.
Proof. intros H. eapply parses_bind_nil; [apply parses_ret|exact H]. Qed.

Lemma parses_guard (c : bool) {B} (f : unit -> M B) bs v :
  c = true -> parses (f tt) bs v -> parses (bind (guard c) f) bs v.
Proof. intros -> H. eapply parses_bind_nil; [apply parses_ret|exact H]. Qed.

Lemma parses_when {A} (c : bool) (m : M A) bs (d v : A) :
  (c = true -> parses m bs v) -> (c = false -> v = d) ->
  parses (when c m d) (opt c bs) v.
Proof.
  intros H1 H2. destruct c; cbn.
  - apply H1; reflexivity.
  - rewrite H2 by reflexivity. apply parses_ret.
Qed.

Lemma parses_app_nil {A} (m : M A) bs v : parses m (bs ++ []) v -> parses m bs v.
Proof. rewrite app_nil_r. exact (fun H => H). Qed.

Lemma parses_if {A} (c : bool) (m1 m2 : M A) bs v :
  (c = true -> parses m1 bs v) -> (c = false -> parses m2 bs v) ->
  parses (if c then m1 else m2) bs v.
Proof. destruct c; auto. Qed.

Lemma wp_mono (E E' : errs) {A} (m : M A) (Q Q' : A -> list bool -> Prop) :
  wp E m Q -> (forall e l, E e l -> E' e l) -> (forall a bs, Q a bs -> Q' a bs) -> wp E' m Q'.
Proof.
  intros H HE HQ b W. specialize (H b W). destruct (m b) as [a b'|b'|e]; auto.
  destruct H as (bs & S & q). eauto.
Qed.

Lemma wp_weaken (E : errs) {A} (m : M A) (Q Q' : A -> list bool -> Prop) :
  wp E m Q -> (forall a bs, Q a bs -> Q' a bs) -> wp E m Q'.
Proof. intros H HQ. eapply wp_mono; eauto. Qed.

Lemma wp_err (E : errs) {A} (m : M A) (Q : A -> list bool -> Prop) :
  wp no_err m Q -> wp E m Q.
Proof. intros H. eapply wp_mono; eauto. intros e l []. Qed.

Lemma wp_ret E {A} (a : A) (Q : A -> list bool -> Prop) : Q a [] -> wp E (ret a) Q.
Proof. intros H b W. exists []. split; [apply steps_refl, W|exact H]. Qed.

Lemma wp_fail E {A} (Q : A -> list bool -> Prop) : wp E fail Q.
Proof. intros b W. exists []. apply steps_refl, W. Qed.

Lemma wp_throw (E : errs) {A} e (Q : A -> list bool -> Prop) : (forall l, E e l) -> wp E (throw e) Q.
Proof. intros H b W. apply H. Qed.

Lemma wp_bind E {A B} (m : M A) (f : A -> M B) Q1 Q :
  wp E m Q1 ->
  (forall a bs, Q1 a bs -> wp E (f a) (fun c bs' => Q c (bs ++ bs'))) ->
  wp E (bind m f) Q.
Proof.
  intros H1 H2 b W. unfold bind. specialize (H1 b W).
  destruct (m b) as [a b1|b1|e]; auto.
  destruct H1 as (bs & S & q). specialize (H2 a bs q b1 (steps_wf _ _ _ W S)).
  destruct (f a b1) as [c b2|b2|e]; auto.
  - destruct H2 as (bs' & S' & q'). exists (bs ++ bs'). split; [|exact q'].
    eapply steps_trans; eassumption.
  - destruct H2 as (bs' & S'). exists (bs ++ bs'). eapply steps_trans; eassumption.
  - destruct S as [-> _]. apply err_app, H2.
Qed.

Lemma wp_guard E (c : bool) {B} (f : unit -> M B) Q :
  (c = true -> wp E (f tt) Q) -> wp E (bind (guard c) f) Q.
Proof.
  intros H b W. unfold guard, bind. destruct c; cbn.
  - apply H; auto.
  - exists []. apply steps_refl, W.
Qed.

Lemma wp_if E (c : bool) {A} (m1 m2 : M A) Q :
  (c = true -> wp E m1 Q) -> (c = false -> wp E m2 Q) -> wp E (if c then m1 else m2) Q.
Proof. destruct c; auto. Qed.

Lemma wp_when E (c : bool) {A} (m : M A) (d : A) (P : A -> Prop) (enc : A -> list bool) :
  (c = true -> wp E m (fun a bs => P a /\ bs = enc a)) ->
  wp E (when c m d) (fun a bs => optf c P d a /\ bs = opt c (enc a)).
Proof.
  intros H. destruct c; cbn.
  - apply H. reflexivity.
  - apply wp_ret. split; reflexivity.
Qed.

(** Relational version, when the bits are not a function of the value. *)
Lemma wp_when_rel E (c : bool) {A} (m : M A) (d : A) (Q : A -> list bool -> Prop) :
  (c = true -> wp E m Q) ->
  wp E (when c m d) (fun a bs => if c then Q a bs else a = d /\ bs = []).
Proof.
  intros H. destruct c; cbn.
  - apply H. reflexivity.
  - apply wp_ret. split; reflexivity.
Qed.

Lemma wp_attempt (E : errs) {A} (m : M A) Q :
  wp E m Q ->
  wp E (attempt m) (fun o bs => match o with Some a => Q a bs | None => True end).
Proof.
  intros H b W. unfold attempt. specialize (H b W). destruct (m b) as [a b1|b1|e]; auto.
  destruct H as (bs & S). exists bs. auto.
Qed.

Lemma parses_attempt {A} (m : M A) bs v : parses m bs v -> parses (attempt m) bs (Some v).
Proof. intros H b rest W E. unfold attempt. rewrite (H b rest W E). reflexivity. Qed.

(** * Loops: the binary-recursive loops are the obvious ones. *)
Fixpoint collect_nat {A} (n : nat) (i : Z) (body : Z -> M A) : M (list A) :=
  match n with
  | O => ret []
  | S k => bind (body i) (fun x => bind (collect_nat k (i + 1) body) (fun l => ret (x :: l)))
  end.

Lemma bind_assoc {A B C} (m : M A) (f : A -> M B) (g : B -> M C) b :
  bind (bind m f) g b = bind m (fun a => bind (f a) g) b.
Proof. unfold bind. destruct (m b); reflexivity. Qed.

Lemma bind_ext {A B} (m : M A) (f g : A -> M B) b :
  (forall a b', f a b' = g a b') -> bind m f b = bind m g b.
Proof. intros H. unfold bind. destruct (m b); auto. Qed.

Lemma bind_ext2 {A B} (m m' : M A) (f g : A -> M B) b :
  m b = m' b -> (forall a b', f a b' = g a b') -> bind m f b = bind m' g b.
Proof. intros H1 H. unfold bind. rewrite H1. destruct (m' b); auto. Qed.

Lemma collect_nat_app {A} n m i (body : Z -> M A) b :
  collect_nat (n + m) i body b =
  bind (collect_nat n i body) (fun l1 =>
  bind (collect_nat m (i + Z.of_nat n) body) (fun l2 => ret (l1 ++ l2))) b.
Proof.
  revert i b; induction n as [|n IH]; intros i b.
  - cbn [collect_nat Nat.add]. unfold bind at 1, ret at 1.
    replace (i + Z.of_nat 0) with i by lia.
    unfold bind, ret. cbn [app]. destruct (collect_nat m i body b); reflexivity.
  - cbn [collect_nat Nat.add].
    rewrite bind_assoc. apply bind_ext. intros x b1.
    rewrite bind_assoc.
    erewrite bind_ext2; [|apply IH|intros; reflexivity].
    rewrite bind_assoc. apply bind_ext. intros l1 b2.
    replace (i + 1 + Z.of_nat n) with (i + Z.of_nat (S n)) by lia.
    rewrite bind_assoc. unfold bind at 2, ret at 1. cbn [bind ret].
    unfold ret. cbn. unfold bind. destruct (collect_nat m _ body b2); reflexivity.
Qed.

Lemma collect_pos_nat {A} p : forall i (body : Z -> M A) b,
  collect_pos p i body b = collect_nat (Pos.to_nat p) i body b.
Proof.
  induction p as [q IH|q IH|]; intros i body b; cbn [collect_pos].
  - rewrite Pos2Nat.inj_xI. replace (S (2 * Pos.to_nat q)) with (S (Pos.to_nat q + Pos.to_nat q))%nat by lia.
    cbn [collect_nat]. apply bind_ext. intros x b1.
    erewrite (bind_ext2 (collect_nat (_ + _) _ _)); [|apply collect_nat_app|intros; reflexivity].
    rewrite bind_assoc. apply bind_ext2; [apply IH|]. intros l1 b2.
    rewrite bind_assoc. apply bind_ext2; [|intros; reflexivity].
    rewrite IH. f_equal. lia.
  - rewrite Pos2Nat.inj_xO. replace (2 * Pos.to_nat q)%nat with (Pos.to_nat q + Pos.to_nat q)%nat by lia.
    rewrite collect_nat_app. apply bind_ext2; [apply IH|]. intros l1 b1.
    apply bind_ext2; [|intros; reflexivity]. rewrite IH. f_equal. lia.
  - change (Pos.to_nat 1) with 1%nat. cbn [collect_nat]. apply bind_ext. intros x b1. reflexivity.
Qed.

Lemma collect_nat_eq {A} n (body : Z -> M A) b :
  collect n body b = collect_nat (Z.to_nat n) 0 body b.
Proof. destruct n; try reflexivity. apply collect_pos_nat. Qed.

Lemma parses_ext {A} (m m' : M A) bs v : (forall b, m b = m' b) -> parses m' bs v -> parses m bs v.
Proof. intros H P b rest W E. rewrite H. eapply P; eassumption. Qed.
Lemma wp_ext E {A} (m m' : M A) Q : (forall b, m b = m' b) -> wp E m' Q -> wp E m Q.
Proof. intros H P b W. rewrite H. apply P, W. Qed.

Lemma parses_collect_nat {A} (body : Z -> M A) (enc : Z -> A -> list bool) : forall l i,
  all_from i (fun j a => parses (body j) (enc j a) a) l ->
  parses (collect_nat (length l) i body) (enc_from i enc l) l.
Proof.
  induction l as [|a l IH]; intros i H; cbn [collect_nat length enc_from].
  - apply parses_ret.
  - destruct H as [H1 H2]. eapply parses_bind; [exact H1|].
    rewrite <- (app_nil_r (enc_from _ _ _)).
    eapply parses_bind; [apply IH, H2|]. apply parses_ret.
Qed.

Lemma parses_collect {A} (body : Z -> M A) (enc : Z -> A -> list bool) n l :
  Z.to_nat n = length l ->
  all_from 0 (fun j a => parses (body j) (enc j a) a) l ->
  parses (collect n body) (enc_from 0 enc l) l.
Proof.
  intros Hn H. eapply parses_ext; [intros b; apply collect_nat_eq|].
  rewrite Hn. apply parses_collect_nat, H.
Qed.

Lemma wp_collect_nat E {A} (body : Z -> M A) (P : Z -> A -> Prop) (enc : Z -> A -> list bool) n :
  forall i,
  (forall j, i <= j < i + Z.of_nat n -> wp E (body j) (fun a bs => P j a /\ bs = enc j a)) ->
  wp E (collect_nat n i body)
     (fun l bs => length l = n /\ all_from i P l /\ bs = enc_from i enc l).
Proof.
  induction n as [|n IH]; intros i H; cbn [collect_nat].
  - apply wp_ret. repeat split.
  - eapply wp_bind; [apply H; lia|]. intros a bs [Pa ->].
    eapply wp_bind; [apply IH; intros j Hj; apply H; lia|]. intros l bs (L & Pl & ->).
    apply wp_ret. cbn [length all_from enc_from]. rewrite app_nil_r. auto.
Qed.

Lemma wp_collect E {A} (body : Z -> M A) (P : Z -> A -> Prop) (enc : Z -> A -> list bool) n :
  (forall j, 0 <= j < n -> wp E (body j) (fun a bs => P j a /\ bs = enc j a)) ->
  wp E (collect n body)
     (fun l bs => length l = Z.to_nat n /\ all_from 0 P l /\ bs = enc_from 0 enc l).
Proof.
  intros H. eapply wp_ext; [intros b; apply collect_nat_eq|].
  apply wp_collect_nat. intros j Hj. apply H. lia.
Qed.

(** Index-free versions. *)
Lemma enc_from_const {A} (enc : A -> list bool) l : forall i,
  enc_from i (fun _ => enc) l = flat_map enc l.
Proof. induction l as [|a l IH]; intros i; cbn; [reflexivity|]. rewrite IH. reflexivity. Qed.
Lemma all_from_const {A} (P : A -> Prop) l : forall i, all_from i (fun _ => P) l <-> Forall P l.
Proof.
  induction l as [|a l IH]; intros i; cbn; [split; auto|].
  rewrite IH. split; [intros []; auto|]. intros H; inversion H; auto.
Qed.

Lemma parses_collect_const {A} (body : Z -> M A) (enc : A -> list bool) n l :
  Z.to_nat n = length l ->
  Forall (fun a => forall i, parses (body i) (enc a) a) l ->
  parses (collect n body) (flat_map enc l) l.
Proof.
  intros Hn H. rewrite <- (enc_from_const enc l 0). apply parses_collect; [assumption|].
  clear Hn. revert H. generalize 0. induction l as [|a l IH]; intros i H; cbn; [auto|].
  inversion H; subst. auto.
Qed.

Lemma wp_collect_const E {A} (body : Z -> M A) (P : A -> Prop) (enc : A -> list bool) n :
  (forall j, 0 <= j < n -> wp E (body j) (fun a bs => P a /\ bs = enc a)) ->
  wp E (collect n body)
     (fun l bs => length l = Z.to_nat n /\ Forall P l /\ bs = flat_map enc l).
Proof.
  intros H. eapply wp_weaken; [apply (wp_collect E body (fun _ => P) (fun _ => enc) n H)|].
  cbv beta. intros l bs (L & Al & ->). rewrite all_from_const in Al. rewrite enc_from_const. auto.
Qed.

(** A loop known only to be safe. *)
Fixpoint seqR {A} (R : Z -> A -> list bool -> Prop) (i : Z) (l : list A) (bs : list bool) : Prop :=
  match l with
  | [] => bs = []
  | a :: r => exists b1 b2, bs = b1 ++ b2 /\ R i a b1 /\ seqR R (i + 1) r b2
  end.

Lemma wp_collect_nat_rel E {A} (body : Z -> M A) (R : Z -> A -> list bool -> Prop) n :
  forall i,
  (forall j, i <= j < i + Z.of_nat n -> wp E (body j) (R j)) ->
  wp E (collect_nat n i body) (fun l bs => length l = n /\ seqR R i l bs).
Proof.
  induction n as [|n IH]; intros i H; cbn [collect_nat].
  - apply wp_ret. repeat split.
  - eapply wp_bind; [apply H; lia|]. intros a b1 Ra.
    eapply wp_bind; [apply IH; intros j Hj; apply H; lia|]. intros l b2 (L & Pl).
    apply wp_ret. cbn [length seqR]. rewrite app_nil_r. split; [lia|]. exists b1, b2. auto.
Qed.

Lemma wp_collect_rel E {A} (body : Z -> M A) (R : Z -> A -> list bool -> Prop) n :
  (forall j, 0 <= j < n -> wp E (body j) (R j)) ->
  wp E (collect n body) (fun l bs => length l = Z.to_nat n /\ seqR R 0 l bs).
Proof.
  intros H. eapply wp_ext; [intros b; apply collect_nat_eq|].
  apply wp_collect_nat_rel. intros j Hj. apply H. lia.
Qed.

(** State-carrying loops. *)
Fixpoint for_nat {A} (n : nat) (i : Z) (body : Z -> A -> M A) (a : A) : M A :=
  match n with
  | O => ret a
  | S k => bind (body i a) (fun a1 => for_nat k (i + 1) body a1)
  end.

Lemma for_nat_app {A} n m : forall i (body : Z -> A -> M A) a b,
  for_nat (n + m) i body a b =
  bind (for_nat n i body a) (fun a1 => for_nat m (i + Z.of_nat n) body a1) b.
Proof.
  induction n as [|n IH]; intros i body a b.
  - cbn [for_nat Nat.add]. unfold bind, ret. f_equal. lia.
  - cbn [for_nat Nat.add]. rewrite bind_assoc. apply bind_ext. intros a1 b1. rewrite IH.
    apply bind_ext. intros a2 b2. f_equal. lia.
Qed.

Lemma for_pos_nat {A} p : forall i (body : Z -> A -> M A) a b,
  for_pos p i body a b = for_nat (Pos.to_nat p) i body a b.
Proof.
  induction p as [q IH|q IH|]; intros i body a b; cbn [for_pos].
  - rewrite Pos2Nat.inj_xI. replace (S (2 * Pos.to_nat q)) with (S (Pos.to_nat q + Pos.to_nat q))%nat by lia.
    cbn [for_nat]. apply bind_ext. intros a1 b1. rewrite for_nat_app.
    apply bind_ext2; [apply IH|]. intros a2 b2. rewrite IH. f_equal. lia.
  - rewrite Pos2Nat.inj_xO. replace (2 * Pos.to_nat q)%nat with (Pos.to_nat q + Pos.to_nat q)%nat by lia.
    rewrite for_nat_app. apply bind_ext2; [apply IH|]. intros a2 b2. rewrite IH. f_equal. lia.
  - change (Pos.to_nat 1) with 1%nat. cbn [for_nat]. unfold bind, ret. destruct (body i a b); reflexivity.
Qed.

Lemma for_loop_nat {A} n (body : Z -> A -> M A) a b :
  for_loop n body a b = for_nat (Z.to_nat n) 0 body a b.
Proof. destruct n; try reflexivity. apply for_pos_nat. Qed.

Lemma wp_for_nat E {A} (body : Z -> A -> M A) (I : Z -> A -> list bool -> Prop) n :
  forall i a bs0,
  I i a bs0 ->
  (forall j a bs, i <= j < i + Z.of_nat n -> I j a bs ->
     wp E (body j a) (fun a' bs' => I (j + 1) a' (bs ++ bs'))) ->
  wp E (for_nat n i body a) (fun a' bs' => I (i + Z.of_nat n) a' (bs0 ++ bs')).
Proof.
  induction n as [|n IH]; intros i a bs0 H0 H; cbn [for_nat].
  - apply wp_ret. rewrite app_nil_r. replace (i + Z.of_nat 0) with i by lia. exact H0.
  - eapply wp_bind; [apply (H i a bs0); [lia|exact H0]|]. cbv beta. intros a1 bs1 H1.
    eapply wp_weaken; [apply (IH (i + 1) a1 (bs0 ++ bs1) H1); intros; apply H; [lia|assumption]|].
    cbv beta. intros a2 bs2 H2. rewrite <- app_assoc in H2.
    replace (i + Z.of_nat (S n)) with (i + 1 + Z.of_nat n) by lia. exact H2.
Qed.

Lemma wp_for_loop E {A} (body : Z -> A -> M A) (I : Z -> A -> list bool -> Prop) n a :
  I 0 a [] ->
  (forall j a bs, 0 <= j < n -> I j a bs ->
     wp E (body j a) (fun a' bs' => I (j + 1) a' (bs ++ bs'))) ->
  wp E (for_loop n body a) (fun a' bs' => I (Z.max 0 n) a' bs').
Proof.
  intros H0 H. eapply wp_ext; [intros b; apply for_loop_nat|].
  eapply wp_weaken; [apply (wp_for_nat E body I (Z.to_nat n) 0 a [] H0)|].
  - intros j a' bs Hj. apply H. lia.
  - cbv beta. intros a' bs' H'. cbn [app] in H'.
    replace (0 + Z.of_nat (Z.to_nat n)) with (Z.max 0 n) in H' by lia. exact H'.
Qed.

(** * Field reads, in the shape used by the syntax tables. *)
Lemma wp_flag : wp no_err (ReadBits 1) (fun v bs => 0 <= v < 2 /\ bs = enc_flag v).
Proof.
  eapply wp_weaken; [apply (wp_u 1); lia|]. cbv beta. intros a bs (H & _ & ->). auto.
Qed.

Lemma wp_un n : 0 < n -> wp no_err (ReadBits n) (fun v bs => 0 <= v < 2 ^ n /\ bs = enc_u (Z.to_nat n) v).
Proof.
  intros Hn. eapply wp_weaken; [apply (wp_u n); lia|]. cbv beta. intros a bs (H & _ & ->). auto.
Qed.

Lemma parses_flag v : 0 <= v < 2 -> parses (ReadBits 1) (enc_flag v) v.
Proof. intros H. apply (parses_u 1); lia. Qed.
