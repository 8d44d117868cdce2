(** Vocabulary for describing H.265 syntax structures and tactics that run the proof rules of
    Rules.v over them.  A structure is described by its encoding (a concatenation of coded
    fields, in the order of the syntax table) and by the ranges of its fields. *)
From Coq Require Import ZArith List Bool Lia ZifyBool ZifyNat.
From Verif Require Import MBase MBitBuffer Spec BitsFacts Reader ReaderFacts Rules.
Import ListNotations.
Open Scope Z_scope.

(** * Field ranges *)
Definition u_ok (n : Z) (v : Z) : Prop := 0 <= v < 2 ^ n.
Definition ue_ok (v : Z) : Prop := 0 <= v <= 2 ^ 32 - 2.
(** [vec n P l]: [l] has [n] elements (none for a negative [n]), all satisfying [P]. *)
Definition vec {A} (n : Z) (P : A -> Prop) (l : list A) : Prop := length l = Z.to_nat n /\ Forall P l.
(** The same with an index-dependent predicate. *)
Definition veci {A} (n : Z) (P : Z -> A -> Prop) (l : list A) : Prop := length l = Z.to_nat n /\ all_from 0 P l.

(** C++ truth value of an integer. *)
Definition nz (x : Z) : bool := negb (x =? 0).

(** * Vector access in the model: [v[i]], out of bounds is undefined behaviour. *)
Definition at_ {A} (l : list A) (i : Z) : M A :=
  match (if i <? 0 then None else nth_error l (Z.to_nat i)) with
  | Some a => ret a
  | None => throw OutOfBounds
  end.
Definition znth {A} (l : list A) (i : Z) (d : A) : A := nth (Z.to_nat i) l d.

Lemma at_ok {A} (l : list A) i d : 0 <= i < Z.of_nat (length l) -> at_ l i = ret (znth l i d).
Proof.
  intros H. unfold at_, znth. destruct (Z.ltb_spec i 0); [lia|].
  rewrite (nth_error_nth' l d) by lia. reflexivity.
Qed.

(** * Field rules *)
Lemma parses_u_ok n v : 0 < n <= 32 -> u_ok n v -> parses (ReadBits n) (enc_u (Z.to_nat n) v) v.
Proof. apply parses_u. Qed.
Lemma parses_ue_ok v : ue_ok v -> parses ReadExponentialGolomb (enc_ue v) v.
Proof. intros H. apply parses_ue. unfold ue_ok in H. lia. Qed.

Lemma wp_u_ok n : 0 < n -> wp no_err (ReadBits n) (fun v bs => u_ok n v /\ bs = enc_u (Z.to_nat n) v).
Proof. apply wp_un. Qed.
Lemma wp_ue_ok : wp no_err ReadExponentialGolomb (fun v bs => ue_ok v /\ bs = enc_ue v).
Proof. eapply wp_weaken; [apply wp_ue|]. cbv beta. intros a bs [H ->]. split; [unfold ue_ok; lia|reflexivity]. Qed.

Lemma parses_when_optf {A} (c : bool) (m : M A) (enc : list bool) (P : A -> Prop) (d v : A) :
  optf c P d v -> (c = true -> P v -> parses m enc v) -> parses (when c m d) (opt c enc) v.
Proof. intros H1 H2. apply parses_when; intros ->; cbn in H1; auto. Qed.

Lemma parses_vec {A} n (body : Z -> M A) (P : A -> Prop) (enc : A -> list bool) l :
  vec n P l -> (forall i a, P a -> parses (body i) (enc a) a) -> parses (collect n body) (flat_map enc l) l.
Proof.
  intros [L F] H. apply parses_collect_const; [lia|]. eapply Forall_impl; [|exact F]. intros a Ha i. apply H, Ha.
Qed.

Lemma all_from_impl {A} (P Q : Z -> A -> Prop) l : forall i,
  (forall j a, i <= j < i + Z.of_nat (length l) -> P j a -> Q j a) -> all_from i P l -> all_from i Q l.
Proof.
  induction l as [|a l IH]; intros i H; cbn [all_from length] in *; [auto|]. intros [H1 H2]. split.
  - apply H; [lia|exact H1].
  - apply (IH (i + 1)); [|exact H2]. intros j b Hj. apply H. lia.
Qed.

Lemma parses_veci {A} n (body : Z -> M A) (P : Z -> A -> Prop) (enc : Z -> A -> list bool) l :
  veci n P l -> (forall i a, 0 <= i < n -> P i a -> parses (body i) (enc i a) a) ->
  parses (collect n body) (enc_from 0 enc l) l.
Proof.
  intros [L F] H. apply parses_collect; [lia|]. eapply all_from_impl; [|exact F].
  intros j a Hj Ha. apply H; [lia|exact Ha].
Qed.

Lemma wp_vec E {A} n (body : Z -> M A) (P : A -> Prop) (enc : A -> list bool) :
  (forall j, 0 <= j < n -> wp E (body j) (fun a bs => P a /\ bs = enc a)) ->
  wp E (collect n body) (fun l bs => vec n P l /\ bs = flat_map enc l).
Proof.
  intros H. eapply wp_weaken; [apply (wp_collect_const E body P enc n H)|]. cbv beta.
  intros l bs (L & F & ->). split; [split; assumption|reflexivity].
Qed.

Lemma wp_veci E {A} n (body : Z -> M A) (P : Z -> A -> Prop) (enc : Z -> A -> list bool) :
  (forall j, 0 <= j < n -> wp E (body j) (fun a bs => P j a /\ bs = enc j a)) ->
  wp E (collect n body) (fun l bs => veci n P l /\ bs = enc_from 0 enc l).
Proof.
  intros H. eapply wp_weaken; [apply (wp_collect E body P enc n H)|]. cbv beta.
  intros l bs (L & F & ->). split; [split; assumption|reflexivity].
Qed.

Lemma parses_at {A B} (l : list A) i d (f : A -> M B) bs v :
  0 <= i < Z.of_nat (length l) -> parses (f (znth l i d)) bs v -> parses (bind (at_ l i) f) bs v.
Proof. intros H P. rewrite (at_ok l i d H). apply parses_bind_ret. exact P. Qed.
Lemma wp_bind_ret E {A B} (a : A) (f : A -> M B) Q : wp E (f a) Q -> wp E (bind (ret a) f) Q.
Proof. exact (fun H => H). Qed.
Lemma wp_at E {A B} (l : list A) i d (f : A -> M B) Q :
  0 <= i < Z.of_nat (length l) -> wp E (f (znth l i d)) Q -> wp E (bind (at_ l i) f) Q.
Proof. intros H P. rewrite (at_ok l i d H). exact P. Qed.

Lemma wp_bind_eq E {A B} (m : M A) (f : A -> M B) (P : A -> Prop) (enc : A -> list bool) Q :
  wp E m (fun a bs => P a /\ bs = enc a) ->
  (forall a, P a -> wp E (f a) (fun c bs' => Q c (enc a ++ bs'))) ->
  wp E (bind m f) Q.
Proof. intros H1 H2. eapply wp_bind; [exact H1|]. cbv beta. intros a bs [Ha ->]. apply H2, Ha. Qed.

Lemma wp_ret_eq E {A} (s : A) (V : A -> Prop) (enc : A -> list bool) pre :
  V s -> pre ++ [] = enc s -> wp E (ret s) (fun a bs => V a /\ pre ++ bs = enc a).
Proof. intros H1 H2. apply wp_ret. auto. Qed.

Global Arguments enc_u : simpl never.
Global Arguments enc_ue : simpl never.
Global Arguments enc_se : simpl never.
Global Arguments enc_flag : simpl never.
Global Arguments opt : simpl never.
Global Arguments optf : simpl never.
Global Arguments nz : simpl never.
Global Arguments vec : simpl never.
Global Arguments veci : simpl never.
Global Arguments u_ok : simpl never.
Global Arguments ue_ok : simpl never.
Global Arguments enc_from : simpl never.
Global Arguments all_from : simpl never.
Global Arguments flat_map : simpl never.
Global Arguments znth : simpl never.
Global Arguments Z.add : simpl never.
Global Arguments Z.sub : simpl never.
Global Arguments Z.mul : simpl never.
Global Arguments Z.pow : simpl never.
Global Arguments Z.ltb : simpl never.
Global Arguments Z.leb : simpl never.
Global Arguments Z.eqb : simpl never.
Global Arguments Z.min : simpl never.
Global Arguments Z.max : simpl never.
Global Arguments Z.to_nat : simpl never.
Global Arguments Z.of_nat : simpl never.
Global Arguments when : simpl never.
Global Arguments guard : simpl never.
Global Arguments collect : simpl never.
Global Arguments bind : simpl never.
Global Arguments ret : simpl never.

Create HintDb parses_db.
Create HintDb wp_db.

(** Completeness of one field. *)
Ltac pfield :=
  lazymatch goal with
  | |- parses (ReadBits ?n) _ _ => apply (parses_u_ok n); [first [lia | unfold nz in *; lia]|try assumption]
  | |- parses ReadExponentialGolomb _ _ => apply parses_ue_ok; try assumption
  | |- parses ReadSignedExponentialGolomb _ _ => apply parses_se; try assumption
  | |- parses (when ?c _ _) _ _ =>
      match goal with H : optf c ?P ?d ?v |- _ => apply (parses_when_optf c _ _ P d v H); intros ? ?; pfield end
  | |- parses (collect _ _) (flat_map _ _) _ => eapply parses_vec; [eassumption|intros ? ? ?; pfield]
  | |- _ => solve [eauto with parses_db]
  end.

(** One step of a completeness proof. *)
Ltac pstep :=
  cbv beta zeta;
  lazymatch goal with
  | |- parses (bind (guard _) _) _ _ => apply parses_guard; [try solve [assumption|unfold ue_ok, u_ok in *; lia]|]
  | |- parses (bind (ret _) _) _ _ => apply parses_bind_ret
  | |- parses (bind _ _) (_ ++ _) _ => eapply parses_bind; [pfield|]
  | |- parses (ret _) [] _ => apply parses_ret_eq; reflexivity
  end.
Ltac prun := repeat pstep.

Ltac split_hyps := repeat match goal with H : _ /\ _ |- _ => destruct H end.

(** Soundness of one field. *)
Ltac wfield :=
  lazymatch goal with
  | |- wp no_err (ReadBits ?n) _ => apply (wp_u_ok n); try first [lia | unfold nz in *; lia]
  | |- wp no_err ReadExponentialGolomb _ => apply wp_ue_ok
  | |- wp _ (ReadBits ?n) _ => apply wp_err; apply (wp_u_ok n); try first [lia | unfold nz in *; lia]
  | |- wp _ ReadExponentialGolomb _ => apply wp_err; apply wp_ue_ok
  | |- wp _ (when _ _ _) _ => eapply wp_when; intros ?; wfield
  | |- wp _ (collect _ _) _ => eapply wp_vec; intros ? ?; cbv beta; wfield
  | |- _ => solve [eauto with wp_db | apply wp_err; eauto with wp_db]
  end.

Ltac wstep :=
  cbv beta zeta;
  lazymatch goal with
  | |- wp _ (bind (guard _) _) _ => apply wp_guard; intros ?
  | |- wp _ (bind (ret _) _) _ => apply wp_bind_ret
  | |- wp _ (bind _ _) _ => eapply wp_bind_eq; [wfield|intros ? ?]
  end.
Ltac conjs := lazymatch goal with
  | |- _ /\ _ => split; [try assumption|conjs]
  | |- _ => try assumption
  end.
Ltac wrun := repeat wstep; cbv beta; try apply wp_ret.

(** * Range-checked ue(v) and optional sub-structures *)
(** [ReadExponentialGolomb(v)] followed by [if (v > k) return nullptr]. *)
Definition ReadUeMax (k : Z) : M Z :=
  bind ReadExponentialGolomb (fun v => bind (guard (v <=? k)) (fun _ => ret v)).
Definition ue_le (k : Z) (v : Z) : Prop := 0 <= v <= k.
Lemma parses_ue_max k v : k <= 2 ^ 32 - 2 -> ue_le k v -> parses (ReadUeMax k) (enc_ue v) v.
Proof.
  intros Hk H. unfold ue_le in H. unfold ReadUeMax. rewrite <- (app_nil_r (enc_ue v)).
  eapply parses_bind; [apply parses_ue_ok; unfold ue_ok; lia|].
  apply parses_guard; [lia|]. apply parses_ret.
Qed.
Lemma wp_ue_max k : wp no_err (ReadUeMax k) (fun v bs => ue_le k v /\ bs = enc_ue v).
Proof.
  unfold ReadUeMax. eapply wp_bind_eq; [apply wp_ue_ok|]. intros v Hv. apply wp_guard. intros Hg.
  apply wp_ret. rewrite app_nil_r. split; [unfold ue_le, ue_ok in *; lia|reflexivity].
Qed.
Global Arguments ue_le : simpl never.

(** A sub-structure stored through a pointer. *)
Definition some {A} (m : M A) : M (option A) := bind m (fun x => ret (Some x)).
Definition is_some {A} (P : A -> Prop) (o : option A) : Prop :=
  match o with Some a => P a | None => False end.
Definition enc_opt {A} (enc : A -> list bool) (o : option A) : list bool :=
  match o with Some a => enc a | None => [] end.
Lemma parses_some {A} (m : M A) (P : A -> Prop) enc o :
  is_some P o -> (forall a, P a -> parses m (enc a) a) -> parses (some m) (enc_opt enc o) o.
Proof.
  destruct o as [a|]; cbn; [|tauto]. intros H1 H2. unfold some. rewrite <- (app_nil_r (enc a)).
  eapply parses_bind; [apply H2, H1|apply parses_ret].
Qed.
Lemma wp_some E {A} (m : M A) (P : A -> Prop) enc :
  wp E m (fun a bs => P a /\ bs = enc a) ->
  wp E (some m) (fun o bs => is_some P o /\ bs = enc_opt enc o).
Proof.
  intros H. unfold some. eapply wp_bind_eq; [exact H|]. intros a Ha. apply wp_ret. rewrite app_nil_r. split; [exact Ha|reflexivity].
Qed.
Global Arguments is_some : simpl never.
Global Arguments enc_opt : simpl never.
Global Arguments some : simpl never.

(** u(k+32) read as a k-bit high part and a 32-bit low part:
    [((uint64_t)bits_tmp_hi << 32) | bits_tmp]. *)
Definition ReadHiLo (k : Z) : M Z :=
  bind (ReadBits k) (fun hi => bind (ReadBits 32) (fun lo => ret (Z.lor (Z.shiftl hi 32) lo))).
Lemma enc_u_app k m hi lo : 0 <= lo < 2 ^ Z.of_nat m ->
  enc_u (k + m) (hi * 2 ^ Z.of_nat m + lo) = enc_u k hi ++ enc_u m lo.
Proof.
  intros H. induction k as [|k IH]; cbn [Nat.add enc_u app].
  - assert (G : forall j, (j <= m)%nat -> enc_u j (hi * 2 ^ Z.of_nat m + lo) = enc_u j lo).
    { induction j as [|j IHj]; intros Hj; [reflexivity|].
      change (Z.testbit (hi * 2 ^ Z.of_nat m + lo) (Z.of_nat j) :: enc_u j (hi * 2 ^ Z.of_nat m + lo)
              = Z.testbit lo (Z.of_nat j) :: enc_u j lo).
      rewrite IHj by lia. f_equal.
      rewrite <- (Z.mod_pow2_bits_low _ (Z.of_nat m)) by lia.
      rewrite Z.add_comm, Z.mod_add by lia. rewrite Z.mod_small by lia. reflexivity. }
    apply G. lia.
  - change (Z.testbit (hi * 2 ^ Z.of_nat m + lo) (Z.of_nat (k + m)) :: enc_u (k + m) (hi * 2 ^ Z.of_nat m + lo)
            = Z.testbit hi (Z.of_nat k) :: enc_u k hi ++ enc_u m lo).
    rewrite IH. f_equal. replace (Z.of_nat (k + m)) with (Z.of_nat k + Z.of_nat m) by lia.
    rewrite <- Z.div_pow2_bits by lia. rewrite Z.add_comm, Z.div_add by lia.
    rewrite Z.div_small by lia. f_equal.
Qed.

Lemma parses_hilo k v : 0 < k <= 32 -> u_ok (k + 32) v ->
  parses (ReadHiLo k) (enc_u (Z.to_nat (k + 32)) v) v.
Proof.
  intros Hk Hv. unfold u_ok in Hv. rewrite Z.pow_add_r in Hv by lia.
  assert (0 <= v mod 2 ^ 32 < 2 ^ 32) by (apply Z.mod_pos_bound; lia).
  assert (Ev : v = v / 2 ^ 32 * 2 ^ 32 + v mod 2 ^ 32) by (rewrite Z.mul_comm; apply Z.div_mod; lia).
  assert (0 <= v / 2 ^ 32 < 2 ^ k).
  { split; [apply Z.div_pos; lia|]. apply Z.div_lt_upper_bound; lia. }
  rewrite Ev at 1. replace (Z.to_nat (k + 32)) with (Z.to_nat k + 32)%nat by lia.
  change (2 ^ 32) with (2 ^ Z.of_nat 32). rewrite enc_u_app by (change (Z.of_nat 32) with 32; lia).
  change (Z.of_nat 32) with 32.
  unfold ReadHiLo. eapply parses_bind; [apply parses_u; lia|].
  rewrite <- (app_nil_r (enc_u 32 _)). eapply parses_bind; [apply (parses_u 32); lia|].
  apply parses_ret_eq. rewrite lor_add by lia. lia.
Qed.
Lemma wp_hilo k : 0 < k -> wp no_err (ReadHiLo k) (fun v bs => u_ok (k + 32) v /\ bs = enc_u (Z.to_nat (k + 32)) v).
Proof.
  intros Hk. unfold ReadHiLo. eapply wp_bind_eq; [apply (wp_u_ok k); lia|]. intros hi Hhi.
  eapply wp_bind_eq; [apply (wp_u_ok 32); lia|]. intros lo Hlo. apply wp_ret. unfold u_ok in *.
  rewrite lor_add by lia. rewrite app_nil_r. split.
  - rewrite Z.pow_add_r by lia. nia.
  - replace (Z.to_nat (k + 32)) with (Z.to_nat k + 32)%nat by lia.
    change (2 ^ 32) with (2 ^ Z.of_nat 32). rewrite enc_u_app by (change (Z.of_nat 32) with 32; lia). reflexivity.
Qed.
Global Arguments ReadHiLo : simpl never.
Global Arguments ReadUeMax : simpl never.

Ltac pfield ::=
  lazymatch goal with
  | |- parses (ReadBits ?n) _ _ => apply (parses_u_ok n); [first [lia | unfold nz in *; lia]|try assumption]
  | |- parses ReadExponentialGolomb _ _ => apply parses_ue_ok; try assumption
  | |- parses (ReadUeMax ?k) _ _ => apply (parses_ue_max k); [lia|try assumption]
  | |- parses (ReadHiLo ?k) _ _ => apply (parses_hilo k); [lia|try assumption]
  | |- parses ReadSignedExponentialGolomb _ _ => apply parses_se; try assumption
  | |- parses (when ?c _ _) _ _ =>
      match goal with H : optf c ?P ?d ?v |- _ => apply (parses_when_optf c _ _ P d v H); intros ? ?; pfield end
  | |- parses (some _) _ _ => eapply parses_some; [eassumption|intros ? ?; pfield]
  | |- parses (collect _ _) (flat_map _ _) _ => eapply parses_vec; [eassumption|intros ? ? ?; pfield]
  | |- _ => solve [eauto with parses_db]
  end.
Ltac wfield ::=
  lazymatch goal with
  | |- wp no_err (ReadBits ?n) _ => apply (wp_u_ok n); try first [lia | unfold nz in *; lia]
  | |- wp no_err ReadExponentialGolomb _ => apply wp_ue_ok
  | |- wp no_err (ReadUeMax ?k) _ => apply (wp_ue_max k)
  | |- wp no_err (ReadHiLo ?k) _ => apply (wp_hilo k); lia
  | |- wp _ (ReadBits ?n) _ => apply wp_err; apply (wp_u_ok n); try first [lia | unfold nz in *; lia]
  | |- wp _ ReadExponentialGolomb _ => apply wp_err; apply wp_ue_ok
  | |- wp _ (ReadUeMax ?k) _ => apply wp_err; apply (wp_ue_max k)
  | |- wp _ (ReadHiLo ?k) _ => apply wp_err; apply (wp_hilo k); lia
  | |- wp _ (when _ _ _) _ => eapply wp_when; intros ?; wfield
  | |- wp _ (some _) _ => eapply wp_some; wfield
  | |- wp _ (collect _ _) _ => eapply wp_vec; intros ? ?; cbv beta; wfield
  | |- _ => solve [eauto with wp_db | apply wp_err; eauto with wp_db]
  end.
