(** Rules for C91: the work of a parser is at most proportional to the bits it consumes (or, if it fails, to the bits that were left). *)
From Coq Require Import ZArith List Bool Lia ZifyBool ZifyNat.
From Verif Require Import MBase MBitBuffer Spec BitsFacts Reader ReaderFacts Rules Syntax SyntaxSe MCommon CommonFacts PropsCommon MSyntaxA MSyntaxB MSps MPps MSlice MSei MNal MRtp
  FactsB FactsLocal FactsGrow SpecTime.
Import ListNotations.
Open Scope Z_scope.
Open Scope monad_scope.

Definition left (b : bb) : Z := Z.of_nat (length (rem b)).
Lemma left_nonneg b : 0 <= left b. Proof. unfold left. lia. Qed.
Lemma left_steps b b' bs : steps b b' bs -> left b = Z.of_nat (length bs) + left b'.
Proof. intros [H _]. unfold left. rewrite H, app_length. lia. Qed.
Lemma left_adv b n : wf b -> (n <= length (rem b))%nat -> left (adv b n) = left b - Z.of_nat n.
Proof. intros W H. unfold left. rewrite rem_adv by exact W. rewrite skipn_length. lia. Qed.

(** At most [a] steps per bit consumed and [c] more; if it fails, [a] steps per bit that was left and [c] more. *)
Definition timed (a c : Z) {A} (m : M A) : Prop := 0 <= a /\ 0 <= c /\ forall b, wf b -> exists k, takes m b k /\ 0 <= k /\
  match m b with
  | Ok _ b' => wf b' /\ left b' <= left b /\ k <= a * (left b - left b') + c
  | Fail b' => wf b' /\ left b' <= left b /\ k <= a * left b + c
  | Err _ => k <= a * left b + c
  end.
(** [x] is a value [m] returns. *)
Definition got {A} (m : M A) (x : A) : Prop := exists b b', wf b /\ m b = Ok x b'.
(** [m] consumes at least [n] bits whenever it returns a value. *)
Definition eats (n : Z) {A} (m : M A) : Prop := forall b x b', wf b -> m b = Ok x b' -> left b' <= left b - n.

Lemma timed_mono {A} a c a' c' (m : M A) : timed a c m -> a <= a' -> c <= c' -> timed a' c' m.
Proof.
  intros (Ha & Hc & H) La Lc. split; [lia|]. split; [lia|]. intros b W. destruct (H b W) as (k & T & K & R). exists k. split; [exact T|]. split; [exact K|].
  pose proof (left_nonneg b). destruct (m b) as [x b'|b'|e].
  - destruct R as (W' & L & B). split; [exact W'|]. split; [exact L|]. pose proof (left_nonneg b'). nia.
  - destruct R as (W' & L & B). split; [exact W'|]. split; [exact L|]. nia.
  - nia.
Qed.
Lemma timed_ret {A} (x : A) : timed 0 0 (ret x).
Proof. split; [lia|]. split; [lia|]. intros b W. exists 0. split; [apply T_ret|]. split; [lia|]. cbn. split; [exact W|lia]. Qed.
Lemma timed_fail {A} : timed 0 0 (@fail A).
Proof. split; [lia|]. split; [lia|]. intros b W. exists 0. split; [apply T_fail|]. split; [lia|]. cbn. split; [exact W|lia]. Qed.
Lemma timed_throw {A} e : timed 0 0 (@throw A e).
Proof. split; [lia|]. split; [lia|]. intros b W. exists 0. split; [apply T_throw|]. split; [lia|]. cbn. lia. Qed.
Lemma timed_bind_eats {A B} a1 c1 a2 c2 e n (m : M A) (f : A -> M B) : timed a1 c1 m -> eats n m -> 0 <= n -> 0 <= e -> 0 <= a2 -> 0 <= c2 ->
  (forall x, got m x -> timed a2 (c2 + e * n) (f x)) -> timed (Z.max (a1 + e) a2) (c1 + c2 + 1) (bind m f).
Proof.
  intros (Ha & Hc & H) En Hn He Ha2 Hc2 Hf. split; [lia|]. split; [lia|]. intros b W. destruct (H b W) as (k & T & K & R). pose proof (left_nonneg b) as L0.
  unfold bind at 2. destruct (m b) as [x b1|b1|er] eqn:E.
  - destruct R as (W1 & L1 & B1). destruct (Hf x) as (_ & _ & H2); [exists b, b1; auto|]. destruct (H2 b1 W1) as (k2 & T2 & K2 & R2).
    exists (k + k2 + 1). split; [eapply T_bind; eassumption|]. split; [lia|]. pose proof (left_nonneg b1). pose proof (En b x b1 W E) as EN.
    destruct (f x b1) as [y b2|b2|er].
    + destruct R2 as (W2 & L2 & B2). split; [exact W2|]. split; [lia|]. nia.
    + destruct R2 as (W2 & L2 & B2). split; [exact W2|]. split; [lia|]. nia.
    + nia.
  - destruct R as (W1 & L1 & B1). exists (k + 1). split; [eapply T_bind_fail; eassumption|]. split; [lia|]. split; [exact W1|]. split; [exact L1|]. nia.
  - exists (k + 1). split; [eapply T_bind_err; eassumption|]. split; [lia|]. nia.
Qed.
Lemma eats_0 {A} a c (m : M A) : timed a c m -> eats 0 m.
Proof. intros (_ & _ & H) b x b' W E. destruct (H b W) as (k & _ & _ & R). rewrite E in R. lia. Qed.
Lemma timed_pos {A} a c (m : M A) : timed a c m -> 0 <= a /\ 0 <= c.
Proof. intros H. split; apply H. Qed.
Lemma timed_bind {A B} a1 c1 a2 c2 (m : M A) (f : A -> M B) : timed a1 c1 m -> 0 <= a2 -> 0 <= c2 -> (forall x, got m x -> timed a2 c2 (f x)) ->
  timed (Z.max a1 a2) (c1 + c2 + 1) (bind m f).
Proof.
  intros H Ha Hc Hf. replace (Z.max a1 a2) with (Z.max (a1 + 0) a2) by lia. apply (timed_bind_eats a1 c1 a2 c2 0 0 m f); [exact H|eapply eats_0; exact H|lia|lia|lia|lia|].
  intros x G. replace (c2 + 0 * 0) with c2 by lia. apply Hf, G.
Qed.
Lemma timed_if {A} a1 c1 a2 c2 (c : bool) (m1 m2 : M A) : timed a1 c1 m1 -> timed a2 c2 m2 -> timed (Z.max a1 a2) (Z.max c1 c2) (if c then m1 else m2).
Proof. intros H1 H2. pose proof (timed_pos _ _ _ H1). pose proof (timed_pos _ _ _ H2). destruct c; eapply timed_mono; [exact H1|lia|lia|exact H2|lia|lia]. Qed.
Lemma timed_when {A} a c (t : bool) (m : M A) d : timed a c m -> timed a c (when t m d).
Proof. intros H. unfold when. destruct t; [exact H|]. pose proof (timed_pos _ _ _ H). eapply timed_mono; [apply timed_ret|lia|lia]. Qed.
Lemma timed_guard t : timed 0 0 (guard t). Proof. unfold guard. destruct t; [apply timed_ret|apply timed_fail]. Qed.
Lemma timed_at {A} (l : list A) i : timed 0 0 (at_ l i).
Proof. unfold at_. destruct (if i <? 0 then None else nth_error l (Z.to_nat i)); [apply timed_ret|apply timed_throw]. Qed.
Lemma timed_chk x : timed 0 0 (chk_i32 x). Proof. unfold chk_i32. destruct (in_i32 x); [apply timed_ret|apply timed_throw]. Qed.
Lemma timed_some {A} a c (m : M A) : timed a c m -> timed (Z.max a 0) (c + 0 + 1) (some m).
Proof. intros H. apply timed_bind; [exact H|lia|lia|]. intros x _. apply timed_ret. Qed.
Lemma timed_fmap {A B} a c (f : A -> B) (m : M A) : timed a c m -> timed (Z.max a 0) (c + 0 + 1) (fmap f m).
Proof. intros H. apply timed_bind; [exact H|lia|lia|]. intros x _. apply timed_ret. Qed.

(** * Loops *)
(** Every round consumes something. *)
Lemma timed_collect {A} a c n (body : Z -> M A) : 0 <= a -> 0 <= c -> (forall i, timed a c (body i)) -> (forall i, eats 1 (body i)) -> timed (a + c + 2) (c + 2) (collect n body).
Proof.
  intros Ha Hc H En. split; [lia|]. split; [lia|]. intros b W. rewrite collect_nat_eq.
  enough (Q : forall p i b, wf b -> exists k, takes (collect_nat p i body) b k /\ 0 <= k /\
    match collect_nat p i body b with
    | Ok _ b' => wf b' /\ left b' <= left b /\ k <= (a + c + 2) * (left b - left b') | Fail b' => wf b' /\ left b' <= left b /\ k <= (a + c + 2) * left b + (c + 2)
    | Err _ => k <= (a + c + 2) * left b + (c + 2) end).
  { destruct (Q (Z.to_nat n) 0 b W) as (k & T & K & R). exists k. split; [apply T_collect, T|]. split; [exact K|]. destruct (collect_nat _ _ _ _) as [l b'|b'|e]; [|exact R|exact R].
    destruct R as (W' & L & B). split; [exact W'|]. split; [exact L|lia]. }
  clear b W. induction p as [|p IH]; intros i b W; cbn [collect_nat].
  - exists 0. split; [apply T_ret|]. split; [lia|]. unfold ret. split; [exact W|]. split; [lia|]. nia.
  - destruct (H i) as (_ & _ & Hi). destruct (Hi b W) as (k & T & K & R). pose proof (left_nonneg b) as L0. unfold bind at 3. destruct (body i b) as [x b1|b1|er] eqn:E.
    + destruct R as (W1 & L1 & B1). pose proof (En i b x b1 W E) as EN. destruct (IH (i + 1) b1 W1) as (k2 & T2 & K2 & R2). pose proof (left_nonneg b1) as L01.
      unfold bind at 3. destruct (collect_nat p (i + 1) body b1) as [l b2|b2|er] eqn:E2.
      * destruct R2 as (W2 & L2 & B2). exists (k + (k2 + 0 + 1) + 1). split; [eapply T_bind; [exact E|exact T|]; eapply T_bind; [exact E2|exact T2|apply T_ret]|]. split; [lia|].
        unfold ret. split; [exact W2|]. split; [lia|]. nia.
      * destruct R2 as (W2 & L2 & B2). exists (k + (k2 + 1) + 1). split; [eapply T_bind; [exact E|exact T|]; eapply T_bind_fail; [exact E2|exact T2]|]. split; [lia|].
        split; [exact W2|]. split; [lia|]. nia.
      * exists (k + (k2 + 1) + 1). split; [eapply T_bind; [exact E|exact T|]; eapply T_bind_err; [exact E2|exact T2]|]. split; [lia|]. nia.
    + destruct R as (W1 & L1 & B1). exists (k + 1). split; [eapply T_bind_fail; eassumption|]. split; [lia|]. split; [exact W1|]. split; [exact L1|]. nia.
    + exists (k + 1). split; [eapply T_bind_err; eassumption|]. split; [lia|]. nia.
Qed.
(** At most [N] rounds. *)
Lemma timed_collect_few {A} N a c n (body : Z -> M A) : 0 <= a -> 0 <= c -> n <= N -> 0 <= N -> (forall i, timed a c (body i)) -> timed a ((c + 2) * N) (collect n body).
Proof.
  intros Ha Hc HN HN0 H. split; [lia|]. split; [lia|]. intros b W. rewrite collect_nat_eq.
  enough (Q : forall p i b, wf b -> exists k, takes (collect_nat p i body) b k /\ 0 <= k /\
    match collect_nat p i body b with
    | Ok _ b' => wf b' /\ left b' <= left b /\ k <= a * (left b - left b') + (c + 2) * Z.of_nat p | Fail b' => wf b' /\ left b' <= left b /\ k <= a * left b + (c + 2) * Z.of_nat p
    | Err _ => k <= a * left b + (c + 2) * Z.of_nat p end).
  { destruct (Q (Z.to_nat n) 0 b W) as (k & T & K & R). exists k. split; [apply T_collect, T|]. split; [exact K|]. assert ((c + 2) * Z.of_nat (Z.to_nat n) <= (c + 2) * N) by nia.
    destruct (collect_nat _ _ _ _) as [l b'|b'|e]; [| |lia]; destruct R as (W' & L & B); (split; [exact W'|]); lia. }
  clear b W. induction p as [|p IH]; intros i b W; cbn [collect_nat].
  - exists 0. split; [apply T_ret|]. split; [lia|]. unfold ret. split; [exact W|]. split; [lia|]. nia.
  - destruct (H i) as (_ & _ & Hi). destruct (Hi b W) as (k & T & K & R). pose proof (left_nonneg b) as L0. unfold bind at 3. destruct (body i b) as [x b1|b1|er] eqn:E.
    + destruct R as (W1 & L1 & B1). destruct (IH (i + 1) b1 W1) as (k2 & T2 & K2 & R2). pose proof (left_nonneg b1) as L01.
      unfold bind at 3. destruct (collect_nat p (i + 1) body b1) as [l b2|b2|er] eqn:E2.
      * destruct R2 as (W2 & L2 & B2). exists (k + (k2 + 0 + 1) + 1). split; [eapply T_bind; [exact E|exact T|]; eapply T_bind; [exact E2|exact T2|apply T_ret]|]. split; [lia|].
        unfold ret. split; [exact W2|]. split; [lia|]. nia.
      * destruct R2 as (W2 & L2 & B2). exists (k + (k2 + 1) + 1). split; [eapply T_bind; [exact E|exact T|]; eapply T_bind_fail; [exact E2|exact T2]|]. split; [lia|].
        split; [exact W2|]. split; [lia|]. nia.
      * exists (k + (k2 + 1) + 1). split; [eapply T_bind; [exact E|exact T|]; eapply T_bind_err; [exact E2|exact T2]|]. split; [lia|]. nia.
    + destruct R as (W1 & L1 & B1). exists (k + 1). split; [eapply T_bind_fail; eassumption|]. split; [lia|]. split; [exact W1|]. split; [exact L1|]. nia.
    + exists (k + 1). split; [eapply T_bind_err; eassumption|]. split; [lia|]. nia.
Qed.
(** A round of a recursive loop: what it costs is paid by the bits it consumes. *)
Lemma timed_round {A B} a1 c1 a c d (m : M A) (f : A -> M B) : timed a1 c1 m -> eats 1 m -> (forall x, got m x -> timed a (c + d) (f x)) -> 0 <= d -> a1 + c1 + d + 1 <= a -> c1 + 1 <= c ->
  timed a c (bind m f).
Proof.
  intros (Ha & Hc & H) En Hf Hd La Lc. split; [lia|]. split; [lia|]. intros b W. destruct (H b W) as (k & T & K & R). pose proof (left_nonneg b) as L0.
  unfold bind at 2. destruct (m b) as [x b1|b1|er] eqn:E.
  - destruct R as (W1 & L1 & B1). destruct (Hf x) as (_ & _ & H2); [exists b, b1; auto|]. destruct (H2 b1 W1) as (k2 & T2 & K2 & R2).
    exists (k + k2 + 1). split; [eapply T_bind; eassumption|]. split; [lia|]. pose proof (left_nonneg b1). pose proof (En b x b1 W E) as EN.
    destruct (f x b1) as [y b2|b2|er].
    + destruct R2 as (W2 & L2 & B2). split; [exact W2|]. split; [lia|]. nia.
    + destruct R2 as (W2 & L2 & B2). split; [exact W2|]. split; [lia|]. nia.
    + nia.
  - destruct R as (W1 & L1 & B1). exists (k + 1). split; [eapply T_bind_fail; eassumption|]. split; [lia|]. split; [exact W1|]. split; [exact L1|]. nia.
  - exists (k + 1). split; [eapply T_bind_err; eassumption|]. split; [lia|]. nia.
Qed.

(** * Consuming *)
(** As [eats], and the buffer is left in order. *)
Definition eat (n : Z) {A} (m : M A) : Prop := forall b x b', wf b -> m b = Ok x b' -> wf b' /\ left b' <= left b - n.
Lemma eat_eats {A} n (m : M A) : eat n m -> eats n m.
Proof. intros H b x b' W E. apply (H b x b' W E). Qed.
Lemma eat_timed {A} a c (m : M A) : timed a c m -> eat 0 m.
Proof. intros (_ & _ & H) b x b' W E. destruct (H b W) as (k & _ & _ & R). rewrite E in R. split; [apply R|lia]. Qed.
Lemma eat_local {A} (m : M A) : local m -> eat 0 m.
Proof. intros H b x b' W E. destruct (H b x b' W E I) as (bs & S & _). split; [apply (steps_wf _ _ _ W S)|]. rewrite (left_steps _ _ _ S). lia. Qed.
Lemma eat_bind_l {A B} n (m : M A) (f : A -> M B) : eat n m -> (forall x, eat 0 (f x)) -> eat n (bind m f).
Proof.
  intros H1 H2 b y b' W E. unfold bind in E. destruct (m b) as [x b1|b1|er] eqn:E1; [|discriminate|discriminate]. destruct (H1 b x b1 W E1) as [W1 L1].
  destruct (H2 x b1 y b' W1 E) as [W2 L2]. split; [exact W2|lia].
Qed.
Lemma eat_bind_r {A B} n (m : M A) (f : A -> M B) : eat 0 m -> (forall x, eat n (f x)) -> eat n (bind m f).
Proof.
  intros H1 H2 b y b' W E. unfold bind in E. destruct (m b) as [x b1|b1|er] eqn:E1; [|discriminate|discriminate]. destruct (H1 b x b1 W E1) as [W1 L1].
  destruct (H2 x b1 y b' W1 E) as [W2 L2]. split; [exact W2|lia].
Qed.
Lemma eat_bits n : eat 1 (ReadBits n).
Proof.
  intros b a b' W E. destruct (Z.ltb_spec 0 n) as [Hn|Hn].
  - rewrite (ReadBits_spec n b W Hn) in E. destruct (_ && _) eqn:C; [|discriminate E]. injection E as <- <-. split; [apply wf_adv; [exact W|lia]|]. rewrite left_adv; [lia|exact W|lia].
  - exfalso. unfold ReadBits, PeekBits, PeekBits_w, bind in E. replace (0 <? n) with false in E by lia. discriminate E.
Qed.
Lemma eat_ue : eat 1 ReadExponentialGolomb.
Proof.
  intros b a b' W E. pose proof (wp_ue b W) as H. rewrite E in H. destruct H as (bs & S & Ha & ->). split; [apply (steps_wf _ _ _ W S)|]. rewrite (left_steps _ _ _ S), length_enc_ue. lia.
Qed.
Lemma eat_collect {A} e n (body : Z -> M A) : 0 <= e -> (forall i, eat e (body i)) -> eat (e * n) (collect n body).
Proof.
  intros He H b l b' W E. rewrite collect_nat_eq in E. enough (Q : wf b' /\ left b' <= left b - e * Z.of_nat (Z.to_nat n)) by (split; [apply Q|nia]).
  revert b l b' W E. generalize (Z.to_nat n) as p. generalize 0 as i. intros i p. revert i.
  induction p as [|p IH]; intros i b l b' W E; cbn [collect_nat] in E.
  - unfold ret in E. injection E as <- <-. split; [exact W|lia].
  - apply bind_ok in E. destruct E as (x & b1 & E1 & E). apply bind_ok in E. destruct E as (r & b2 & E2 & E). unfold ret in E. injection E as <- <-.
    destruct (H i b x b1 W E1) as (W1 & L1). destruct (IH _ b1 r b2 W1 E2) as (W2 & L2). split; [exact W2|]. nia.
Qed.
Lemma eat_mono {A} n n' (m : M A) : eat n m -> n' <= n -> eat n' m.
Proof. intros H L b x b' W E. destruct (H b x b' W E) as [W' L']. split; [exact W'|lia]. Qed.
Lemma eat_if {A} n (c : bool) (m1 m2 : M A) : eat n m1 -> eat n m2 -> eat n (if c then m1 else m2).
Proof. destruct c; auto. Qed.
Create HintDb eat_db.
Lemma got_bits_max n k x : got (ReadBitsMax n k) x -> 0 <= x.
Proof. intros (b & b' & W & E). apply (grows_bits_max n k b x b' W E). Qed.
(** Proves [eat 1 m] from the first read of the parser [m] that is not optional. *)
Ltac eat1 :=
  lazymatch goal with
  | |- eat _ (ReadBits _) => apply eat_bits
  | |- eat _ ReadUInt8 => apply eat_bits
  | |- eat _ ReadExponentialGolomb => apply eat_ue
  | |- eat _ (ReadUeMax _) => unfold ReadUeMax; eat1
  | |- eat _ ReadSignedExponentialGolomb => unfold ReadSignedExponentialGolomb; eat1
  | |- eat _ (if _ then _ else _) => apply eat_if; eat1
  | |- eat _ (bind _ _) => first [ solve [apply eat_bind_l; [eat1 | intro; apply eat_local; lfield]] | apply eat_bind_r; [apply eat_local; lfield | intro; eat1] ]
  | |- eat _ (collect _ _) => eapply eat_mono; [apply (eat_collect 1); [lia | intro; eat1] | repeat match goal with H : got (ReadBitsMax _ _) _ |- _ => apply got_bits_max in H end; lia]
  | |- eat _ _ => solve [eauto with eat_db]
  end.

(** * Reading *)
Lemma timed_peek n : timed 0 1 (PeekBits n).
Proof.
  split; [lia|]. split; [lia|]. intros b W. exists 1. split; [apply T_peek|]. split; [lia|]. destruct (Z.ltb_spec 0 n) as [Hn|Hn].
  - unfold PeekBits. rewrite PeekBits_w_spec by (assumption || lia). destruct (_ && _); (split; [exact W|]); lia.
  - unfold PeekBits, PeekBits_w. replace (0 <? n) with false by lia. cbn. lia.
Qed.
Lemma timed_peek64 n : timed 0 1 (PeekBits64 n).
Proof.
  split; [lia|]. split; [lia|]. intros b W. exists 1. split; [apply T_peek64|]. split; [lia|]. destruct (Z.ltb_spec 0 n) as [Hn|Hn].
  - unfold PeekBits64. rewrite PeekBits_w_spec by (assumption || lia). destruct (_ && _); (split; [exact W|]); lia.
  - unfold PeekBits64, PeekBits_w. replace (0 <? n) with false by lia. cbn. lia.
Qed.
Lemma timed_consume n : 0 <= n -> timed 0 1 (ConsumeBits n).
Proof.
  intros Hn. split; [lia|]. split; [lia|]. intros b W. exists 1. split; [apply T_consume|]. split; [lia|]. rewrite ConsumeBits_spec by assumption.
  destruct (n <=? _) eqn:C; (split; [|]); [apply wf_adv; [exact W|lia]| |exact W|lia]. rewrite left_adv; [lia|exact W|lia].
Qed.
Lemma got_peek n x : got (PeekBits n) x -> 0 < n.
Proof. intros (b & b' & W & E). unfold PeekBits, PeekBits_w in E. destruct (0 <? n) eqn:C; [lia|discriminate E]. Qed.
Lemma got_peek64 n x : got (PeekBits64 n) x -> 0 < n.
Proof. intros (b & b' & W & E). unfold PeekBits64, PeekBits_w in E. destruct (0 <? n) eqn:C; [lia|discriminate E]. Qed.
Lemma timed_bits n : timed 0 4 (ReadBits n).
Proof.
  unfold ReadBits. eapply timed_mono; [apply (timed_bind 0 1 0 2); [apply timed_peek|lia|lia|]|lia|lia]. intros x G. apply got_peek in G.
  eapply timed_mono; [apply (timed_bind 0 1 0 0); [apply timed_consume; lia|lia|lia|]|lia|lia]. intros y _. apply timed_ret.
Qed.
Lemma timed_bits64 n : timed 0 4 (ReadBits64 n).
Proof.
  unfold ReadBits64. eapply timed_mono; [apply (timed_bind 0 1 0 2); [apply timed_peek64|lia|lia|]|lia|lia]. intros x G. apply got_peek64 in G.
  eapply timed_mono; [apply (timed_bind 0 1 0 0); [apply timed_consume; lia|lia|lia|]|lia|lia]. intros y _. apply timed_ret.
Qed.
Lemma takes_zero f : forall b z, wf b -> (lead0 (rem b) < f)%nat -> takes (zero_loop f z) b (2 * Z.of_nat (lead0 (rem b)) + 1).
Proof.
  induction f as [|f IH]; intros b z W H; [lia|]. pose proof (Peek1_spec b W) as P. destruct (rem b) as [|x r] eqn:E.
  - cbn. eapply T_zero_end. exact P.
  - destruct x; cbn [lead0] in *.
    + eapply T_zero_stop; [exact P|reflexivity].
    + assert (C : ConsumeBits 1 b = Ok tt (adv b 1)).
      { rewrite ConsumeBits_spec by (assumption || lia). rewrite E. cbn [length]. replace (1 <=? _) with true by lia. reflexivity. }
      assert (R : rem (adv b 1) = r) by (rewrite rem_adv, E by assumption; reflexivity).
      replace (2 * Z.of_nat (S (lead0 r)) + 1) with (2 * Z.of_nat (lead0 r) + 1 + 2) by lia.
      eapply T_zero_go; [exact P|exact C|]. rewrite <- R. apply IH; [apply wf_adv; [exact W|rewrite E; cbn; lia]|rewrite R; lia].
Qed.
Lemma timed_ue : timed 2 5 ReadExponentialGolomb.
Proof.
  split; [lia|]. split; [lia|]. intros b W. pose proof (lead0_le (rem b)) as LL. pose proof (remaining_spec b W) as RR. exists (2 * Z.of_nat (lead0 (rem b)) + 1 + 4). split; [|split; [lia|]].
  - apply T_ue. apply takes_zero; [exact W|lia].
  - rewrite ReadExponentialGolomb_spec by exact W. cbv zeta. destruct (_ && _) eqn:C.
    + apply andb_prop in C. destruct C as [C1 C2]. apply Nat.leb_le in C2. split; [apply wf_adv; [exact W|lia]|]. rewrite left_adv by (assumption || lia). lia.
    + split; [exact W|]. unfold left. lia.
Qed.

(** * Tactics *)
Create HintDb timed_db.
Ltac tpos := first [solve [apply Z.leb_le; vm_compute; reflexivity] | solve [repeat first [apply Z.max_case | apply Z.add_nonneg_nonneg | apply Z.mul_nonneg_nonneg]; lia]].
Ltac tfew := match goal with |- (if ?c then _ else _) <= _ => destruct c; apply Z.leb_le; reflexivity | |- _ => apply Z.leb_le; reflexivity end.
Ltac tfield :=
  lazymatch goal with
  | |- timed _ _ (ReadBits _) => apply timed_bits
  | |- timed _ _ (ReadBits64 _) => apply timed_bits64
  | |- timed _ _ ReadUInt8 => apply timed_bits
  | |- timed _ _ ReadExponentialGolomb => apply timed_ue
  | |- timed _ _ (ret _) => apply timed_ret
  | |- timed _ _ fail => apply timed_fail
  | |- timed _ _ (throw _) => apply timed_throw
  | |- timed _ _ (guard _) => apply timed_guard
  | |- timed _ _ (at_ _ _) => apply timed_at
  | |- timed _ _ (chk_i32 _) => apply timed_chk
  | |- timed _ _ (bind _ _) => eapply timed_bind; [tfield | | | intros ? ?; tfield]; [tpos | tpos]
  | |- timed _ _ (when _ _ _) => eapply timed_when; tfield
  | |- timed _ _ (if _ then _ else _) => eapply timed_if; tfield
  | |- timed _ _ (collect ?n _) =>
      lazymatch n with
      | if _ then 1 else 3 => eapply (timed_collect_few 3); [ | | tfew | lia | intro; tfield]; [tpos | tpos]
      | if _ then 2 else 6 => eapply (timed_collect_few 6); [ | | tfew | lia | intro; tfield]; [tpos | tpos]
      | Zpos _ => eapply (timed_collect_few n); [ | | tfew | lia | intro; tfield]; [tpos | tpos]
      | _ => eapply timed_collect; [ | | intro; tfield | intro; apply eat_eats; eat1]; [tpos | tpos]
      end
  | |- timed _ _ (some _) => eapply timed_some; tfield
  | |- timed _ _ (fmap _ _) => eapply timed_fmap; tfield
  | |- timed _ _ (let '(_, _) := ?x in _) => destruct x; tfield
  | |- timed _ _ (match ?x with Some _ => _ | None => _ end) => destruct x; tfield
  | |- timed _ _ _ => solve [eauto with timed_db]
  end.
(** [timed] with given bounds *)
Ltac tle := match goal with |- ?x <= ?y => let v := eval vm_compute in x in first [ apply Z.leb_le; vm_compute; reflexivity | idtac "bound" v "is above" y; fail 1 ] end.
Ltac tnum := eapply timed_mono; [tfield | tle | tle].
Lemma timed_se : timed 2 7 ReadSignedExponentialGolomb. Proof. unfold ReadSignedExponentialGolomb. tnum. Qed.
Lemma timed_ue_max k : timed 2 7 (ReadUeMax k). Proof. unfold ReadUeMax. tnum. Qed.
Lemma timed_bits_max n k : timed 0 6 (ReadBitsMax n k). Proof. unfold ReadBitsMax. tnum. Qed.
#[global] Hint Resolve timed_se timed_ue_max timed_bits_max : timed_db.
Lemma timed_hilo k : timed 0 10 (ReadHiLo k). Proof. unfold ReadHiLo. tnum. Qed.
Lemma timed_fixed n v : timed 0 5 (ReadFixed n v). Proof. unfold ReadFixed. tnum. Qed.
#[global] Hint Resolve timed_hilo timed_fixed : timed_db.

(** * The structures *)
Lemma timed_nal_header : timed 0 20 ParseNalUnitHeader. Proof. unfold ParseNalUnitHeader. tnum. Qed.
Lemma timed_profile_info : timed 0 400 ParseProfileInfo. Proof. unfold ParseProfileInfo. tnum. Qed.
#[global] Hint Resolve timed_nal_header timed_profile_info : timed_db.
Lemma timed_sub_layer fl i : timed 0 410 (read_sub_layer fl i). Proof. unfold read_sub_layer. tnum. Qed.
Lemma timed_ptl present n : timed 430 500 (ParseProfileTierLevel present n).
Proof.
  unfold ParseProfileTierLevel. eapply timed_mono; [apply (timed_bind 0 401 430 80); [tnum|lia|lia|]|lia|lia]. intros general _.
  eapply timed_mono; [apply (timed_bind 0 4 430 70); [tfield|lia|lia|]|lia|lia]. intros level _.
  eapply timed_mono; [apply (timed_bind_eats 12 12 6 10 412 (Z.max 0 n)); [unfold read_sub_layer_flags; tnum| |lia|lia|lia|lia|]|lia|lia].
  - apply eat_eats. intros b x b' W E. assert (eat (1 * n) (collect n (fun _ => read_sub_layer_flags))) as H by (apply eat_collect; [lia|]; intro; unfold read_sub_layer_flags; eat1).
    destruct (H b x b' W E) as [W' L]. split; [exact W'|]. assert (H0 : eat (0 * n) (collect n (fun _ => read_sub_layer_flags))) by (apply eat_collect; [lia|]; intro; apply eat_local; unfold read_sub_layer_flags; lfield).
    destruct (H0 b x b' W E). lia.
  - intros flags _. eapply timed_mono; [apply (timed_bind 6 6 0 (412 * Z.max 0 n + 1)); [tnum|lia|lia|]|lia|lia]. intros rz _.
    eapply timed_mono; [apply (timed_bind 0 (412 * Z.max 0 n) 0 0); [|lia|lia|intros; tfield]|lia|lia].
    eapply timed_mono; [apply (timed_collect_few (Z.max 0 n) 0 410); [lia|lia|lia|lia|intros; apply timed_sub_layer]|lia|lia].
Qed.
#[global] Hint Resolve timed_ptl : timed_db.
Lemma timed_sub_layer_hrd n sp : timed 40 40 (ParseSubLayerHrdParameters n sp). Proof. unfold ParseSubLayerHrdParameters, read_cpb_entry. tnum. Qed.
#[global] Hint Resolve timed_sub_layer_hrd : timed_db.
Lemma timed_hrd_sub nal vcl sp : timed 40 130 (read_hrd_sub nal vcl sp). Proof. unfold read_hrd_sub. tnum. Qed.
#[global] Hint Resolve timed_hrd_sub : timed_db.
Lemma eat_hrd_sub nal vcl sp : eat 1 (read_hrd_sub nal vcl sp). Proof. unfold read_hrd_sub. eat1. Qed.
#[global] Hint Resolve eat_hrd_sub : eat_db.
Lemma timed_hrd common n : timed 180 210 (ParseHrdParameters common n). Proof. unfold ParseHrdParameters. cbv zeta. tnum. Qed.
#[global] Hint Resolve timed_hrd : timed_db.
Lemma timed_vui n : timed 180 500 (ParseVuiParameters n). Proof. unfold ParseVuiParameters. tnum. Qed.
#[global] Hint Resolve timed_vui : timed_db.
Lemma timed_vps_body : timed 700 900 ParseVpsBody.
Proof.
  unfold ParseVpsBody, read_ordering_info, read_vps_hrd. tnum.
Qed.
Lemma timed_sps_range_ext : timed 0 45 ParseSpsRangeExtension. Proof. unfold ParseSpsRangeExtension. tnum. Qed.
Lemma timed_sps_ml_ext : timed 0 4 ParseSpsMultilayerExtension. Proof. unfold ParseSpsMultilayerExtension. tnum. Qed.
Lemma timed_sps_3d_ext : timed 2 90 ParseSps3dExtension. Proof. unfold ParseSps3dExtension. tnum. Qed.
Lemma timed_sps_scc_ext cf l c : timed 6 80 (ParseSpsSccExtension cf l c). Proof. unfold ParseSpsSccExtension. tnum. Qed.
#[global] Hint Resolve timed_sps_range_ext timed_sps_ml_ext timed_sps_3d_ext timed_sps_scc_ext : timed_db.
Lemma timed_for {A} a c n (body : Z -> A -> M A) x : 0 <= a -> 0 <= c -> (forall i y, timed a c (body i y)) -> (forall i y, eats 1 (body i y)) -> timed (a + c + 1) (c + 1) (for_loop n body x).
Proof.
  intros Ha Hc H En. assert (Q : forall p i x, timed (a + c + 1) (c + 1) (for_nat p i body x)).
  { induction p as [|p IH]; intros i y; cbn [for_nat]; [eapply timed_mono; [apply timed_ret|lia|lia]|]. apply (timed_round a c (a + c + 1) (c + 1) 0); [apply H|apply En| |lia|lia|lia].
    intros z _. replace (c + 1 + 0) with (c + 1) by lia. apply IH. }
  split; [lia|]. split; [lia|]. intros b W. rewrite for_loop_nat. destruct (Q (Z.to_nat n) 0 x) as (_ & _ & Q'). destruct (Q' b W) as (k & T & R). exists k. split; [apply T_for, T|exact R].
Qed.
Lemma timed_coefs start num : timed 13 12 (read_coefs start num).
Proof.
  unfold read_coefs. eapply timed_mono; [apply (timed_bind (2 + 10 + 1) (10 + 1) 0 0); [|lia|lia|intros; apply timed_ret]|lia|lia].
  apply timed_for; [lia|lia| |]; intros i [[next ds] cs]; unfold coef_step; [tnum|apply eat_eats; eat1].
Qed.
#[global] Hint Resolve timed_coefs : timed_db.
Lemma timed_scaling_list size : timed 13 40 (read_scaling_list size). Proof. unfold read_scaling_list. cbv zeta. tnum. Qed.
#[global] Hint Resolve timed_scaling_list : timed_db.
Lemma timed_scaling_list_data : timed 13 1016 ParseScalingListData. Proof. unfold ParseScalingListData. tnum. Qed.
#[global] Hint Resolve timed_scaling_list_data : timed_db.

(** The derivation of a reference picture set: at most 16 pictures of each sign. *)
Lemma timed_cum_poc sign l n : forall i d, 0 <= i -> timed 0 (6 * Z.max 0 (16 - i) + 1) (cum_poc sign l n i d).
Proof.
  induction n as [|n IH]; intros i d Hi; cbn [cum_poc]; [eapply timed_mono; [apply timed_ret|lia|lia]|]. unfold guard, HEVC_MAX_REFS in *. destruct (i <? 16) eqn:C.
  - eapply timed_mono; [apply (timed_bind 0 0 0 (6 * Z.max 0 (16 - (i + 1)) + 1 + 4)); [apply timed_ret|lia|lia|]|lia|lia]. intros _ _.
    eapply timed_mono; [apply (timed_bind 0 0 0 (6 * Z.max 0 (16 - (i + 1)) + 1 + 3)); [apply timed_at|lia|lia|]|lia|lia]. intros e _.
    eapply timed_mono; [apply (timed_bind 0 0 0 (6 * Z.max 0 (16 - (i + 1)) + 1 + 2)); [apply timed_chk|lia|lia|]|lia|lia]. intros t _.
    eapply timed_mono; [apply (timed_bind 0 0 0 (6 * Z.max 0 (16 - (i + 1)) + 1 + 1)); [apply timed_chk|lia|lia|]|lia|lia]. intros d' _.
    eapply timed_mono; [apply (timed_bind 0 (6 * Z.max 0 (16 - (i + 1)) + 1) 0 0); [apply IH; lia|lia|lia|]|lia|lia]. intros r _. apply timed_ret.
  - eapply timed_mono; [apply (timed_bind 0 0 0 0); [apply timed_fail|lia|lia|]|lia|lia]. intros x (b & b' & _ & E). discriminate E.
Qed.
Lemma cum_poc_few sign l n : forall i d b r b', 0 <= i <= 16 -> cum_poc sign l n i d b = Ok r b' -> Z.of_nat n + i <= 16.
Proof.
  induction n as [|n IH]; intros i d b r b' Hi E; cbn [cum_poc] in E; [lia|]. unfold guard, HEVC_MAX_REFS in E. destruct (i <? 16) eqn:C; [|discriminate E].
  inv_ok E. match goal with H : cum_poc _ _ _ _ _ _ = _ |- _ => apply IH in H; lia end.
Qed.
Lemma got_cum_poc sign l n r : got (cum_poc sign l (Z.to_nat n) 0 0) r -> n <= 16.
Proof. intros (b & b' & _ & E). apply cum_poc_few in E; lia. Qed.
Lemma timed_push_cand sign fl d fi out : timed 0 2 (push_cand sign fl d fi out). Proof. unfold push_cand. tnum. Qed.
#[global] Hint Resolve timed_push_cand : timed_db.
Lemma timed_cand_loop sign fl delta ref base js : forall out, timed 0 (5 * Z.of_nat (length js)) (cand_loop sign fl delta ref base js out).
Proof.
  induction js as [|j js IH]; intros out; cbn [cand_loop]; [apply timed_ret|]. eapply timed_mono; [apply (timed_bind 0 0 0 (4 + 5 * Z.of_nat (length js))); [apply timed_at|lia|lia|]|lia|cbn [length]; lia]. intros x _.
  eapply timed_mono; [apply (timed_bind 0 0 0 (3 + 5 * Z.of_nat (length js))); [apply timed_chk|lia|lia|]|lia|lia]. intros dp _.
  eapply timed_mono; [apply (timed_bind 0 2 0 (5 * Z.of_nat (length js))); [apply timed_push_cand|lia|lia|]|lia|lia]. intros o _. apply IH.
Qed.
Lemma push_cand_few sign fl d fi out b r b' : push_cand sign fl d fi out b = Ok r b' -> (length out <= 16)%nat -> (length r <= 16)%nat.
Proof.
  unfold push_cand. destruct (0 <? sign * d); [|intros E H; unfold ret in E; congruence]. intros E H. apply bind_ok in E. destruct E as (x & b1 & _ & E). destruct (nz (snd x)); [|unfold ret in E; congruence].
  unfold guard, HEVC_MAX_REFS in E. destruct (_ <? 16) eqn:C; [|discriminate E]. cbn in E. injection E as <- _. rewrite app_length. cbn [length]. lia.
Qed.
Lemma cand_loop_few sign fl delta ref base js : forall out b r b', cand_loop sign fl delta ref base js out b = Ok r b' -> (length out <= 16)%nat -> (length r <= 16)%nat.
Proof.
  induction js as [|j js IH]; intros out b r b' E H; cbn [cand_loop] in E; [unfold ret in E; congruence|]. apply bind_ok in E. destruct E as (x & b1 & _ & E). apply bind_ok in E. destruct E as (y & b2 & _ & E).
  apply bind_ok in E. destruct E as (o & b3 & E3 & E). apply push_cand_few in E3; [|exact H]. apply (IH _ _ _ _ E E3).
Qed.
Lemma timed_minus1s sign l : forall prev, timed 0 (4 * Z.of_nat (length l)) (minus1s sign prev l).
Proof.
  induction l as [|[d u] l IH]; intros prev; cbn [minus1s]; [apply timed_ret|]. eapply timed_mono; [apply (timed_bind 0 0 0 (3 + 4 * Z.of_nat (length l))); [apply timed_chk|lia|lia|]|lia|cbn [length]; lia]. intros x _.
  eapply timed_mono; [apply (timed_bind 0 0 0 (2 + 4 * Z.of_nat (length l))); [apply timed_chk|lia|lia|]|lia|lia]. intros y _.
  eapply timed_mono; [apply (timed_bind 0 0 0 (1 + 4 * Z.of_nat (length l))); [apply timed_chk|lia|lia|]|lia|lia]. intros z _.
  eapply timed_mono; [apply (timed_bind 0 (4 * Z.of_nat (length l)) 0 0); [apply IH|lia|lia|]|lia|lia]. intros o _. apply timed_ret.
Qed.
Lemma length_upto n : length (upto n) = Z.to_nat n.
Proof. unfold upto. rewrite map_length, seq_length. reflexivity. Qed.
Lemma timed_cand_few sign fl delta ref base js out : (length js <= 16)%nat -> timed 0 80 (cand_loop sign fl delta ref base js out).
Proof. intros H. eapply timed_mono; [apply timed_cand_loop|lia|lia]. Qed.
Lemma timed_minus1s_few sign prev l : (length l <= 16)%nat -> timed 0 64 (minus1s sign prev l).
Proof. intros H. eapply timed_mono; [apply timed_minus1s|lia|lia]. Qed.
Ltac tb a c a2 c2 := eapply timed_mono; [apply (timed_bind a c a2 c2); [|lia|lia|]|lia|lia].
Lemma timed_derive ref sign abs fl : timed 0 700 (DeriveValues ref sign abs fl).
Proof.
  unfold DeriveValues. cbv zeta. tb 0 0 0 699; [apply timed_chk|]. intros delta _.
  tb 0 97 0 601; [eapply timed_mono; [apply timed_cum_poc; lia|lia|lia]|]. intros r0 G0. apply got_cum_poc in G0.
  tb 0 97 0 503; [eapply timed_mono; [apply timed_cum_poc; lia|lia|lia]|]. intros r1 G1. apply got_cum_poc in G1.
  assert (L1 : (length (upto (num_positive_pics ref)) <= 16)%nat) by (rewrite length_upto; lia). assert (L0 : (length (upto (num_negative_pics ref)) <= 16)%nat) by (rewrite length_upto; lia).
  tb 0 80 0 422; [apply timed_cand_few; rewrite rev_length; exact L1|]. intros o1 (b1 & b1' & _ & E1). apply cand_loop_few in E1; [|cbn; lia].
  tb 0 2 0 419; [apply timed_push_cand|]. intros o2 (b2 & b2' & _ & E2). apply push_cand_few in E2; [|exact E1].
  tb 0 80 0 338; [apply timed_cand_few; exact L0|]. intros o3 (b3 & b3' & _ & E3). apply cand_loop_few in E3; [|exact E2].
  tb 0 64 0 273; [apply timed_minus1s_few; exact E3|]. intros s0 _.
  tb 0 80 0 192; [apply timed_cand_few; rewrite rev_length; exact L0|]. intros o4 (b4 & b4' & _ & E4). apply cand_loop_few in E4; [|cbn; lia].
  tb 0 2 0 189; [apply timed_push_cand|]. intros o5 (b5 & b5' & _ & E5). apply push_cand_few in E5; [|exact E4].
  tb 0 80 0 108; [apply timed_cand_few; exact L1|]. intros o6 (b6 & b6' & _ & E6). apply cand_loop_few in E6; [|exact E5].
  tb 0 64 0 43; [apply timed_minus1s_few; exact E6|]. intros s1 _. eapply timed_mono; [apply timed_ret|lia|lia].
Qed.
#[global] Hint Resolve timed_derive : timed_db.
Lemma timed_rps idx num sets max : timed 20 800 (ParseStRefPicSet idx num sets max).
Proof. unfold ParseStRefPicSet, read_rps_inter, read_rps_explicit, read_rps_flag, read_rps_entry. cbv zeta. tnum. Qed.
Lemma eat_rps idx num sets max : eat 1 (ParseStRefPicSet idx num sets max).
Proof. unfold ParseStRefPicSet, read_rps_inter, read_rps_explicit, read_rps_flag, read_rps_entry. cbv zeta. eat1. Qed.
#[global] Hint Resolve timed_rps eat_rps : timed_db.
Lemma timed_rps_loop k num : forall sets, timed 821 801 (rps_loop k num sets).
Proof.
  induction k as [|k IH]; intros sets; cbn [rps_loop]; [eapply timed_mono; [apply timed_ret|lia|lia]|]. apply (timed_round 20 800 821 801 0); [apply timed_rps|apply eat_eats, eat_rps| |lia|lia|lia].
  intros x _. eapply timed_mono; [apply IH|lia|lia].
Qed.
#[global] Hint Resolve timed_rps_loop : timed_db.
Lemma timed_rps_sets num : timed 821 801 (read_rps_sets num). Proof. unfold read_rps_sets. apply timed_rps_loop. Qed.
#[global] Hint Resolve timed_rps_sets : timed_db.
Lemma timed_sps_body : timed 821 3400 ParseSpsBody.
Proof. unfold ParseSpsBody, read_pic_size, read_sps_ordering, read_lt. cbv zeta. tnum. Qed.
Lemma timed_pps_ml_ext : timed 200 200 ParsePpsMultilayerExtension.
Proof. unfold ParsePpsMultilayerExtension, read_ref_loc, read_quad. tnum. Qed.
Lemma timed_pps_scc_ext : timed 20 200 ParsePpsSccExtension.
Proof. unfold ParsePpsSccExtension, read_palette_entry. tnum. Qed.
#[global] Hint Resolve timed_pps_ml_ext timed_pps_scc_ext : timed_db.
Lemma timed_pwt_entry chroma lf cf i : timed 2 60 (read_pwt_entry chroma lf cf i). Proof. unfold read_pwt_entry, read_luma_weight, read_quad. tnum. Qed.
Lemma timed_pwt cat n : timed 70 100 (ParsePredWeightTable cat n).
Proof.
  unfold ParsePredWeightTable. tb 2 5 70 90; [tnum|]. intros denom _. tb 2 7 70 80; [tnum|]. intros dchroma _.
  eapply timed_mono; [apply (timed_bind_eats 6 6 6 10 62 (Z.max 0 (n + 1))); [tnum| |lia|lia|lia|lia|]|lia|lia].
  - apply eat_eats. intros b x b' W E. destruct (eat_collect 1 (n + 1) (fun _ => ReadBits 1) ltac:(lia) (fun _ => eat_bits 1) b x b' W E) as [W' L]. split; [exact W'|].
    destruct (eat_local _ (local_collect (n + 1) (fun _ => ReadBits 1) (fun _ => local_bits 1)) b x b' W E). lia.
  - intros lf _. eapply timed_mono; [apply (timed_bind 6 6 2 (62 * Z.max 0 (n + 1) + 1)); [tnum|lia|lia|]|lia|lia]. intros cf _.
    eapply timed_mono; [apply (timed_bind 2 (62 * Z.max 0 (n + 1)) 0 0); [|lia|lia|intros; apply timed_ret]|lia|lia].
    eapply timed_mono; [apply (timed_collect_few (Z.max 0 (n + 1)) 2 60); [lia|lia|lia|lia|intros; apply timed_pwt_entry]|lia|lia].
Qed.
#[global] Hint Resolve timed_pwt : timed_db.
Lemma timed_act p : timed 0 0 (act_offsets_present p).
Proof. unfold act_offsets_present. destruct (nz _); [|apply timed_ret]. destruct (pps_scc_extension p); [apply timed_ret|apply timed_throw]. Qed.
Lemma timed_size first s : timed 0 0 (size_conversion first s).
Proof. unfold size_conversion. repeat (destruct (_ : bool); [first [apply timed_ret | apply timed_throw]|]). apply timed_ret. Qed.
Lemma timed_height s p : timed 0 0 (height_shift s p).
Proof. unfold height_shift. destruct (_ : bool); [apply timed_throw|apply timed_ret]. Qed.
#[global] Hint Resolve timed_act timed_size timed_height : timed_db.
Lemma timed_slice_rest nut s p first noout pid : timed 70 1500 (slice_rest nut s p first noout pid).
Proof. unfold slice_rest, read_lt_entry. cbv zeta. tnum. Qed.
Lemma timed_slice nut st : timed 70 1520 (ParseSliceSegmentHeader nut st).
Proof.
  unfold ParseSliceSegmentHeader. tb 0 4 70 1512; [tnum|]. intros a _. tb 0 4 70 1506; [tnum|]. intros c _. tb 2 5 70 1500; [tnum|]. intros d _.
  destruct (st_pps st d) as [[p x]|]; [|eapply timed_mono; [apply timed_fail|lia|lia]]. destruct (st_sps st _) as [[s y]|]; [|eapply timed_mono; [apply timed_fail|lia|lia]]. apply timed_slice_rest.
Qed.

(** * Trailing bits and extension data *)
Lemma timed_attempt0 {A} c (m : M A) : timed 0 c m -> timed 0 (c + 1) (attempt m).
Proof.
  intros (Ha & Hc & H). split; [lia|]. split; [lia|]. intros b W. destruct (H b W) as (k & T & K & R). exists (k + 1). split; [apply T_attempt, T|]. split; [lia|]. unfold attempt.
  destruct (m b) as [x b'|b'|e]; [| |lia]; destruct R as (W' & L & B); (split; [exact W'|]); lia.
Qed.
Lemma timed_trailing_loop f : timed 0 (6 * Z.of_nat f + 1) (trailing_loop f).
Proof.
  induction f as [|f IH]; (split; [lia|]; split; [lia|]); intros b W.
  - exists 1. split; [apply T_trailing_fuel|]. split; [lia|]. cbn [trailing_loop]. destruct (byte_aligned b); [split; [exact W|lia]|lia].
  - destruct (byte_aligned b) eqn:C.
    + exists 1. split; [apply T_trailing_stop, C|]. split; [lia|]. cbn [trailing_loop]. rewrite C. split; [exact W|lia].
    + assert (Q : timed 0 (4 + (6 * Z.of_nat f + 1) + 1) (bind (ReadBits 1) (fun x => if negb (x =? 0) then fail else trailing_loop f))).
      { apply (timed_bind 0 4 0); [apply timed_bits|lia|lia|]. intros x _. eapply timed_mono; [eapply timed_if; [apply timed_fail|apply IH]|lia|lia]. }
      destruct Q as (_ & _ & Q). destruct (Q b W) as (k & T & K & R). exists (k + 1). split; [apply T_trailing_go; assumption|]. split; [lia|]. cbn [trailing_loop]. rewrite C.
      destruct (bind _ _ b) as [x b'|b'|e]; [| |lia]; destruct R as (W' & L & B); (split; [exact W'|]); lia.
Qed.
Lemma timed_trailing : timed 0 60 rbsp_trailing_bits.
Proof.
  unfold rbsp_trailing_bits. tb 0 4 0 49; [apply timed_bits|]. intros x _. eapply timed_mono; [eapply timed_if; [apply timed_fail|apply timed_trailing_loop]|lia|lia].
Qed.
Lemma takes_ext f : forall b x, wf b -> left b <= Z.of_nat f -> exists k y b', takes (ext_loop f x) b k /\ 0 <= k /\ ext_loop f x b = Ok y b' /\ wf b' /\ left b' <= left b /\ k <= 6 * (left b - left b') + 1.
Proof.
  induction f as [|f IH]; intros b x W L; destruct (C11_never_moves b W) as (v & E); destruct v.
  - apply more_true_nonempty in E; [|exact W]. unfold left in L. destruct (rem b); [congruence|cbn in L; lia].
  - exists 1, x, b. split; [eapply T_ext_stop, E|]. split; [lia|]. split; [cbn [ext_loop]; rewrite E; reflexivity|]. split; [exact W|lia].
  - pose proof E as E0. apply more_true_nonempty in E; [|exact W]. destruct (rem b) as [|y r] eqn:R; [congruence|]. pose proof (ReadBit1 b y r W R) as RB.
    assert (W1 : wf (adv b 1)) by (apply wf_adv; [exact W|rewrite R; cbn; lia]). assert (L1 : left (adv b 1) = left b - 1) by (rewrite left_adv; [lia|exact W|rewrite R; cbn; lia]).
    destruct (IH (adv b 1) (Z.b2z y) W1 ltac:(lia)) as (k & z & b' & T & K & Ez & W' & L' & B).
    destruct (timed_bits 1) as (_ & _ & TB). destruct (TB b W) as (kb & Tb & Kb & Rb). rewrite RB in Rb. destruct Rb as (_ & _ & Bb).
    exists (kb + k + 1 + 1), z, b'. split; [eapply T_ext_go; [exact E0|]; eapply T_bind; [exact RB|exact Tb|exact T]|]. split; [lia|].
    split; [cbn [ext_loop]; rewrite E0; unfold bind; rewrite RB; exact Ez|]. split; [exact W'|]. lia.
  - exists 1, x, b. split; [eapply T_ext_stop, E|]. split; [lia|]. split; [cbn [ext_loop]; rewrite E; reflexivity|]. split; [exact W|lia].
Qed.
Lemma timed_ext : timed 6 2 ext_data.
Proof.
  split; [lia|]. split; [lia|]. intros b W. destruct (takes_ext (Z.to_nat (remaining b)) b 0 W) as (k & y & b' & T & K & E & W' & L & B).
  { rewrite remaining_spec by exact W. unfold left. lia. }
  exists (k + 1). split; [apply T_ext, T|]. split; [lia|]. unfold ext_data. rewrite E. split; [exact W'|]. lia.
Qed.
#[global] Hint Resolve timed_ext : timed_db.
Lemma timed_finish {A} a c (has : A -> bool) (body : M A) : timed a c body -> timed (Z.max a 6) (c + 70) (finish has body).
Proof.
  intros H. pose proof (timed_pos _ _ _ H). unfold finish. eapply timed_mono; [apply (timed_bind a c 6 65); [exact H|lia|lia|]|lia|lia]. intros s _.
  tb 6 2 0 62; [apply timed_when, timed_ext|]. intros fl _. tb 0 61 0 0; [exact (timed_attempt0 60 _ timed_trailing)|]. intros o _. apply timed_ret.
Qed.
Lemma timed_aud : timed 0 70 ParseAud.
Proof. unfold ParseAud. tb 0 4 0 62; [apply timed_bits|]. intros p _. tb 0 61 0 0; [exact (timed_attempt0 60 _ timed_trailing)|]. intros o _. apply timed_ret. Qed.
Lemma timed_vps : timed 700 970 ParseVps. Proof. eapply timed_mono; [apply timed_finish, timed_vps_body|lia|lia]. Qed.
Lemma timed_sps : timed 821 3470 ParseSps. Proof. eapply timed_mono; [apply timed_finish, timed_sps_body|lia|lia]. Qed.

(** * SEI *)
Lemma timed_ff_loop f : forall acc, timed 7 7 (ff_loop f acc).
Proof.
  induction f as [|f IH]; intros acc; cbn [ff_loop]; [eapply timed_mono; [apply timed_throw|lia|lia]|]. apply (timed_round 0 4 7 7 1); [apply timed_bits|apply eat_eats, eat_bits| |lia|lia|lia].
  intros v _. eapply timed_mono; [apply (timed_bind 0 0 7 7); [apply timed_guard|lia|lia|]|lia|lia]. intros u _. eapply timed_mono; [eapply timed_if; [apply IH|apply timed_ret]|lia|lia].
Qed.
Lemma timed_ff : timed 7 8 read_ff.
Proof.
  split; [lia|]. split; [lia|]. intros b W. destruct (timed_ff_loop (S (length (bb_bytes b))) 0) as (_ & _ & H). destruct (H b W) as (k & T & K & R). exists (k + 1).
  split; [apply T_ff, T|]. split; [lia|]. unfold read_ff. destruct (ff_loop _ _ b) as [x b'|b'|e]; [| |lia]; destruct R as (W' & L & B); (split; [exact W'|]); lia.
Qed.
Lemma timed_payload ty size : timed 40 300 (parse_payload ty size).
Proof.
  unfold parse_payload, parse_t35, parse_unregistered, parse_mastering, parse_light, parse_knee, parse_remap, parse_ccv, parse_ambient, parse_alpha, parse_unknown,
    read_lut, read_pair, read_i32_pair, ReadI32. cbv zeta. tnum.
Qed.
Lemma timed_hvcc_header : timed 0 400 ParseHvccHeader. Proof. unfold ParseHvccHeader. tnum. Qed.

(** * Parsers that go on after a failed part: at most [a] steps per bit that was left, and [c] more *)
Definition lin (a c : Z) {A} (m : M A) : Prop := 0 <= a /\ 0 <= c /\ forall b, wf b -> exists k, takes m b k /\ 0 <= k <= a * left b + c /\
  match m b with Ok _ b' | Fail b' => wf b' /\ left b' <= left b | Err _ => True end.
Lemma lin_timed {A} a c (m : M A) : timed a c m -> lin a c m.
Proof.
  intros (Ha & Hc & H). split; [exact Ha|]. split; [exact Hc|]. intros b W. destruct (H b W) as (k & T & K & R). exists k. split; [exact T|]. pose proof (left_nonneg b).
  destruct (m b) as [x b'|b'|e]; [| |lia]; destruct R as (W' & L & B); pose proof (left_nonneg b'); (split; [nia|]); (split; [exact W'|exact L]).
Qed.
Lemma lin_mono {A} a c a' c' (m : M A) : lin a c m -> a <= a' -> c <= c' -> lin a' c' m.
Proof.
  intros (Ha & Hc & H) La Lc. split; [lia|]. split; [lia|]. intros b W. destruct (H b W) as (k & T & K & R). exists k. split; [exact T|]. split; [|exact R]. pose proof (left_nonneg b). nia.
Qed.
Lemma lin_bind {A B} a1 c1 a2 c2 (m : M A) (f : A -> M B) : lin a1 c1 m -> 0 <= a2 -> 0 <= c2 -> (forall x, lin a2 c2 (f x)) -> lin (a1 + a2) (c1 + c2 + 1) (bind m f).
Proof.
  intros (Ha & Hc & H) Ha2 Hc2 Hf. split; [lia|]. split; [lia|]. intros b W. destruct (H b W) as (k & T & K & R). pose proof (left_nonneg b) as L0. unfold bind at 2. destruct (m b) as [x b1|b1|er] eqn:E.
  - destruct R as (W1 & L1). destruct (Hf x) as (_ & _ & H2). destruct (H2 b1 W1) as (k2 & T2 & K2 & R2). exists (k + k2 + 1). split; [eapply T_bind; eassumption|].
    pose proof (left_nonneg b1). split; [nia|]. destruct (f x b1) as [y b2|b2|er]; [| |exact I]; destruct R2 as (W2 & L2); (split; [exact W2|lia]).
  - exists (k + 1). split; [eapply T_bind_fail; eassumption|]. split; [nia|]. exact R.
  - exists (k + 1). split; [eapply T_bind_err; eassumption|]. split; [nia|]. exact I.
Qed.
(** The rest does not fail after a part of it: only its constant is added to the cost of the first part. *)
Lemma lin_attempt {A} a c (m : M A) : lin a c m -> lin a (c + 1) (attempt m).
Proof.
  intros (Ha & Hc & H). split; [lia|]. split; [lia|]. intros b W. destruct (H b W) as (k & T & K & R). exists (k + 1). split; [apply T_attempt, T|]. split; [lia|]. unfold attempt.
  destruct (m b) as [x b'|b'|e]; exact R.
Qed.
Lemma lin_timed_bind {A B} a1 c1 a2 c2 (m : M A) (f : A -> M B) : timed a1 c1 m -> 0 <= a2 -> 0 <= c2 -> (forall x, lin a2 c2 (f x)) -> lin (Z.max a1 a2) (c1 + c2 + 1) (bind m f).
Proof.
  intros (Ha & Hc & H) Ha2 Hc2 Hf. split; [lia|]. split; [lia|]. intros b W. destruct (H b W) as (k & T & K & R). pose proof (left_nonneg b) as L0. unfold bind at 2. destruct (m b) as [x b1|b1|er] eqn:E.
  - destruct R as (W1 & L1 & B1). destruct (Hf x) as (_ & _ & H2). destruct (H2 b1 W1) as (k2 & T2 & K2 & R2). exists (k + k2 + 1). split; [eapply T_bind; eassumption|].
    pose proof (left_nonneg b1). split; [nia|]. destruct (f x b1) as [y b2|b2|er]; [| |exact I]; destruct R2 as (W2 & L2); (split; [exact W2|lia]).
  - destruct R as (W1 & L1 & B1). exists (k + 1). split; [eapply T_bind_fail; eassumption|]. split; [nia|]. split; [exact W1|exact L1].
  - exists (k + 1). split; [eapply T_bind_err; eassumption|]. split; [nia|]. exact I.
Qed.
Lemma lin_ret {A} (x : A) : lin 0 0 (ret x). Proof. apply lin_timed, timed_ret. Qed.
Lemma lin_when {A} a c (t : bool) (m : M A) d : lin a c m -> lin a c (when t m d).
Proof. intros H. unfold when. destruct t; [exact H|]. destruct H as (Ha & Hc & _). eapply lin_mono; [apply lin_ret|lia|lia]. Qed.

(** The PPS goes on after a multilayer extension that could not be read. *)
Ltac lb := eapply lin_timed_bind; [tfield | tpos | tpos | intro].
Ltac lrun := lazymatch goal with
  | |- lin _ _ (bind (when _ (attempt _) _) _) => eapply lin_bind; [eapply lin_when, lin_attempt, lin_timed; tfield | | | intro; lrun]; [tpos | tpos]
  | |- lin _ _ (bind (attempt _) _) => eapply lin_bind; [eapply lin_attempt, lin_timed; tfield | | | intro; lrun]; [tpos | tpos]
  | |- lin _ _ (bind _ _) => eapply lin_timed_bind; [tfield | | | intro; lrun]; [tpos | tpos]
  | |- lin _ _ (ret _) => apply lin_ret
  end.
Ltac lnum := eapply lin_mono; [lrun | tle | tle].
Lemma lin_pps_body : lin 220 2000 ParsePpsBody. Proof. unfold ParsePpsBody. lnum. Qed.
Lemma lin_finish {A} a c (has : A -> bool) (body : M A) : lin a c body -> lin (a + 6) (c + 70) (finish has body).
Proof.
  intros H. pose proof H as (Ha & Hc & _). unfold finish. eapply lin_mono; [apply (lin_bind a c 6 65); [exact H|lia|lia|]|lia|lia]. intros s. apply lin_timed.
  tb 6 2 0 62; [apply timed_when, timed_ext|]. intros fl _. tb 0 61 0 0; [exact (timed_attempt0 60 _ timed_trailing)|]. intros o _. apply timed_ret.
Qed.
Lemma lin_pps : lin 230 2070 ParsePps. Proof. eapply lin_mono; [apply lin_finish, lin_pps_body|lia|lia]. Qed.
#[global] Hint Resolve timed_payload timed_ff : timed_db.
Lemma lin_sei : lin 40 330 ParseSei. Proof. unfold ParseSei. lnum. Qed.

(** * NAL units *)
Lemma lin_nal_payload ty st : lin 821 3480 (ParseNalUnitPayload ty st).
Proof.
  unfold ParseNalUnitPayload. repeat match goal with |- lin _ _ (if ?c then _ else _) => destruct c end.
  - eapply lin_mono; [eapply (lin_bind _ _ 0 0); [eapply lin_attempt, lin_timed, timed_slice|lia|lia|intro; apply lin_ret]|lia|lia].
  - eapply lin_mono; [eapply (lin_bind _ _ 0 0); [eapply lin_attempt, lin_timed, timed_vps|lia|lia|intro; apply lin_ret]|lia|lia].
  - eapply lin_mono; [eapply (lin_bind _ _ 0 0); [eapply lin_attempt, lin_timed, timed_sps|lia|lia|intro; apply lin_ret]|lia|lia].
  - eapply lin_mono; [eapply (lin_bind _ _ 0 0); [eapply lin_attempt, lin_pps|lia|lia|intro; apply lin_ret]|lia|lia].
  - eapply lin_mono; [eapply (lin_bind _ _ 0 0); [eapply lin_attempt, lin_timed, timed_aud|lia|lia|intro; apply lin_ret]|lia|lia].
  - eapply lin_mono; [eapply (lin_bind _ _ 0 0); [eapply lin_attempt, lin_sei|lia|lia|intro; apply lin_ret]|lia|lia].
  - eapply lin_mono; [apply lin_ret|lia|lia].
Qed.
Lemma lin_sbind {A B} a1 c1 a2 c2 (m : SM A) (f : A -> SM B) st : lin a1 c1 (m st) -> 0 <= a2 -> 0 <= c2 -> (forall x st', lin a2 c2 (f x st')) -> lin (a1 + a2) (c1 + c2 + 1) (sbind m f st).
Proof.
  intros H Ha Hc Hf. unfold sbind. apply lin_bind; [exact H|exact Ha|exact Hc|]. intros [[x|] st']; [apply Hf|]. eapply lin_mono; [apply lin_ret|lia|lia].
Qed.
Lemma lin_lift {A} a c (m : M A) st : lin a c m -> lin a (c + 2) (lift m st).
Proof. intros H. pose proof H as (Ha & Hc & _). unfold lift. eapply lin_mono; [eapply (lin_bind _ _ 0 0); [apply lin_attempt, H|lia|lia|intro; apply lin_ret]|lia|lia]. Qed.
Lemma lin_remaining : lin 0 1 (fun b => Ok (remaining b) b).
Proof. split; [lia|]. split; [lia|]. intros b W. exists 1. split; [apply T_remaining|]. split; [lia|]. split; [exact W|lia]. Qed.
Lemma lin_offset : lin 0 1 (fun b => Ok (get_current_offset b) b).
Proof. split; [lia|]. split; [lia|]. intros b W. exists 1. split; [apply T_offset|]. split; [lia|]. split; [exact W|lia]. Qed.

(** The checksum *)
Lemma takes_sum f : forall b s, wf b -> left b < Z.of_nat f -> exists k y b', takes (sum32_loop f s) b k /\ 0 <= k <= 5 * left b + 5 /\ sum32_loop f s b = Ok y b' /\ wf b' /\ left b' <= left b /\
  bb_bytes b' = bb_bytes b /\ bb_count b' = bb_count b.
Proof.
  induction f as [|f IH]; intros b s W L; [pose proof (left_nonneg b); lia|]. destruct (timed_bits 32) as (_ & _ & TB). destruct (TB b W) as (kb & Tb & Kb & Rb). change (ReadBits 32) with ReadUInt32 in *.
  pose proof (left_nonneg b) as L0. assert (E : ReadUInt32 b = if (32 <=? left b) && true then Ok (bval (firstn 32 (rem b))) (adv b 32) else Fail b) by (exact (ReadBits_spec 32 b W ltac:(lia))).
  rewrite andb_true_r in E. destruct (32 <=? left b) eqn:C; rewrite E in Rb.
  - destruct Rb as (W1 & _ & B). assert (L1 : left (adv b 32) = left b - 32) by (rewrite left_adv; [reflexivity|exact W|unfold left in C; lia]).
    destruct (IH (adv b 32) (u64 (s + bval (firstn 32 (rem b)))) W1 ltac:(lia)) as (k & y & b' & T & K & Ey & W' & L' & Q1 & Q2).
    exists (kb + k + 1), y, b'. split; [eapply T_sum_go; [exact E|exact Tb|exact T]|]. split; [lia|]. split; [cbn [sum32_loop]; rewrite E; exact Ey|]. split; [exact W'|]. split; [lia|]. split; [exact Q1|exact Q2].
  - exists (kb + 1), s, b. split; [eapply T_sum_stop; [exact E|exact Tb]|]. split; [lia|]. split; [cbn [sum32_loop]; rewrite E; reflexivity|]. split; [exact W|]. split; [lia|]. split; reflexivity.
Qed.
Lemma takes_tail f : forall b i v8 v, wf b -> exists k, takes (tail_loop f i v8 v) b k /\ 0 <= k <= 5 * Z.of_nat f + 1 /\
  match tail_loop f i v8 v b with Ok _ b' => bb_bytes b' = bb_bytes b /\ bb_count b' = bb_count b | Fail _ => False | Err _ => True end.
Proof.
  induction f as [|f IH]; intros b i v8 v W.
  - exists 1. split; [apply T_tail_fuel|]. split; [lia|]. cbn [tail_loop]. destruct (negb _); [split; reflexivity|exact I].
  - destruct (0 <? remaining b) eqn:C.
    2:{ exists 1. split; [apply T_tail_stop, C|]. split; [lia|]. cbn [tail_loop]. rewrite C. split; reflexivity. }
    destruct (timed_bits 8) as (_ & _ & TB). destruct (TB b W) as (kb & Tb & Kb & Rb). change (ReadBits 8) with ReadUInt8 in *.
    assert (E : ReadUInt8 b = if (8 <=? left b) && true then Ok (bval (firstn 8 (rem b))) (adv b 8) else Fail b) by (exact (ReadBits_spec 8 b W ltac:(lia))).
    rewrite andb_true_r in E. assert (KB : 0 <= kb <= 4) by (destruct (ReadUInt8 b); lia). destruct (3 <? i) eqn:I3.
    + exists (kb + 1). split; [apply T_tail_over; assumption|]. split; [lia|]. cbn [tail_loop]. rewrite C, I3. cbn [negb]. rewrite E. destruct (8 <=? left b); exact I.
    + destruct (8 <=? left b) eqn:C8.
      * rewrite E in Rb. destruct Rb as (W1 & _). set (x := bval (firstn 8 (rem b))) in *. destruct (IH (adv b 8) (i + 1) x (Z.lor v (u32 (Z.shiftl x (8 * (3 - i))))) W1) as (k & T & K & R).
        exists (kb + k + 1). split; [eapply T_tail_go; eassumption|]. split; [lia|]. cbn [tail_loop]. rewrite C, I3. cbn [negb]. rewrite E. exact R.
      * destruct (IH b (i + 1) v8 (Z.lor v (u32 (Z.shiftl v8 (8 * (3 - i))))) W) as (k & T & K & R).
        exists (kb + k + 1). split; [eapply T_tail_keep; eassumption|]. split; [lia|]. cbn [tail_loop]. rewrite C, I3. cbn [negb]. rewrite E. exact R.
Qed.
Lemma lin_checksum : lin 5 40 GetNaluChecksum.
Proof.
  split; [lia|]. split; [lia|]. intros b W. destruct (takes_sum (S (Z.to_nat (remaining b))) b 0 W) as (k & y & b1 & T & K & E & W1 & L1 & Q1 & Q2).
  { rewrite remaining_spec by exact W. unfold left. lia. }
  destruct (takes_tail 6 b1 0 0 0 W1) as (k2 & T2 & K2 & R2). exists (k + k2 + 2). split; [eapply T_checksum; eassumption|]. split; [lia|].
  unfold GetNaluChecksum. cbv zeta. rewrite E. destruct (tail_loop 6 0 0 0 b1) as [[i v] b2|b2|e]; [|destruct R2|exact I]. destruct R2 as [Q3 Q4].
  rewrite (Seek_back b b2 W) by congruence. split; [exact W|lia].
Qed.
Lemma lin_nal opts st : lin 830 3600 (ParseNalUnitBuffer opts st).
Proof.
  unfold ParseNalUnitBuffer. eapply lin_mono; [eapply (lin_sbind 5 50 821 3530)|lia|lia]; [|lia|lia|].
  - destruct (add_checksum opts); [|eapply lin_mono; [apply lin_ret|lia|lia]]. eapply lin_mono; [eapply (lin_sbind 5 42 0 0); [apply (lin_lift 5 40), lin_checksum|lia|lia|intros; apply lin_ret]|lia|lia].
  - intros cs st1. eapply lin_mono; [eapply (lin_sbind 0 22 821 3500)|lia|lia]; [apply (lin_lift 0 20), lin_timed, timed_nal_header|lia|lia|]. intros h st2.
    eapply lin_mono; [eapply (lin_sbind 821 3480 0 10)|lia|lia]; [apply lin_nal_payload|lia|lia|]. intros p st3.
    eapply lin_mono; [eapply (lin_sbind 0 3 0 0)|lia|lia]; [apply (lin_lift 0 1), lin_offset|lia|lia|]. intros n st4. apply lin_ret.
Qed.
