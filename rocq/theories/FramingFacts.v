(** Specification of NAL unit framing and facts about the model in MFraming.v. *)
From Coq Require Import ZArith List Bool Lia ZifyBool ZifyNat.
From Verif Require Import MBase MBitBuffer MCommon Spec BitsFacts Reader ReaderFacts CommonFacts MFraming.
Import ListNotations.
Open Scope Z_scope.
Ltac Zify.zify_post_hook ::= Z.div_mod_to_equations.

(** * Specification (Annex B) *)
(** 00 00 01 at [p], followed by at least one more byte. *)
Definition is_start_code (data : list Z) (p : nat) : bool :=
  ((p + 3 <? length data)%nat) &&
  (nth p data 1 =? 0) && (nth (p + 1) data 1 =? 0) && (nth (p + 2) data 0 =? 1).

(** All of them, in order. *)
Definition start_codes (data : list Z) : list nat :=
  filter (is_start_code data) (seq 0 (length data)).

(** The extra zero byte of a four-byte start code belongs to it. *)
Definition start_code_begin (data : list Z) (p : nat) : nat :=
  match p with
  | O => O
  | S q => if nth q data 1 =? 0 then q else p
  end.

(** One unit per start code: it runs to the beginning of the next start code or to the end. *)
Fixpoint units_at (data : list Z) (ps : list nat) : list nalu_index :=
  match ps with
  | [] => []
  | p :: r =>
    let stop := match r with [] => length data | q :: _ => start_code_begin data q end in
    mkIx (Z.of_nat (start_code_begin data p)) (Z.of_nat (p + 3)) (Z.of_nat stop - Z.of_nat (p + 3))
    :: units_at data r
  end.
Definition annexb_units (data : list Z) : list nalu_index := units_at data (start_codes data).

(** * Facts *)
Lemma byte_at_nat l n d : (n < length l)%nat -> byte_at l (Z.of_nat n) = Some (nth n l d).
Proof.
  intros H. rewrite byte_at_nth by lia. rewrite Nat2Z.id. apply nth_error_nth'. exact H.
Qed.

Lemma nth10 (data : list Z) n : (n < length data)%nat -> nth n data 1 = nth n data 0.
Proof. apply nth_indep. Qed.

Definition add_unit (data : list Z) (rev_seqs : list nalu_index) (p : nat) : list nalu_index :=
  mkIx (Z.of_nat (start_code_begin data p)) (Z.of_nat (p + 3)) 0
  :: set_last_size (Z.of_nat (start_code_begin data p)) rev_seqs.

Lemma filter_seq_skip (f : nat -> bool) i n :
  f i = false -> filter f (seq i n) = filter f (seq (S i) (n - 1)).
Proof.
  intros H. destruct n; [reflexivity|]. cbn [seq filter]. rewrite H.
  replace (S n - 1)%nat with n by lia. reflexivity.
Qed.

Lemma filter_seq_none (f : nat -> bool) : forall n i,
  (forall j, (i <= j)%nat -> f j = false) -> filter f (seq i n) = [].
Proof.
  induction n as [|n IH]; intros i H; [reflexivity|]. cbn [seq filter].
  rewrite H by lia. apply IH. intros j Hj. apply H. lia.
Qed.

Lemma find_loop_spec data : forall fuel i rev_seqs,
  (length data - i <= fuel)%nat ->
  find_loop fuel data (Z.of_nat i) (Z.of_nat (length data) - 3) rev_seqs
  = Done (fold_left (add_unit data) (filter (is_start_code data) (seq i (length data - i))) rev_seqs).
Proof.
  induction fuel as [|f IH]; intros i acc Hf; cbn [find_loop].
  - destruct (Z.ltb_spec (Z.of_nat i) (Z.of_nat (length data) - 3)); [lia|]. cbn [negb].
    replace (length data - i)%nat with 0%nat by lia. reflexivity.
  - destruct (Z.ltb_spec (Z.of_nat i) (Z.of_nat (length data) - 3)) as [Hi|Hi]; cbn [negb].
    2:{ rewrite filter_seq_none; [reflexivity|]. intros j Hj. unfold is_start_code.
        destruct (Nat.ltb_spec (j + 3) (length data)); [lia|reflexivity]. }
    assert (E2 : Z.of_nat i + 2 = Z.of_nat (i + 2)) by lia.
    assert (E1 : Z.of_nat i + 1 = Z.of_nat (i + 1)) by lia.
    assert (E3 : Z.of_nat i + 3 = Z.of_nat (i + 3)) by lia.
    rewrite E1, E2, E3.
    rewrite (byte_at_nat data (i + 2) 0) by lia.
    assert (Skip3 : nth (i + 2) data 0 <> 0 ->
      filter (is_start_code data) (seq (S i) (length data - i - 1))
      = filter (is_start_code data) (seq (i + 3) (length data - (i + 3)))).
    { intros Hn.
      rewrite (filter_seq_skip _ (S i)).
      2:{ unfold is_start_code. replace (S i + 1)%nat with (i + 2)%nat by lia.
          rewrite (nth10 data (i + 2)) by lia.
          destruct (Z.eqb_spec (nth (i + 2) data 0) 0); [contradiction|]. lia. }
      rewrite (filter_seq_skip _ (S (S i))).
      2:{ unfold is_start_code. replace (S (S i)) with (i + 2)%nat by lia.
          rewrite (nth10 data (i + 2)) by lia.
          destruct (Z.eqb_spec (nth (i + 2) data 0) 0); [contradiction|]. lia. }
      f_equal. f_equal; lia. }
    destruct (Z.ltb_spec 1 (nth (i + 2) data 0)) as [Hd|Hd].
    + rewrite IH by lia. do 2 f_equal.
      rewrite (filter_seq_skip _ i).
      2:{ unfold is_start_code. destruct (Z.eqb_spec (nth (i + 2) data 0) 1); [lia|].
          rewrite !andb_false_r. reflexivity. }
      rewrite Skip3 by lia. reflexivity.
    + rewrite (byte_at_nat data (i + 1) 1), (byte_at_nat data i 1) by lia.
      assert (Hsc : is_start_code data i =
        (nth (i + 2) data 0 =? 1) && (nth (i + 1) data 1 =? 0) && (nth i data 1 =? 0)).
      { unfold is_start_code. destruct (Nat.ltb_spec (i + 3) (length data)); [|lia].
        destruct (nth (i + 2) data 0 =? 1), (nth (i + 1) data 1 =? 0), (nth i data 1 =? 0); reflexivity. }
      rewrite <- Hsc. destruct (is_start_code data i) eqn:Sc.
      * assert (Hn : nth (i + 2) data 0 <> 0) by (destruct (Z.eqb_spec (nth (i + 2) data 0) 1); [lia|cbn in Hsc; discriminate]).
        replace (length data - i)%nat with (S (length data - i - 1)) by lia.
        cbn [seq filter]. rewrite Sc. cbn [fold_left]. rewrite Skip3 by exact Hn.
        unfold add_unit at 2.
        destruct (Z.ltb_spec 0 (Z.of_nat i)) as [Hp|Hp].
        -- destruct i as [|q]; [lia|].
           replace (Z.of_nat (S q) - 1) with (Z.of_nat q) by lia.
           rewrite (byte_at_nat data q 1) by lia. unfold start_code_begin.
           destruct (nth q data 1 =? 0); rewrite IH by lia; reflexivity.
        -- destruct i as [|q]; [|lia]. cbn [start_code_begin]. rewrite IH by lia. reflexivity.
      * rewrite IH by lia. rewrite (filter_seq_skip _ i) by exact Sc. do 4 f_equal; lia.
Qed.

(** The list produced by the loop, once the last size is set, is the specification. *)
Lemma set_last_fold data stop : forall ps acc,
  Forall (fun p => (p + 3 <= length data)%nat) ps ->
  (forall p q l1 l2, ps = l1 ++ p :: q :: l2 -> (p + 3 <= start_code_begin data q)%nat) ->
  stop = Z.of_nat (length data) -> stop < 2 ^ 64 ->
  rev (set_last_size stop (fold_left (add_unit data) ps acc))
  = match ps with
    | [] => rev (set_last_size stop acc)
    | p :: _ => rev (set_last_size (Z.of_nat (start_code_begin data p)) acc) ++ units_at data ps
    end.
Proof.
  induction ps as [|p ps IH]; intros acc Hl Hs E L; [reflexivity|].
  cbn [fold_left]. inversion Hl; subst x l. rewrite IH; [|assumption| |assumption|assumption].
  2:{ intros p' q l1 l2 ->. apply (Hs p' q (p :: l1) l2). reflexivity. }
  unfold add_unit. cbn [set_last_size start_offset payload_start_offset].
  destruct ps as [|q r]; cbn [units_at].
  - cbn [rev]. subst stop. unfold u64. rewrite Z.mod_small by lia. reflexivity.
  - cbn [rev]. rewrite <- app_assoc. cbn [app]. do 3 f_equal.
    specialize (Hs p q [] r eq_refl). inversion H2; subst x l.
    assert (start_code_begin data q <= q)%nat by (unfold start_code_begin; destruct q; [|destruct (_ =? _)]; lia).
    unfold u64. rewrite Z.mod_small by lia. reflexivity.
Qed.

Lemma start_codes_In data p : In p (start_codes data) <-> is_start_code data p = true.
Proof.
  unfold start_codes. rewrite filter_In, in_seq. split; [tauto|]. intros H. split; [|exact H].
  unfold is_start_code in H. lia.
Qed.

Lemma filter_seq_lt (f : nat -> bool) p q l2 : forall n i l1,
  filter f (seq i n) = l1 ++ p :: q :: l2 -> (p < q)%nat.
Proof.
  assert (Hge : forall n i x, In x (filter f (seq i n)) -> (i <= x)%nat).
  { intros n i x H. apply filter_In in H. destruct H as [H _]. apply in_seq in H. lia. }
  induction n as [|n IH]; intros i l1 H.
  - destruct l1; discriminate.
  - cbn [seq filter] in H. destruct (f i) eqn:F.
    + destruct l1 as [|a l1]; cbn [app] in H; inversion H; subst.
      * assert (S p <= q)%nat; [|lia]. apply (Hge n (S p) q). rewrite H2. left; reflexivity.
      * eapply IH; eassumption.
    + eapply IH; eassumption.
Qed.

Lemma start_codes_sep data p q l1 l2 :
  start_codes data = l1 ++ p :: q :: l2 -> (p + 3 <= start_code_begin data q)%nat.
Proof.
  intros H. pose proof (filter_seq_lt _ _ _ _ _ _ _ H) as Hlt.
  assert (Hp : is_start_code data p = true) by (apply start_codes_In; rewrite H; apply in_or_app; right; left; reflexivity).
  assert (Hq : is_start_code data q = true) by (apply start_codes_In; rewrite H; apply in_or_app; right; right; left; reflexivity).
  unfold is_start_code in Hp, Hq.
  assert (Hq3 : (p + 3 <= q)%nat).
  { destruct (Nat.eq_dec q (p + 1)) as [->|]; [|destruct (Nat.eq_dec q (p + 2)) as [->|]; [|lia]].
    - replace (p + 1 + 1)%nat with (p + 2)%nat in Hq by lia.
      rewrite (nth10 data (p + 2)) in Hq by lia. lia.
    - rewrite (nth10 data (p + 2)) in Hq by lia. lia. }
  unfold start_code_begin. destruct q as [|q]; [lia|].
  destruct (Z.eqb_spec (nth q data 1) 0) as [Hz|]; [|lia].
  destruct (Nat.eq_dec q (p + 2)) as [->|]; [|lia].
  rewrite (nth10 data (p + 2)) in Hz by lia. lia.
Qed.

Lemma start_codes_bound data : Forall (fun p => (p + 3 < length data)%nat) (start_codes data).
Proof.
  apply Forall_forall. intros p H. apply start_codes_In in H. unfold is_start_code in H. lia.
Qed.

Lemma FindNaluIndices_spec data :
  Z.of_nat (length data) < 2 ^ 64 -> FindNaluIndices data = Done (annexb_units data).
Proof.
  intros L. unfold FindNaluIndices. destruct (Z.ltb_spec (Z.of_nat (length data)) 3) as [H|H].
  - unfold annexb_units. replace (start_codes data) with (@nil nat); [reflexivity|].
    symmetry. apply filter_seq_none. intros j _. unfold is_start_code. lia.
  - change 0 with (Z.of_nat 0). rewrite find_loop_spec by lia. f_equal.
    rewrite Nat.sub_0_r. fold (start_codes data).
    rewrite (set_last_fold data).
    + unfold annexb_units. destruct (start_codes data); reflexivity.
    + eapply Forall_impl; [|apply start_codes_bound]. cbv beta. intros; lia.
    + apply start_codes_sep.
    + reflexivity.
    + exact L.
Qed.

(** * Annex B byte streams: concatenations of a start code and a NAL unit *)
Definition start_code (long : bool) : list Z := if long then [0; 0; 0; 1] else [0; 0; 1].
Definition annexb_stream (us : list (bool * list Z)) : list Z :=
  flat_map (fun u => start_code (fst u) ++ snd u) us.

Definition no_start_code (n : list Z) : Prop :=
  forall pre post, n <> pre ++ [0; 0; 1] ++ post.
(** A NAL unit that can be framed: not empty, not ending in a zero byte, no 00 00 01 inside. *)
Definition nal_ok (n : list Z) : Prop := n <> [] /\ last n 0 <> 0 /\ no_start_code n.

(** The bytes a NALU index designates. *)
Definition payload (data : list Z) (ix : nalu_index) : list Z :=
  firstn (Z.to_nat (payload_size ix)) (skipn (Z.to_nat (payload_start_offset ix)) data).

Lemma nth_split3 (n : list Z) k : (k + 2 < length n)%nat ->
  n = firstn k n ++ [nth k n 1; nth (k + 1) n 1; nth (k + 2) n 0] ++ skipn (k + 3) n.
Proof.
  revert k; induction n as [|x n IH]; intros k H; cbn [length] in H; [lia|].
  destruct k as [|k].
  - destruct n as [|y [|z n]]; cbn [length] in H; try lia. reflexivity.
  - cbn [firstn skipn Nat.add nth app]. f_equal. apply IH. lia.
Qed.

Lemma last_nth (n : list Z) d : n <> [] -> last n d = nth (length n - 1) n d.
Proof.
  induction n as [|x n IH]; [congruence|]. intros _. destruct n as [|y n]; [reflexivity|].
  change (last (x :: y :: n) d) with (last (y :: n) d). rewrite IH by congruence. cbn [length].
  replace (S (S (length n)) - 1)%nat with (S (S (length n) - 1)) by lia. reflexivity.
Qed.

Lemma no_sc_in_nal n rest k : nal_ok n -> (k < length n)%nat ->
  is_start_code (n ++ rest) k = false.
Proof.
  intros (Hne & Hl & Hs) Hk. unfold is_start_code.
  destruct (Nat.ltb_spec (k + 3) (length (n ++ rest))) as [Hb|]; [|reflexivity].
  rewrite last_nth in Hl by exact Hne. rewrite <- nth10 in Hl by lia.
  destruct (Nat.ltb_spec (k + 2) (length n)) as [H2|H2].
  - rewrite !app_nth1 by lia. cbn [andb].
    destruct (Z.eqb_spec (nth k n 1) 0) as [E0|]; [|reflexivity].
    destruct (Z.eqb_spec (nth (k + 1) n 1) 0) as [E1|]; [|reflexivity].
    destruct (Z.eqb_spec (nth (k + 2) n 0) 1) as [E2|]; [|reflexivity].
    exfalso. apply (Hs (firstn k n) (skipn (k + 3) n)).
    rewrite (nth_split3 n k H2) at 1. rewrite E0, E1, E2. reflexivity.
  - rewrite (app_nth1 n rest 1 Hk).
    destruct (Nat.eq_dec (k + 1) (length n)) as [E|E].
    + replace (length n - 1)%nat with k in Hl by lia.
      destruct (Z.eqb_spec (nth k n 1) 0); [contradiction|reflexivity].
    + replace (length n - 1)%nat with (k + 1)%nat in Hl by lia.
      rewrite (app_nth1 n rest 1 (n := k + 1)) by lia.
      destruct (Z.eqb_spec (nth (k + 1) n 1) 0); [contradiction|].
      rewrite andb_false_r. reflexivity.
Qed.

Lemma is_sc_app pre l j : is_start_code (pre ++ l) (length pre + j) = is_start_code l j.
Proof.
  unfold is_start_code. rewrite app_length.
  rewrite !app_nth2 by lia.
  replace (length pre + j - length pre)%nat with j by lia.
  replace (length pre + j + 1 - length pre)%nat with (j + 1)%nat by lia.
  replace (length pre + j + 2 - length pre)%nat with (j + 2)%nat by lia.
  replace (length pre + j + 3 <? length pre + length l)%nat with (j + 3 <? length l)%nat; [reflexivity|].
  destruct (Nat.ltb_spec (j + 3) (length l)), (Nat.ltb_spec (length pre + j + 3) (length pre + length l)); lia.
Qed.

Lemma filter_seq_nal pre n rest : nal_ok n ->
  filter (is_start_code (pre ++ n ++ rest)) (seq (length pre) (length n)) = [].
Proof.
  intros H.
  assert (G : forall m j, (j + m = length n)%nat ->
    filter (is_start_code (pre ++ n ++ rest)) (seq (length pre + j) m) = []).
  { induction m as [|m IH]; intros j Hj; [reflexivity|]. cbn [seq filter].
    rewrite is_sc_app, no_sc_in_nal by (assumption || lia).
    replace (S (length pre + j)) with (length pre + S j)%nat by lia. apply IH. lia. }
  specialize (G (length n) 0%nat eq_refl). rewrite Nat.add_0_r in G. exact G.
Qed.

Definition b2n (b : bool) : nat := if b then 1%nat else 0%nat.
Fixpoint sc_positions (off : nat) (us : list (bool * list Z)) : list nat :=
  match us with
  | [] => []
  | u :: r => (off + b2n (fst u))%nat :: sc_positions (off + b2n (fst u) + 3 + length (snd u)) r
  end.

Lemma stream_positions us : Forall (fun u => nal_ok (snd u)) us -> forall pre,
  filter (is_start_code (pre ++ annexb_stream us)) (seq (length pre) (length (annexb_stream us)))
  = sc_positions (length pre) us.
Proof.
  induction us as [|[long n] us IH]; intros H pre; [reflexivity|].
  inversion H as [|? ? Hn Hr]; subst. cbn [snd] in Hn. specialize (IH Hr).
  cbn [annexb_stream flat_map]. fold (annexb_stream us). cbn [fst snd].
  set (rest := annexb_stream us) in *.
  assert (Hne : (0 < length n)%nat) by (destruct n; [destruct Hn; congruence|cbn; lia]).
  rewrite !app_length, !seq_app, !filter_app.
  rewrite <- (app_length pre (start_code long)).
  replace (pre ++ (start_code long ++ n) ++ rest) with ((pre ++ start_code long) ++ n ++ rest)
    by (rewrite <- !app_assoc; reflexivity).
  rewrite filter_seq_nal by exact Hn. cbn [app].
  replace (length (start_code long) + length n + length pre)%nat
    with (length ((pre ++ start_code long) ++ n)) by (rewrite !app_length; lia).
  replace (length pre + (length (start_code long) + length n))%nat
    with (length ((pre ++ start_code long) ++ n)) by (rewrite !app_length; lia).
  rewrite (app_assoc (pre ++ start_code long) n rest) at 2.
  rewrite IH. cbn [sc_positions fst snd].
  replace (length pre + b2n long + 3 + length n)%nat with (length ((pre ++ start_code long) ++ n))
    by (rewrite !app_length; destruct long; cbn [b2n start_code length]; lia).
  rewrite <- app_assoc.
  change ((length pre + b2n long)%nat :: sc_positions (length ((pre ++ start_code long) ++ n)) us)
    with ([(length pre + b2n long)%nat] ++ sc_positions (length ((pre ++ start_code long) ++ n)) us).
  rewrite app_nil_r || idtac. f_equal.
  destruct n as [|x n]; [cbn in Hne; lia|].
  pose proof (is_sc_app pre (start_code long ++ (x :: n) ++ rest)) as A.
  rewrite (app_assoc pre (start_code long)) in A.
  destruct long; cbn [start_code length seq filter b2n].
  - pose proof (A 0%nat) as A0. pose proof (A 1%nat) as A1. pose proof (A 2%nat) as A2. pose proof (A 3%nat) as A3.
    cbn [start_code] in A0, A1, A2, A3.
    replace (S (S (S (length pre)))) with (length pre + 3)%nat by lia.
    replace (S (S (length pre))) with (length pre + 2)%nat by lia.
    replace (S (length pre)) with (length pre + 1)%nat by lia.
    replace (length pre) with (length pre + 0)%nat at 1 by lia.
    rewrite A0, A1, A2, A3.
    unfold is_start_code. cbn [app nth Nat.add length Nat.ltb Nat.leb]. 
    change (0 =? 0) with true. change (0 =? 1) with false. change (1 =? 0) with false. change (1 =? 1) with true.
    cbn [andb]. rewrite ?andb_false_r. reflexivity.
  - pose proof (A 0%nat) as A0. pose proof (A 1%nat) as A1. pose proof (A 2%nat) as A2.
    cbn [start_code] in A0, A1, A2.
    replace (S (S (length pre))) with (length pre + 2)%nat by lia.
    replace (S (length pre)) with (length pre + 1)%nat by lia.
    replace (length pre) with (length pre + 0)%nat at 1 by lia.
    rewrite A0, A1, A2.
    unfold is_start_code. cbn [app nth Nat.add length Nat.ltb Nat.leb]. 
    change (0 =? 0) with true. change (0 =? 1) with false. change (1 =? 0) with false. change (1 =? 1) with true.
    cbn [andb]. rewrite ?andb_false_r. cbn [andb]. rewrite Nat.add_0_r. reflexivity.
Qed.

Lemma skipn_length_app {A} (l r : list A) : skipn (length l) (l ++ r) = r.
Proof. rewrite skipn_app, skipn_all, Nat.sub_diag. reflexivity. Qed.
Lemma firstn_length_app {A} (l r : list A) : firstn (length l) (l ++ r) = l.
Proof. rewrite firstn_app, Nat.sub_diag, firstn_all, firstn_O, app_nil_r. reflexivity. Qed.

Lemma scb_app pre l j : (0 < j)%nat -> start_code_begin (pre ++ l) (length pre + j) = (length pre + start_code_begin l j)%nat.
Proof.
  intros H. destruct j as [|j]; [lia|]. rewrite Nat.add_succ_r. cbn [start_code_begin].
  rewrite app_nth2 by lia. replace (length pre + j - length pre)%nat with j by lia.
  destruct (_ =? _); lia.
Qed.

(** Where a unit's start code begins, when what precedes does not end in a zero byte. *)
Lemma scb_unit pre long n us : (pre = [] \/ last pre 0 <> 0) ->
  start_code_begin (pre ++ annexb_stream ((long, n) :: us)) (length pre + b2n long) = length pre.
Proof.
  intros Hp. destruct long; cbn [b2n].
  - rewrite scb_app by lia. cbn. lia.
  - rewrite Nat.add_0_r. destruct Hp as [->|Hp]; [reflexivity|].
    destruct pre as [|x p0] eqn:Ep; [reflexivity|]. rewrite <- Ep in *.
    assert (Hn : pre <> []) by (rewrite Ep; congruence).
    assert (0 < length pre)%nat by (rewrite Ep; cbn; lia).
    rewrite last_nth in Hp by exact Hn. rewrite <- nth10 in Hp by lia.
    clear Ep x p0. unfold start_code_begin. destruct (length pre) as [|q] eqn:Eq; [lia|].
    rewrite app_nth1 by lia. replace (S q - 1)%nat with q in Hp by lia.
    destruct (Z.eqb_spec (nth q pre 1) 0); [contradiction|reflexivity].
Qed.

Lemma last_app_ne (l r : list Z) d : r <> [] -> last (l ++ r) d = last r d.
Proof.
  intros H. induction l as [|x l IH]; [reflexivity|]. cbn [app].
  destruct (l ++ r) as [|y m] eqn:E; [apply app_eq_nil in E; tauto|]. exact IH.
Qed.

Lemma stream_payloads us : Forall (fun u => nal_ok (snd u)) us -> forall pre,
  (pre = [] \/ last pre 0 <> 0) ->
  map (payload (pre ++ annexb_stream us)) (units_at (pre ++ annexb_stream us) (sc_positions (length pre) us))
  = map snd us.
Proof.
  induction us as [|[long n] us IH]; intros H pre Hp; [reflexivity|].
  inversion H as [|? ? Hn Hr]; subst. cbn [snd] in Hn. specialize (IH Hr).
  cbn [sc_positions fst snd units_at map].
  set (pre' := pre ++ start_code long ++ n).
  assert (Hd : pre ++ annexb_stream ((long, n) :: us) = pre' ++ annexb_stream us).
  { unfold pre'. cbn [annexb_stream flat_map fst snd]. rewrite <- !app_assoc. reflexivity. }
  assert (Hl : length pre' = (length pre + b2n long + 3 + length n)%nat).
  { unfold pre'. rewrite !app_length. destruct long; cbn [start_code b2n length]; lia. }
  assert (Hlast : last pre' 0 <> 0).
  { unfold pre'. rewrite app_assoc. destruct Hn as (Hne & Hz & _). rewrite last_app_ne by exact Hne. exact Hz. }
  f_equal.
  - set (stop := match sc_positions _ us with [] => _ | _ :: _ => _ end).
    assert (Hstop : stop = length pre').
    { unfold stop. rewrite Hd. rewrite <- Hl. destruct us as [|[l2 n2] us2]; cbn [sc_positions fst].
      - rewrite app_length. cbn. lia.
      - apply scb_unit. right. exact Hlast. }
    unfold payload. cbn [payload_start_offset payload_size]. rewrite Hstop, Hd.
    replace (Z.to_nat (Z.of_nat (length pre') - Z.of_nat (length pre + b2n long + 3))) with (length n) by lia.
    rewrite Nat2Z.id. unfold pre'. rewrite app_assoc, <- (app_assoc _ n).
    replace (length pre + b2n long + 3)%nat with (length (pre ++ start_code long))
      by (rewrite app_length; destruct long; cbn [start_code b2n length]; lia).
    rewrite skipn_length_app. apply firstn_length_app.
  - rewrite Hd, <- Hl. apply IH. right. exact Hlast.
Qed.

(** * Length-prefixed framing *)
(** [v] on [n] bytes, big-endian; and the converse. *)
Fixpoint be_bytes (n : nat) (v : Z) : list Z :=
  match n with
  | O => []
  | S m => (v / 256 ^ Z.of_nat m) mod 256 :: be_bytes m v
  end.
Fixpoint be_val (l : list Z) : Z :=
  match l with
  | [] => 0
  | x :: r => x * 256 ^ Z.of_nat (length r) + be_val r
  end.
Definition framed (n : nat) (nals : list (list Z)) : list Z :=
  flat_map (fun x => be_bytes n (Z.of_nat (length x)) ++ x) nals.
(** (offset, length) of each of the units of [framed n nals] placed at [off]. *)
Fixpoint framed_ranges (n : nat) (off : Z) (nals : list (list Z)) : list (Z * Z) :=
  match nals with
  | [] => []
  | x :: r => (off + Z.of_nat n, Z.of_nat (length x)) :: framed_ranges n (off + Z.of_nat n + Z.of_nat (length x)) r
  end.

Lemma be_bytes_length n v : length (be_bytes n v) = n.
Proof. induction n; cbn; congruence. Qed.
Lemma be_bytes_val n : forall v, 0 <= v < 256 ^ Z.of_nat n -> be_val (be_bytes n v) = v.
Proof.
  assert (G : forall n v, be_val (be_bytes n v) = v mod 256 ^ Z.of_nat n).
  { clear n. induction n as [|n IH]; intros v; cbn [be_bytes be_val]; [rewrite Z.mod_1_r; reflexivity|].
    rewrite be_bytes_length, IH. rewrite Nat2Z.inj_succ, Z.pow_succ_r by lia.
    rewrite (Z.mul_comm 256). rewrite Z.rem_mul_r by lia. lia. }
  intros v H. rewrite G. apply Z.mod_small, H.
Qed.
Lemma be_val_range l : Forall is_byte l -> 0 <= be_val l < 256 ^ Z.of_nat (length l).
Proof.
  induction 1 as [|x l Hx H IH]; cbn [be_val length]; [lia|]. unfold is_byte in Hx.
  rewrite Nat2Z.inj_succ, Z.pow_succ_r by lia.
  pose proof (Z.mul_le_mono_nonneg_r (x + 1) 256 (256 ^ Z.of_nat (length l))). nia.
Qed.
Lemma be_val_bytes l : Forall is_byte l -> be_bytes (length l) (be_val l) = l.
Proof.
  intros H. assert (G : forall k, be_bytes (length l) (be_val l + k * 256 ^ Z.of_nat (length l)) = l).
  { induction H as [|x l Hx H IH]; intros k; [reflexivity|]. cbn [be_bytes be_val length].
    pose proof (be_val_range l H). unfold is_byte in Hx.
    rewrite Nat2Z.inj_succ, Z.pow_succ_r by lia.
    replace (x * 256 ^ Z.of_nat (length l) + be_val l + k * (256 * 256 ^ Z.of_nat (length l)))
      with (be_val l + (x + k * 256) * 256 ^ Z.of_nat (length l)) by ring.
    f_equal; [|apply IH].
    rewrite Z.div_add by lia. rewrite Z.div_small by lia. lia. }
  specialize (G 0). rewrite Z.mul_0_l, Z.add_0_r in G. exact G.
Qed.

Lemma skipn_S_tl {A} (l : list A) : forall i, skipn (S i) l = tl (skipn i l).
Proof. induction l as [|x l IH]; intros [|i]; try reflexivity. change (skipn (S i) l = tl (skipn i l)). apply IH. Qed.
Lemma Forall_firstn {A} (P : A -> Prop) n l : Forall P l -> Forall P (firstn n l).
Proof. intros H. rewrite <- (firstn_skipn n l) in H. apply Forall_app in H. tauto. Qed.
Lemma Forall_skipn {A} (P : A -> Prop) n l : Forall P l -> Forall P (skipn n l).
Proof. intros H. rewrite <- (firstn_skipn n l) in H. apply Forall_app in H. tauto. Qed.

(** What can follow the last complete unit: too short for a length field, a length field that
    announces more than there is, or (unless [zok]) a length field of zero. *)
Definition incomplete (zok : bool) (n : nat) (tail : list Z) : Prop :=
  (length tail < n)%nat \/
  Z.of_nat (length tail) < Z.of_nat n + be_val (firstn n tail) \/
  (zok = false /\ be_val (firstn n tail) = 0).
Definition unit_ok (zok : bool) (n : nat) (x : list Z) : Prop :=
  Z.of_nat (length x) < 256 ^ Z.of_nat n /\ (zok = true \/ x <> []).

Lemma framed_decomp zok n : (0 < n)%nat -> forall data, Forall is_byte data ->
  exists nals tail, data = framed n nals ++ tail /\ Forall (unit_ok zok n) nals /\ incomplete zok n tail.
Proof.
  intros Hn data. remember (length data) as k eqn:Ek. revert data Ek.
  induction k as [k IH] using lt_wf_ind. intros data Ek HB.
  destruct (le_lt_dec n (length data)) as [Hlen|Hlen].
  2:{ exists [], data. split; [reflexivity|]. split; [constructor|]. left. exact Hlen. }
  assert (HB1 : Forall is_byte (firstn n data)) by (apply Forall_firstn; exact HB).
  pose proof (be_val_range _ HB1) as R. rewrite firstn_length_le in R by lia.
  destruct (Z_lt_le_dec (Z.of_nat (length data)) (Z.of_nat n + be_val (firstn n data))) as [Hbig|Hbig].
  { exists [], data. split; [reflexivity|]. split; [constructor|]. right; left. exact Hbig. }
  destruct (Z.eq_dec (be_val (firstn n data)) 0) as [Hz|Hz]; [destruct zok|].
  2:{ exists [], data. split; [reflexivity|]. split; [constructor|]. right; right. auto. }
  - (* zero length, allowed *)
    destruct (IH (length (skipn n data))) with (data := skipn n data) as (nals & tail & E & F & I).
    { rewrite skipn_length. lia. } { reflexivity. } { apply Forall_skipn; exact HB. }
    exists ([] :: nals), tail. split; [|split; [constructor; [|exact F]|exact I]].
    + cbn [framed flat_map length]. rewrite app_nil_r, <- app_assoc. fold (framed n nals). rewrite <- E.
      rewrite <- (firstn_skipn n data) at 1. f_equal.
      rewrite <- (be_val_bytes (firstn n data) HB1). rewrite firstn_length_le by lia. rewrite Hz. reflexivity.
    + unfold unit_ok. cbn [length]. split; [lia|]. left; reflexivity.
  - set (m := Z.to_nat (be_val (firstn n data))).
    set (x := firstn m (skipn n data)).
    assert (Lx : length x = m) by (unfold x; apply firstn_length_le; rewrite skipn_length; lia).
    destruct (IH (length (skipn m (skipn n data)))) with (data := skipn m (skipn n data)) as (nals & tail & E & F & I).
    { rewrite !skipn_length. lia. } { reflexivity. } { apply Forall_skipn, Forall_skipn; exact HB. }
    exists (x :: nals), tail. split; [|split; [constructor; [|exact F]|exact I]].
    + cbn [framed flat_map]. fold (framed n nals). rewrite <- !app_assoc, <- E.
      replace (Z.of_nat (length x)) with (be_val (firstn n data)) by lia.
      pose proof (be_val_bytes (firstn n data) HB1) as Eb. rewrite firstn_length_le in Eb by lia. rewrite Eb.
      rewrite <- (firstn_skipn n data) at 1. f_equal. unfold x. symmetry. apply firstn_skipn.
    + unfold unit_ok. split; [lia|]. right. intros ->. cbn in Lx. lia.
Qed.

Lemma nth_error_skipn_hd {A} (l : list A) i : nth_error l i = hd_error (skipn i l).
Proof. revert i; induction l as [|x l IH]; intros [|i]; cbn; auto. Qed.

Lemma read_length_loop_spec n : forall data i acc,
  (i + n <= length data)%nat -> 0 <= acc < 2 ^ 64 ->
  read_length_loop n data (Z.of_nat i) acc
  = Done (u64 (acc * 256 ^ Z.of_nat n + be_val (firstn n (skipn i data)))).
Proof.
  induction n as [|n IH]; intros data i acc H Ha; cbn [read_length_loop].
  - cbn [firstn be_val]. unfold u64. rewrite Z.mod_small; [f_equal; lia|lia].
  - rewrite byte_at_nth by lia. rewrite Nat2Z.id.
    destruct (skipn i data) as [|x r] eqn:E.
    { assert (length (skipn i data) = 0%nat) by (rewrite E; reflexivity). rewrite skipn_length in *. lia. }
    rewrite nth_error_skipn_hd, E. cbn [hd_error].
    replace (Z.of_nat i + 1) with (Z.of_nat (S i)) by lia.
    rewrite IH by (unfold u64; lia).
    assert (Er : skipn (S i) data = r).
    { rewrite skipn_S_tl, E. reflexivity. }
    rewrite Er. f_equal. cbn [firstn be_val].
    assert (Lf : length (firstn n r) = n).
    { apply firstn_length_le. rewrite <- Er, skipn_length. lia. }
    rewrite Lf. rewrite Nat2Z.inj_succ, Z.pow_succ_r by lia.
    rewrite Z.shiftl_mul_pow2 by lia. change (2 ^ 8) with 256. unfold u64.
    rewrite <- (Z.add_mod_idemp_l (_ * _)) by lia. rewrite Z.mul_mod_idemp_l by lia.
    rewrite Z.add_mod_idemp_l by lia.
    rewrite (Z.mul_add_distr_r (acc * 256 mod 2 ^ 64)).
    rewrite <- Z.add_assoc, <- (Z.add_mod_idemp_l (acc * 256 mod 2 ^ 64 * 256 ^ Z.of_nat n)) by lia.
    rewrite Z.mul_mod_idemp_l by lia. rewrite Z.add_mod_idemp_l by lia. f_equal. ring.
Qed.

Lemma read_be32_spec data i : (i + 4 <= length data)%nat ->
  read_be32 data (Z.of_nat i) = Some (be_val (firstn 4 (skipn i data))).
Proof.
  intros H. unfold read_be32.
  replace (Z.of_nat i + 1) with (Z.of_nat (i + 1)) by lia.
  replace (Z.of_nat i + 2) with (Z.of_nat (i + 2)) by lia.
  replace (Z.of_nat i + 3) with (Z.of_nat (i + 3)) by lia.
  rewrite !(byte_at_nat data _ 0) by lia.
  assert (G : forall j, nth (i + j) data 0 = nth j (skipn i data) 0).
  { intros j. rewrite <- (firstn_skipn i data) at 1. rewrite app_nth2 by (rewrite firstn_length; lia).
    rewrite firstn_length_le by lia. f_equal. lia. }
  rewrite !G. rewrite <- (Nat.add_0_r i) at 1. rewrite G.
  assert (length (skipn i data) >= 4)%nat by (rewrite skipn_length; lia).
  destruct (skipn i data) as [|a [|b [|c [|d r]]]]; cbn [length] in *; try lia.
  cbn [nth firstn be_val length]. f_equal. change (256 ^ Z.of_nat 3) with (2 ^ 24). change (256 ^ Z.of_nat 2) with (2 ^ 16).
  change (256 ^ Z.of_nat 1) with (2 ^ 8). change (256 ^ Z.of_nat 0) with 1. lia.
Qed.

Fixpoint ofold {S A} (step : S -> A -> outcome S) (l : list A) (s : S) : outcome S :=
  match l with
  | [] => Done s
  | a :: r => match step s a with Done s' => ofold step r s' | Bad e => Bad e end
  end.

(** Index entries of units framed with [n]-byte lengths. *)
Definition framed_indices (n : nat) (off : Z) (nals : list (list Z)) : list nalu_index :=
  map (fun r => mkIx (fst r - Z.of_nat n) (fst r) (snd r)) (framed_ranges n off nals).

Lemma framed_cons n x nals : framed n (x :: nals) = be_bytes n (Z.of_nat (length x)) ++ x ++ framed n nals.
Proof. unfold framed. cbn [flat_map]. rewrite <- app_assoc. reflexivity. Qed.

Lemma explicit_loop_spec nals : forall fuel pre tail acc,
  let data := pre ++ framed 4 nals ++ tail in
  Z.of_nat (length data) < 2 ^ 32 ->
  Forall (unit_ok true 4) nals -> incomplete true 4 tail -> Forall is_byte tail ->
  (length nals < fuel)%nat ->
  explicit_loop fuel data (Z.of_nat (length pre)) acc
  = Done (rev acc ++ framed_indices 4 (Z.of_nat (length pre)) nals).
Proof.
  induction nals as [|x nals IH]; intros fuel pre tail acc data L Hn Ht Hb Hf.
  - cbn [framed flat_map app] in data. unfold framed_indices; cbn [framed_ranges map]. rewrite app_nil_r.
    destruct fuel as [|f]; [cbn in Hf; lia|]. cbn [explicit_loop].
    assert (Ld : length data = (length pre + length tail)%nat) by (unfold data; apply app_length).
    rewrite Ld. destruct (Z.ltb_spec (Z.of_nat (length pre)) (Z.of_nat (length pre + length tail))) as [H|H]; [|reflexivity].
    cbn [negb]. unfold u64. rewrite (Z.mod_small (Z.of_nat (length pre) + 4)) by lia.
    destruct (Z.ltb_spec (Z.of_nat (length pre + length tail)) (Z.of_nat (length pre) + 4)); [reflexivity|].
    rewrite read_be32_spec by lia. unfold data. rewrite skipn_length_app.
    rewrite (Z.mod_small (Z.of_nat (length pre + length tail) - Z.of_nat (length pre) - 4)) by lia.
    destruct Ht as [Ht|[Ht|[Ht _]]]; [lia| |discriminate].
    destruct (Z.ltb_spec (Z.of_nat (length pre + length tail) - Z.of_nat (length pre) - 4) (be_val (firstn 4 tail))); [reflexivity|lia].
  - inversion Hn as [|? ? [Hx _] Hr]; subst.
    destruct fuel as [|f]; [cbn in Hf; lia|].
    set (pre' := pre ++ be_bytes 4 (Z.of_nat (length x)) ++ x).
    assert (Ed : data = pre' ++ framed 4 nals ++ tail) by (unfold data, pre'; rewrite framed_cons, <- !app_assoc; reflexivity).
    assert (Lp : length pre' = (length pre + 4 + length x)%nat) by (unfold pre'; rewrite !app_length, be_bytes_length; lia).
    assert (Ld : length data = (length pre' + length (framed 4 nals) + length tail)%nat) by (rewrite Ed, !app_length; lia).
    cbn [explicit_loop]. 
    destruct (Z.ltb_spec (Z.of_nat (length pre)) (Z.of_nat (length data))) as [H|H]; [|lia].
    cbn [negb]. unfold u64. rewrite (Z.mod_small (Z.of_nat (length pre) + 4)) by lia.
    destruct (Z.ltb_spec (Z.of_nat (length data)) (Z.of_nat (length pre) + 4)); [lia|].
    rewrite read_be32_spec by lia.
    assert (Ev : be_val (firstn 4 (skipn (length pre) data)) = Z.of_nat (length x)).
    { unfold data. rewrite skipn_length_app, framed_cons. rewrite <- !app_assoc.
      rewrite <- (be_bytes_length 4 (Z.of_nat (length x))) at 1. rewrite firstn_length_app.
      apply be_bytes_val. lia. }
    rewrite Ev.
    rewrite (Z.mod_small (Z.of_nat (length data) - Z.of_nat (length pre) - 4)) by lia.
    destruct (Z.ltb_spec (Z.of_nat (length data) - Z.of_nat (length pre) - 4) (Z.of_nat (length x))); [lia|].
    unfold u32. rewrite (Z.mod_small (4 + Z.of_nat (length x))) by lia.
    rewrite Z.mod_small by lia.
    replace (Z.of_nat (length pre) + (4 + Z.of_nat (length x))) with (Z.of_nat (length pre')) by lia.
    rewrite Ed. rewrite IH; [|rewrite <- Ed; assumption|assumption|assumption|assumption|cbn in Hf; lia].
    f_equal. cbn [rev]. rewrite <- app_assoc. f_equal. cbn [app].
    unfold framed_indices. cbn [framed_ranges map fst snd]. change (Z.of_nat 4) with 4. f_equal; [f_equal; lia|].
    f_equal. f_equal. lia.
Qed.

Lemma framed_length n nals : (0 < n)%nat -> (length nals <= length (framed n nals))%nat.
Proof.
  intros H. induction nals as [|x nals IH]; [cbn; lia|]. rewrite framed_cons, !app_length, be_bytes_length. cbn. lia.
Qed.

Lemma nalulength_loop_spec {S} (step : S -> Z -> Z -> outcome S) n (Hn0 : (0 < n)%nat) nals : forall fuel pre tail s,
  let data := pre ++ framed n nals ++ tail in
  Z.of_nat (length data) < 2 ^ 63 -> Z.of_nat n < 2 ^ 63 ->
  Forall (unit_ok false n) nals -> (tail = [] \/ incomplete false n tail /\ (n <= 7)%nat) -> Forall is_byte tail ->
  (length nals < fuel)%nat ->
  nalulength_loop fuel data (Z.of_nat n) (Z.of_nat (length pre)) step s
  = ofold (fun s r => step s (fst r) (snd r)) (framed_ranges n (Z.of_nat (length pre)) nals) s.
Proof.
  induction nals as [|x nals IH]; intros fuel pre tail s data L L7 Hn Ht Hb Hf.
  - cbn [framed flat_map app] in data. cbn [framed_ranges ofold].
    destruct fuel as [|f]; [cbn in Hf; lia|]. cbn [nalulength_loop].
    assert (Ld : length data = (length pre + length tail)%nat) by (unfold data; apply app_length).
    rewrite Ld. destruct (Z.ltb_spec (Z.of_nat (length pre)) (Z.of_nat (length pre + length tail))) as [H|H]; [|reflexivity].
    cbn [negb]. destruct (Z.ltb_spec 0 (Z.of_nat n)); [|lia].
    destruct (Z.ltb_spec (Z.of_nat (length pre + length tail) - Z.of_nat (length pre)) (Z.of_nat n)); [reflexivity|].
    rewrite Nat2Z.id. rewrite read_length_loop_spec by lia. cbv zeta.
    unfold data. rewrite skipn_length_app. rewrite Z.mul_0_l, Z.add_0_l.
    destruct Ht as [->|[Ht H7]]; [cbn in *; lia|].
    pose proof (be_val_range (firstn n tail) (Forall_firstn _ _ _ Hb)) as R. rewrite firstn_length_le in R by lia.
    assert (256 ^ Z.of_nat n <= 256 ^ 7) by (apply Z.pow_le_mono_r; lia). change (256 ^ 7) with (2 ^ 56) in *.
    unfold u64. rewrite (Z.mod_small (be_val _)) by lia.
    rewrite (Z.mod_small (Z.of_nat (length pre) + Z.of_nat n)) by lia.
    rewrite (Z.mod_small (_ + be_val _)) by lia.
    destruct Ht as [Ht|[Ht|[_ Ht]]]; [lia| |].
    + destruct (Z.ltb_spec (Z.of_nat (length pre + length tail)) (Z.of_nat (length pre) + Z.of_nat n + be_val (firstn n tail))); [|lia].
      rewrite orb_true_r. reflexivity.
    + rewrite Ht. reflexivity.
  - inversion Hn as [|? ? [Hx Hxz] Hr]; subst.
    destruct fuel as [|f]; [cbn in Hf; lia|].
    set (pre' := pre ++ be_bytes n (Z.of_nat (length x)) ++ x).
    assert (Ed : data = pre' ++ framed n nals ++ tail) by (unfold data, pre'; rewrite framed_cons, <- !app_assoc; reflexivity).
    assert (Lp : length pre' = (length pre + n + length x)%nat) by (unfold pre'; rewrite !app_length, be_bytes_length; lia).
    assert (Ld : length data = (length pre' + length (framed n nals) + length tail)%nat) by (rewrite Ed, !app_length; lia).
    cbn [nalulength_loop].
    destruct (Z.ltb_spec (Z.of_nat (length pre)) (Z.of_nat (length data))) as [H|H]; [|lia].
    cbn [negb]. destruct (Z.ltb_spec 0 (Z.of_nat n)); [|lia].
    destruct (Z.ltb_spec (Z.of_nat (length data) - Z.of_nat (length pre)) (Z.of_nat n)); [lia|].
    rewrite Nat2Z.id. rewrite read_length_loop_spec by lia. cbv zeta.
    assert (Ev : be_val (firstn n (skipn (length pre) data)) = Z.of_nat (length x)).
    { unfold data. rewrite skipn_length_app, framed_cons. rewrite <- !app_assoc.
      rewrite <- (be_bytes_length n (Z.of_nat (length x))) at 1. rewrite firstn_length_app.
      apply be_bytes_val. lia. }
    rewrite Ev, Z.mul_0_l, Z.add_0_l. unfold u64. rewrite (Z.mod_small (Z.of_nat (length x))) by lia.
    rewrite (Z.mod_small (Z.of_nat (length pre) + Z.of_nat n)) by lia.
    rewrite (Z.mod_small (_ + Z.of_nat (length x))) by lia.
    assert (0 < length x)%nat by (destruct x; [destruct Hxz; congruence|cbn; lia]).
    destruct (Z.eqb_spec (Z.of_nat (length x)) 0); [lia|]. cbn [orb].
    destruct (Z.ltb_spec (Z.of_nat (length data)) (Z.of_nat (length pre) + Z.of_nat n + Z.of_nat (length x))); [lia|].
    cbn [framed_ranges ofold fst snd].
    destruct (step s (Z.of_nat (length pre) + Z.of_nat n) (Z.of_nat (length x))) as [s'|e]; [|reflexivity].
    replace (Z.of_nat (length pre) + Z.of_nat n + Z.of_nat (length x)) with (Z.of_nat (length pre')) by lia.
    rewrite Ed. apply IH; [rewrite <- Ed; assumption|assumption|assumption|assumption|assumption|cbn in Hf; lia].
Qed.
