(** st_ref_pic_set: DeriveValues computes equations 7-61 / 7-62, and the parser reads the layout of SpecB.v. *)
From Coq Require Import ZArith List Bool Lia ZifyBool ZifyNat.
From Verif Require Import MBase MBitBuffer Spec BitsFacts Reader ReaderFacts Rules Syntax SyntaxSe MCommon
  MSyntaxA SpecA FactsA MSyntaxB SpecB FactsB.
Import ListNotations.
Open Scope Z_scope.

(** * Sorted lists *)
Fixpoint sorted {A} (R : A -> A -> Prop) (l : list A) : Prop :=
  match l with [] => True | x :: r => Forall (R x) r /\ sorted R r end.
Lemma sorted_app {A} (R : A -> A -> Prop) l1 l2 : sorted R l1 -> sorted R l2 -> (forall x y, In x l1 -> In y l2 -> R x y) -> sorted R (l1 ++ l2).
Proof.
  induction l1 as [|a l1 IH]; cbn; [auto|]. intros [H1 H2] H3 H4. split.
  - apply Forall_app. split; [exact H1|]. apply Forall_forall. intros y Hy. apply H4; auto.
  - apply IH; auto.
Qed.
Lemma sorted_rev {A} (R R' : A -> A -> Prop) l : (forall x y, R x y -> R' y x) -> sorted R l -> sorted R' (rev l).
Proof.
  intros H. induction l as [|a l IH]; cbn; [auto|]. intros [H1 H2]. apply sorted_app; [auto|cbn; auto|].
  intros x y Hx [<-|[]]. rewrite <- in_rev in Hx. rewrite Forall_forall in H1. auto.
Qed.
Lemma sorted_filter {A} (R : A -> A -> Prop) f l : sorted R l -> sorted R (filter f l).
Proof.
  induction l as [|a l IH]; cbn; [auto|]. intros [H1 H2]. destruct (f a); cbn; [|auto]. split; [|auto].
  rewrite Forall_forall in *. intros x Hx. apply filter_In in Hx. apply H1; tauto.
Qed.
Lemma sorted_map {A B} (R : B -> B -> Prop) (f : A -> B) l : sorted (fun x y => R (f x) (f y)) l -> sorted R (map f l).
Proof.
  induction l as [|a l IH]; cbn; [auto|]. intros [H1 H2]. split; [|auto]. rewrite Forall_map. exact H1.
Qed.
Lemma sorted_combine {A B} (R : A -> A -> Prop) (l : list A) : forall (l' : list B), sorted R l -> sorted (fun x y => R (fst x) (fst y)) (combine l l').
Proof.
  induction l as [|a l IH]; intros l' H; cbn; [auto|]. destruct l' as [|b l']; cbn; [auto|]. destruct H as [H1 H2]. split; [|auto].
  rewrite Forall_forall in *. intros [x y] Hx. apply in_combine_l in Hx. cbn. auto.
Qed.

(** * Indexing *)
Lemma seq_length_upto n : length (upto n) = Z.to_nat n.
Proof. unfold upto. rewrite map_length, seq_length. reflexivity. Qed.
Lemma in_upto n j : In j (upto n) <-> 0 <= j < n.
Proof.
  unfold upto. rewrite in_map_iff. split.
  - intros (k & <- & Hk). apply in_seq in Hk. lia.
  - intros H. exists (Z.to_nat j). split; [lia|]. apply in_seq. lia.
Qed.
Lemma nth_list_eq {A} (d : A) l : l = map (fun i => nth i l d) (seq 0 (length l)).
Proof.
  induction l as [|a l IH]; [reflexivity|]. cbn [length seq map nth]. f_equal. rewrite <- seq_shift, map_map. exact IH.
Qed.
Lemma nth_skipn' {A} (l : list A) k i d : nth i (skipn k l) d = nth (k + i) l d.
Proof. revert l. induction k as [|k IH]; intros l; [reflexivity|]. destruct l as [|a l]; [destruct i; reflexivity|]. cbn. apply IH. Qed.
Lemma nth_firstn' {A} (l : list A) n i d : (i < n)%nat -> nth i (firstn n l) d = nth i l d.
Proof.
  revert l i. induction n as [|n IH]; intros l i H; [lia|]. destruct l as [|a l]; [reflexivity|]. destruct i; [reflexivity|]. cbn. apply IH. lia.
Qed.
Lemma combine_nth_map {A B} (da : A) (db : B) l l' n : length l = n -> length l' = n ->
  combine l l' = map (fun i => (nth i l da, nth i l' db)) (seq 0 n).
Proof.
  revert l' n. induction l as [|a l IH]; intros l' n H1 H2; destruct l' as [|b l']; cbn in *; subst n; try discriminate; [reflexivity|].
  cbn [seq map nth]. f_equal. rewrite <- seq_shift, map_map. apply IH; [reflexivity|congruence].
Qed.

(** The candidates [j] of [js]. *)
Definition cands (delta_rps : Z) (ref : list Z) (flags : list (Z * Z)) (base : Z) (js : list Z) : list (Z * (Z * Z)) :=
  map (fun j => (znth ref j 0 + delta_rps, znth flags (base + j) (0, 0))) js.

Lemma cands_upto delta_rps ref flags base : 0 <= base -> base + Z.of_nat (length ref) <= Z.of_nat (length flags) ->
  cands delta_rps ref flags base (upto (Z.of_nat (length ref))) =
  shift_by delta_rps ref (firstn (length ref) (skipn (Z.to_nat base) flags)).
Proof.
  intros Hb Hl. unfold cands, shift_by, upto. rewrite Nat2Z.id, map_map.
  rewrite (combine_nth_map delta_rps (0, 0) _ _ (length ref)).
  2: { rewrite map_length. reflexivity. }
  2: { rewrite firstn_length, skipn_length. lia. }
  apply map_ext_in. intros i Hi. apply in_seq in Hi. unfold znth.
  f_equal.
  - rewrite Nat2Z.id. rewrite (nth_indep _ delta_rps (0 + delta_rps)) by (rewrite map_length; lia).
    rewrite (map_nth (fun d => d + delta_rps)). reflexivity.
  - rewrite nth_firstn' by lia. rewrite nth_skipn'. f_equal. lia.
Qed.

(** * The pieces of DeriveValues *)
Lemma keep_app s l1 l2 : keep s (l1 ++ l2) = keep s l1 ++ keep s l2.
Proof. unfold keep. rewrite filter_app, map_app. reflexivity. Qed.
Lemma keep_length s l : (length (keep s l) <= length l)%nat.
Proof. unfold keep. rewrite map_length. induction l as [|a l IH]; cbn; [lia|]. destruct (_ && _); cbn; lia. Qed.
Lemma keep_rev_length s l : length (keep s (rev l)) = length (keep s l).
Proof.
  induction l as [|a l IH]; [reflexivity|]. cbn [rev]. rewrite keep_app, app_length, IH. change (a :: l) with ([a] ++ l).
  rewrite keep_app, app_length. lia.
Qed.
Lemma keep_two l : (length (keep (-1) l) + length (keep 1 l) <= length l)%nat.
Proof.
  unfold keep. rewrite !map_length. induction l as [|a l IH]; cbn [filter length]; [lia|].
  destruct (0 <? -1 * fst a) eqn:E1; destruct (0 <? 1 * fst a) eqn:E2; [lia| | |];
  destruct (nz (snd (snd a))); cbn [andb length]; lia.
Qed.

Lemma push_cand_eq sign flags d fi out b : 0 <= fi < Z.of_nat (length flags) -> (length out < 16)%nat ->
  push_cand sign flags d fi out b = Ok (out ++ keep sign [(d, znth flags fi (0, 0))]) b.
Proof.
  intros Hf Ho. unfold push_cand, keep. cbn [filter fst snd map].
  destruct (0 <? sign * d); cbn [andb]; [|cbn; rewrite app_nil_r; reflexivity].
  rewrite (at_ok flags fi (0, 0) Hf). unfold bind, ret. destruct (nz (snd (znth flags fi (0, 0)))); cbn [map fst].
  - unfold guard, HEVC_MAX_REFS. replace (Z.of_nat (length out) <? 16) with true by lia. reflexivity.
  - rewrite app_nil_r. reflexivity.
Qed.

Lemma cand_loop_eq sign flags delta ref base js : forall out b,
  (forall j, In j js -> 0 <= j < Z.of_nat (length ref) /\ 0 <= base + j < Z.of_nat (length flags)) ->
  (length out + length js <= 16)%nat ->
  cand_loop sign flags delta ref base js out b =
  if forallb in_i32 (map fst (cands delta ref flags base js)) then Ok (out ++ keep sign (cands delta ref flags base js)) b
  else Err SignedOverflow.
Proof.
  induction js as [|j js IH]; intros out b H Hl.
  - cbn. rewrite app_nil_r. reflexivity.
  - cbn [cand_loop]. destruct (H j (or_introl eq_refl)) as [Hj Hf]. rewrite (at_ok ref j 0 Hj).
    unfold bind at 1, ret at 1. unfold cands. cbn [map fst forallb].
    unfold bind at 1, chk_i32. destruct (in_i32 (znth ref j 0 + delta)); [|reflexivity]. cbn [andb]. unfold ret at 1.
    cbn [length] in Hl. unfold bind. rewrite push_cand_eq by (assumption || lia).
    rewrite IH.
    + fold (cands delta ref flags base js). destruct (forallb in_i32 _); [|reflexivity].
      rewrite <- app_assoc, <- keep_app. reflexivity.
    + intros j' Hj'. apply H. right. exact Hj'.
    + rewrite app_length. pose proof (keep_length sign [(znth ref j 0 + delta, znth flags (base + j) (0, 0))]) as K. cbn [length] in K. lia.
Qed.

Lemma cum_poc_weak sign l n : forall i d b, (n + i <= 16)%nat -> (n + i <= length l)%nat ->
  match cum_poc sign l n (Z.of_nat i) d b with
  | Ok r b' => b' = b /\ length r = n
  | Fail _ => False
  | Err e => e = SignedOverflow
  end.
Proof.
  induction n as [|n IH]; intros i d b H1 H2; cbn [cum_poc]; [split; reflexivity|].
  unfold guard, HEVC_MAX_REFS. replace (Z.of_nat i <? 16) with true by lia. unfold bind at 1, ret at 1.
  rewrite (at_ok l (Z.of_nat i) (0, 0)) by lia. unfold bind at 1, ret at 1.
  unfold chk_i32. unfold bind at 1. destruct (in_i32 _); [|reflexivity]. unfold ret at 1.
  unfold bind at 1. destruct (in_i32 _); [|reflexivity]. unfold ret at 1.
  unfold bind. replace (Z.of_nat i + 1) with (Z.of_nat (S i)) by lia.
  specialize (IH (S i) (d + sign * (to_i32 (fst (znth l (Z.of_nat i) (0, 0))) + 1)) b ltac:(lia) ltac:(lia)).
  destruct (cum_poc _ _ _ _ _ _) as [r b'|b'|e]; [|exact IH|exact IH]. destruct IH as [-> <-]. split; reflexivity.
Qed.

Lemma minus1s_weak sign l : forall prev b,
  match minus1s sign prev l b with
  | Ok r b' => b' = b /\ map snd r = map snd l /\ Forall (fun e => 0 <= fst e < 2 ^ 32) r
  | Fail _ => False
  | Err e => e = SignedOverflow
  end.
Proof.
  induction l as [|[d u] l IH]; intros prev b; cbn [minus1s]; [repeat split; constructor|].
  unfold chk_i32. unfold bind at 1. destruct (in_i32 _); [|reflexivity]. unfold ret at 1.
  unfold bind at 1. destruct (in_i32 _); [|reflexivity]. unfold ret at 1.
  unfold bind at 1. destruct (in_i32 _); [|reflexivity]. unfold ret at 1.
  unfold bind. specialize (IH d b). destruct (minus1s sign d l b) as [r b'|b'|e]; [|exact IH|exact IH].
  destruct IH as (-> & E & F). split; [reflexivity|]. split; [cbn [map snd]; rewrite E; reflexivity|]. constructor; [|exact F]. apply Z.mod_pos_bound. lia.
Qed.

Definition small (B : Z) (x : Z) : Prop := - B <= x <= B.

Lemma delta_pocs_length sign l : forall p, length (delta_pocs sign p l) = length l.
Proof. induction l as [|e l IH]; intros p; cbn; [reflexivity|]. rewrite IH. reflexivity. Qed.

Lemma cum_poc_strong sign l n : sign = 1 \/ sign = -1 -> forall i d b, (n + i = length l)%nat -> (n + i <= 16)%nat ->
  Forall (fun e => 0 <= fst e) l -> small (2 ^ 29) d -> Forall (small (2 ^ 29)) (delta_pocs sign d (skipn i l)) ->
  cum_poc sign l n (Z.of_nat i) d b = Ok (delta_pocs sign d (skipn i l)) b.
Proof.
  intros Hs. induction n as [|n IH]; intros i d b H1 H2 F Hd Hp; cbn [cum_poc].
  - rewrite skipn_all2 by lia. reflexivity.
  - unfold guard, HEVC_MAX_REFS. replace (Z.of_nat i <? 16) with true by lia. unfold bind at 1, ret at 1.
    rewrite (at_ok l (Z.of_nat i) (0, 0)) by lia. unfold bind at 1, ret at 1. unfold znth. rewrite Nat2Z.id.
    destruct (nth_error l i) as [e|] eqn:En; [|apply nth_error_None in En; lia].
    rewrite (nth_error_nth l i (0, 0) En).
    rewrite (skipn_nth l i e En) in *. cbn [delta_pocs] in Hp |- *. inversion Hp as [|? ? Hx Hp']; subst.
    assert (He : 0 <= fst e). { rewrite Forall_forall in F. apply F. eapply nth_error_In; eassumption. }
    assert (R : 0 <= fst e < 2 ^ 31 - 1) by (unfold small in *; destruct Hs as [-> | ->]; lia).
    assert (Et : to_i32 (fst e) = fst e) by (unfold to_i32, u32; rewrite Z.mod_small by lia; destruct (Z.ltb_spec (fst e) (2 ^ 31)); lia).
    rewrite Et. unfold chk_i32. unfold bind at 1. rewrite in_i32_true by lia. unfold ret at 1.
    unfold bind at 1. rewrite in_i32_true by (unfold small in *; lia). unfold ret at 1.
    unfold bind. replace (Z.of_nat i + 1) with (Z.of_nat (S i)) by lia. rewrite IH; [reflexivity|lia|lia|exact F|exact Hx|exact Hp'].
Qed.

Lemma delta_pocs_beyond sign l : sign = 1 \/ sign = -1 -> Forall (fun e => 0 <= fst e) l -> forall p,
  Forall (fun d => sign * p < sign * d) (delta_pocs sign p l) /\ sorted (fun x y => sign * x < sign * y) (delta_pocs sign p l).
Proof.
  intros Hs. induction l as [|e l IH]; intros F p; cbn; [split; constructor|]. inversion F as [|? ? He F']; subst.
  destruct (IH F' (p + sign * (fst e + 1))) as [H1 H2]. split; [|split; assumption].
  constructor; [destruct Hs as [-> | ->]; lia|]. eapply Forall_impl; [|exact H1]. cbv beta. intros d Hd. destruct Hs as [-> | ->]; lia.
Qed.

(** Differences back from a strictly monotone list. *)
Lemma minus1s_strong sign B l : sign = 1 \/ sign = -1 -> B <= 2 ^ 29 -> forall prev b, small B prev ->
  Forall (fun e => small B (fst e)) l -> Forall (fun e => sign * prev < sign * fst e) l ->
  sorted (fun x y => sign * fst x < sign * fst y) l ->
  exists r, minus1s sign prev l b = Ok r b /\ delta_pocs sign prev r = map fst l /\ map snd r = map snd l /\ Forall (fun e => 0 <= fst e) r.
Proof.
  intros Hs HB. induction l as [|[d u] l IH]; intros prev b Hp F G S; cbn [minus1s].
  - exists []. repeat split; constructor.
  - inversion F as [|? ? Hd F']; subst. inversion G as [|? ? Hg G']; subst. cbn [fst snd] in *. destruct S as [S1 S2]. cbn [fst] in *.
    unfold small in *.
    unfold chk_i32. unfold bind at 1. rewrite in_i32_true by (destruct Hs as [-> | ->]; lia). unfold ret at 1.
    unfold bind at 1. rewrite in_i32_true by (destruct Hs as [-> | ->]; lia). unfold ret at 1.
    unfold bind at 1. rewrite in_i32_true by (destruct Hs as [-> | ->]; lia). unfold ret at 1.
    unfold bind. destruct (IH d b Hd F' S1 S2) as (r & E & D1 & D2 & D3). rewrite E.
    exists ((u32 (sign * (d - prev) - 1), u) :: r). split; [reflexivity|]. cbn [delta_pocs map fst snd].
    assert (Eu : u32 (sign * (d - prev) - 1) = sign * (d - prev) - 1) by (unfold u32; apply Z.mod_small; destruct Hs as [-> | ->]; lia).
    rewrite Eu. replace (prev + sign * (sign * (d - prev) - 1 + 1)) with d by (destruct Hs as [-> | ->]; lia).
    rewrite D1, D2. repeat split. constructor; [cbn; destruct Hs as [-> | ->]; lia|exact D3].
Qed.

(** * DeriveValues *)
Lemma delta_rps_chk sign abs {B} (f : Z -> M B) b : u_ok 1 sign -> 0 <= abs <= 32767 ->
  bind (chk_i32 ((1 - 2 * to_i32 sign) * to_i32 (u32 (abs + 1)))) f b = f ((1 - 2 * sign) * (abs + 1)) b.
Proof.
  intros Hs Ha. unfold u_ok in Hs. rewrite to_i32_u32 by lia.
  assert (Es : to_i32 sign = sign) by (unfold to_i32, u32; rewrite Z.mod_small by lia; destruct (Z.ltb_spec sign (2 ^ 31)); lia).
  rewrite Es. unfold chk_i32. rewrite in_i32_true; [reflexivity|]. assert (sign = 0 \/ sign = 1) as [-> | ->] by lia; lia.
Qed.

Lemma shift_length d refs flags : length flags = length refs -> length (shift_by d refs flags) = length refs.
Proof. intros H. unfold shift_by. rewrite combine_length, map_length, H. lia. Qed.

Definition rps_shape' (s : rps) : Prop := rps_shape s /\ num_negative_pics s + num_positive_pics s <= 15.

Lemma forallb_small B l : B < 2 ^ 31 -> Forall (small B) l -> forallb in_i32 l = true.
Proof. intros HB F. apply forallb_forall. intros x Hx. rewrite Forall_forall in F. specialize (F x Hx). apply in_i32_true. unfold small in F. lia. Qed.

Lemma flags_of_keep sign c : Forall (fun x : Z * (Z * Z) => rps_flag_ok (snd x)) c -> Forall (fun e => u_ok 1 (snd e)) (keep sign c).
Proof.
  intros F. unfold keep. rewrite Forall_map. rewrite Forall_forall in *. intros x Hx. apply filter_In in Hx. cbn. apply F. tauto.
Qed.
Lemma map_snd_forall {A B} (P : B -> Prop) (l : list (A * B)) : Forall (fun e => P (snd e)) l <-> Forall P (map snd l).
Proof. rewrite Forall_map. reflexivity. Qed.
Lemma cands_flags d ref flags base js : Forall rps_flag_ok flags -> (forall j, In j js -> 0 <= base + j < Z.of_nat (length flags)) ->
  Forall (fun x : Z * (Z * Z) => rps_flag_ok (snd x)) (cands d ref flags base js).
Proof.
  intros F H. unfold cands. rewrite Forall_map. rewrite Forall_forall. intros j Hj. cbn. unfold znth.
  rewrite Forall_forall in F. apply F, nth_In. specialize (H j Hj). lia.
Qed.

Lemma DeriveValues_weak ref sign abs flags b : rps_shape' ref -> u_ok 1 sign -> 0 <= abs <= 32767 -> Forall rps_flag_ok flags ->
  Z.of_nat (length flags) = num_negative_pics ref + num_positive_pics ref + 1 ->
  match DeriveValues ref sign abs flags b with
  | Ok (s0, s1) b' => b' = b /\ (length s0 + length s1 <= length flags)%nat /\
      Forall (fun e => 0 <= fst e < 2 ^ 32 /\ u_ok 1 (snd e)) s0 /\ Forall (fun e => 0 <= fst e < 2 ^ 32 /\ u_ok 1 (snd e)) s1
  | Fail _ => False
  | Err e => e = SignedOverflow
  end.
Proof.
  intros ((N0 & N1 & N16 & _) & N15) Hs Ha Ff Lf. unfold DeriveValues. rewrite delta_rps_chk by assumption.
  set (dr := (1 - 2 * sign) * (abs + 1)). cbv zeta. rewrite N0, N1 in *. set (n0 := length (rps_s0 ref)) in *. set (n1 := length (rps_s1 ref)) in *.
  rewrite !Nat2Z.id. assert (Et : u32 (Z.of_nat n0 + Z.of_nat n1) = Z.of_nat n0 + Z.of_nat n1) by (unfold u32; apply Z.mod_small; lia). rewrite Et.
  pose proof (cum_poc_weak (-1) (rps_s0 ref) n0 0 0 b ltac:(lia) ltac:(fold n0; lia)) as C0. change (Z.of_nat 0) with 0 in C0.
  unfold bind at 1. destruct (cum_poc (-1) _ _ _ _ b) as [r0 b'|b'|e]; [|contradiction|exact C0]. destruct C0 as [-> L0].
  pose proof (cum_poc_weak 1 (rps_s1 ref) n1 0 0 b ltac:(lia) ltac:(fold n1; lia)) as C1. change (Z.of_nat 0) with 0 in C1.
  unfold bind at 1. destruct (cum_poc 1 _ _ _ _ b) as [r1 b'|b'|e]; [|contradiction|exact C1]. destruct C1 as [-> L1].
  assert (J0 : forall j, In j (upto (Z.of_nat n0)) -> 0 <= j < Z.of_nat (length r0) /\ 0 <= 0 + j < Z.of_nat (length flags)).
  { intros j Hj. apply in_upto in Hj. lia. }
  assert (J1 : forall j, In j (upto (Z.of_nat n1)) -> 0 <= j < Z.of_nat (length r1) /\ 0 <= Z.of_nat n0 + j < Z.of_nat (length flags)).
  { intros j Hj. apply in_upto in Hj. lia. }
  assert (J0r : forall j, In j (rev (upto (Z.of_nat n0))) -> 0 <= j < Z.of_nat (length r0) /\ 0 <= 0 + j < Z.of_nat (length flags)).
  { intros j Hj. apply J0, in_rev, Hj. }
  assert (J1r : forall j, In j (rev (upto (Z.of_nat n1))) -> 0 <= j < Z.of_nat (length r1) /\ 0 <= Z.of_nat n0 + j < Z.of_nat (length flags)).
  { intros j Hj. apply J1, in_rev, Hj. }
  assert (Lu0 : length (upto (Z.of_nat n0)) = n0) by (rewrite seq_length_upto; lia).
  assert (Lu1 : length (upto (Z.of_nat n1)) = n1) by (rewrite seq_length_upto; lia).
  set (K0 := cands dr r0 flags 0 (upto (Z.of_nat n0))). set (K1 := cands dr r1 flags (Z.of_nat n0) (upto (Z.of_nat n1))).
  assert (R0 : cands dr r0 flags 0 (rev (upto (Z.of_nat n0))) = rev K0) by (unfold cands; rewrite map_rev; reflexivity).
  assert (R1 : cands dr r1 flags (Z.of_nat n0) (rev (upto (Z.of_nat n1))) = rev K1) by (unfold cands; rewrite map_rev; reflexivity).
  assert (LK0 : length K0 = n0) by (unfold K0, cands; rewrite map_length; exact Lu0).
  assert (LK1 : length K1 = n1) by (unfold K1, cands; rewrite map_length; exact Lu1).
  set (KR := [(dr, znth flags (Z.of_nat n0 + Z.of_nat n1) (0, 0))]).
  assert (FK0 : Forall (fun x : Z * (Z * Z) => rps_flag_ok (snd x)) K0) by (apply cands_flags; [exact Ff|]; intros j Hj; apply J0, Hj).
  assert (FK1 : Forall (fun x : Z * (Z * Z) => rps_flag_ok (snd x)) K1) by (apply cands_flags; [exact Ff|]; intros j Hj; apply J1, Hj).
  assert (FKR : Forall (fun x : Z * (Z * Z) => rps_flag_ok (snd x)) KR).
  { unfold KR. constructor; [|constructor]. cbn. unfold znth. rewrite Forall_forall in Ff. apply Ff, nth_In. lia. }
  unfold bind at 1. rewrite cand_loop_eq; [|exact J1r|rewrite rev_length; cbn [length]; lia]. rewrite R1.
  destruct (forallb in_i32 (map fst (rev K1))); [|reflexivity]. cbn [app].
  pose proof (keep_length (-1) (rev K1)) as KL1. rewrite rev_length in KL1.
  unfold bind at 1. rewrite push_cand_eq; [|lia|lia]. fold KR.
  pose proof (keep_length (-1) KR) as KLR. change (length KR) with 1%nat in KLR.
  unfold bind at 1. rewrite cand_loop_eq; [|exact J0|rewrite app_length; lia]. fold K0.
  destruct (forallb in_i32 (map fst K0)); [|reflexivity]. rewrite <- app_assoc, <- !keep_app.
  set (c0 := keep (-1) (rev K1 ++ KR ++ K0)).
  pose proof (minus1s_weak (-1) c0 0 b) as M0.
  unfold bind at 1. destruct (minus1s (-1) 0 c0 b) as [s0 b'|b'|e]; [|contradiction|exact M0]. destruct M0 as (-> & E0 & G0).
  unfold bind at 1. rewrite cand_loop_eq; [|exact J0r|rewrite rev_length; cbn [length]; lia]. rewrite R0.
  destruct (forallb in_i32 (map fst (rev K0))); [|reflexivity]. cbn [app].
  pose proof (keep_length 1 (rev K0)) as KL0. rewrite rev_length in KL0.
  unfold bind at 1. rewrite push_cand_eq; [|lia|lia]. fold KR.
  pose proof (keep_length 1 KR) as KLR'. change (length KR) with 1%nat in KLR'.
  unfold bind at 1. rewrite cand_loop_eq; [|exact J1|rewrite app_length; lia]. fold K1.
  destruct (forallb in_i32 (map fst K1)); [|reflexivity]. rewrite <- app_assoc, <- !keep_app.
  set (c1 := keep 1 (rev K0 ++ KR ++ K1)).
  pose proof (minus1s_weak 1 c1 0 b) as M1.
  unfold bind at 1. destruct (minus1s 1 0 c1 b) as [s1 b'|b'|e]; [|contradiction|exact M1]. destruct M1 as (-> & E1 & G1).
  unfold ret. split; [reflexivity|]. split; [|split].
  - replace (length s0) with (length c0) by (rewrite <- (map_length snd s0), E0, map_length; reflexivity).
    replace (length s1) with (length c1) by (rewrite <- (map_length snd s1), E1, map_length; reflexivity).
    unfold c0, c1. rewrite !keep_app, !app_length, !keep_rev_length.
    pose proof (keep_two K0). pose proof (keep_two K1). pose proof (keep_two KR). change (length KR) with 1%nat in *. lia.
  - assert (H : Forall (fun e => u_ok 1 (snd e)) s0).
    { apply map_snd_forall. rewrite E0. apply map_snd_forall. apply flags_of_keep. repeat (apply Forall_app; split); auto using Forall_rev. }
    rewrite Forall_forall in *. intros x Hx. split; auto.
  - assert (H : Forall (fun e => u_ok 1 (snd e)) s1).
    { apply map_snd_forall. rewrite E1. apply map_snd_forall. apply flags_of_keep. repeat (apply Forall_app; split); auto using Forall_rev. }
    rewrite Forall_forall in *. intros x Hx. split; auto.
Qed.

Lemma combine_fst_snd {A B} (l : list (A * B)) : combine (map fst l) (map snd l) = l.
Proof. induction l as [|[a b] l IH]; [reflexivity|]. cbn. rewrite IH. reflexivity. Qed.
Lemma shift_sorted sign d refs flags : sorted (fun x y => sign * x < sign * y) refs ->
  sorted (fun x y : Z * (Z * Z) => sign * fst x < sign * fst y) (shift_by d refs flags).
Proof.
  intros S. unfold shift_by. apply (sorted_combine (fun x y => sign * x < sign * y)). apply sorted_map.
  revert S. generalize refs. induction refs0 as [|a l IH]; cbn; [auto|]. intros [H1 H2]. split; [|auto].
  eapply Forall_impl; [|exact H1]. cbv beta. intros. rewrite !Z.mul_add_distr_l. lia.
Qed.
Lemma in_shift d refs flags x : In x (shift_by d refs flags) -> exists r, In r refs /\ fst x = r + d.
Proof.
  unfold shift_by. destruct x as [x y]. intros H. apply in_combine_l in H. apply in_map_iff in H. destruct H as (r & <- & Hr). exists r. auto.
Qed.
Lemma keep_sorted sign c : sorted (fun x y : Z * (Z * Z) => sign * fst x < sign * fst y) c ->
  sorted (fun x y : Z * Z => sign * fst x < sign * fst y) (keep sign c).
Proof. intros S. unfold keep. apply sorted_map. cbn [fst]. apply sorted_filter, S. Qed.
Lemma keep_pos sign c : Forall (fun e => sign * 0 < sign * fst e) (keep sign c).
Proof. unfold keep. rewrite Forall_map. apply Forall_forall. intros x Hx. apply filter_In in Hx. cbn. lia. Qed.
Lemma in_keep sign c x : In x (keep sign c) -> exists y, In y c /\ fst x = fst y.
Proof. unfold keep. intros H. apply in_map_iff in H. destruct H as (y & <- & Hy). apply filter_In in Hy. exists y. tauto. Qed.

(** The candidates of equations 7-61 and 7-62, in both orders, are strictly monotone. *)
Lemma candidates_sorted sign d l0 l1 f0 fr f1 : sign = 1 \/ sign = -1 ->
  sorted (fun x y => sign * x < sign * y) l1 -> Forall (fun x => sign * 0 < sign * x) l1 ->
  sorted (fun x y => - sign * x < - sign * y) l0 -> Forall (fun x => - sign * 0 < - sign * x) l0 ->
  sorted (fun x y : Z * (Z * Z) => sign * fst x < sign * fst y)
    (rev (shift_by d l0 f0) ++ shift_by d [0] fr ++ shift_by d l1 f1).
Proof.
  intros Hs S1 F1 S0 F0. apply sorted_app; [|apply sorted_app|].
  - apply (sorted_rev (fun x y => - sign * fst x < - sign * fst y)); [intros x y H; lia|]. apply shift_sorted, S0.
  - apply shift_sorted. cbn. auto.
  - apply shift_sorted, S1.
  - intros x y Hx Hy. apply in_shift in Hx, Hy. destruct Hx as (r & Hr & ->), Hy as (q & Hq & ->). destruct Hr as [<-|[]].
    rewrite Forall_forall in F1. specialize (F1 q Hq). destruct Hs as [-> | ->]; lia.
  - intros x y Hx Hy. rewrite <- in_rev in Hx. apply in_shift in Hx. destruct Hx as (r & Hr & ->).
    rewrite Forall_forall in F0, F1. specialize (F0 r Hr).
    apply in_app_iff in Hy. destruct Hy as [Hy|Hy]; apply in_shift in Hy; destruct Hy as (q & Hq & ->).
    + destruct Hq as [<-|[]]. destruct Hs as [-> | ->]; lia.
    + specialize (F1 q Hq). destruct Hs as [-> | ->]; lia.
Qed.

Lemma DeriveValues_strong ref sign abs flags B b : rps_shape' ref -> u_ok 1 sign -> 0 <= abs <= 32767 ->
  Z.of_nat (length flags) = num_negative_pics ref + num_positive_pics ref + 1 ->
  Forall (fun e => 0 <= fst e) (rps_s0 ref) -> Forall (fun e => 0 <= fst e) (rps_s1 ref) ->
  rps_bounded B ref -> 0 <= B -> B + 32768 <= 2 ^ 29 ->
  let spec := inter_spec ref ((1 - 2 * sign) * (abs + 1)) flags in
  exists s0 s1, DeriveValues ref sign abs flags b = Ok (s0, s1) b /\
    combine (delta_pocs (-1) 0 s0) (map snd s0) = fst spec /\ combine (delta_pocs 1 0 s1) (map snd s1) = snd spec /\
    Forall (fun e => 0 <= fst e) s0 /\ Forall (fun e => 0 <= fst e) s1 /\
    Forall (small (B + 32768)) (delta_pocs (-1) 0 s0) /\ Forall (small (B + 32768)) (delta_pocs 1 0 s1).
Proof.
  intros ((N0 & N1 & N16 & _) & N15) Hs Ha Lf P0 P1 [B0 B1] HB0 HB. unfold DeriveValues. rewrite delta_rps_chk by assumption.
  set (dr := (1 - 2 * sign) * (abs + 1)).
  assert (Hdr : small 32768 dr). { unfold small, dr. unfold u_ok in Hs. assert (sign = 0 \/ sign = 1) as [-> | ->] by lia; lia. }
  clearbody dr. cbv zeta.
  unfold inter_spec. cbv zeta. cbn [fst snd].
  rewrite N0, N1 in *. set (n0 := length (rps_s0 ref)) in *. set (n1 := length (rps_s1 ref)) in *.
  rewrite !Nat2Z.id. assert (Et : u32 (Z.of_nat n0 + Z.of_nat n1) = Z.of_nat n0 + Z.of_nat n1) by (unfold u32; apply Z.mod_small; lia). rewrite Et.
  change (Forall (small B) (DeltaPocS0 ref)) in B0. change (Forall (small B) (DeltaPocS1 ref)) in B1.
  assert (W : forall l, Forall (small B) l -> Forall (small (2 ^ 29)) l).
  { intros l F. eapply Forall_impl; [|exact F]. unfold small. intros. lia. }
  pose proof (cum_poc_strong (-1) (rps_s0 ref) n0 (or_intror eq_refl) 0 0 b ltac:(fold n0; lia) ltac:(lia) P0 ltac:(unfold small; lia) (W _ B0)) as C0.
  pose proof (cum_poc_strong 1 (rps_s1 ref) n1 (or_introl eq_refl) 0 0 b ltac:(fold n1; lia) ltac:(lia) P1 ltac:(unfold small; lia) (W _ B1)) as C1.
  change (Z.of_nat 0) with 0 in *. cbn [skipn] in C0, C1. fold (DeltaPocS0 ref) in C0. fold (DeltaPocS1 ref) in C1.
  unfold bind at 1. rewrite C0. unfold bind at 1. rewrite C1. clear C0 C1.
  set (r0 := DeltaPocS0 ref) in *. set (r1 := DeltaPocS1 ref) in *.
  assert (L0 : length r0 = n0) by apply delta_pocs_length. assert (L1 : length r1 = n1) by apply delta_pocs_length.
  destruct (delta_pocs_beyond (-1) (rps_s0 ref) (or_intror eq_refl) P0 0) as [Q0 S0]. fold (DeltaPocS0 ref) in Q0, S0. fold r0 in Q0, S0.
  destruct (delta_pocs_beyond 1 (rps_s1 ref) (or_introl eq_refl) P1 0) as [Q1 S1]. fold (DeltaPocS1 ref) in Q1, S1. fold r1 in Q1, S1.
  assert (J0 : forall j, In j (upto (Z.of_nat n0)) -> 0 <= j < Z.of_nat (length r0) /\ 0 <= 0 + j < Z.of_nat (length flags)).
  { intros j Hj. apply in_upto in Hj. lia. }
  assert (J1 : forall j, In j (upto (Z.of_nat n1)) -> 0 <= j < Z.of_nat (length r1) /\ 0 <= Z.of_nat n0 + j < Z.of_nat (length flags)).
  { intros j Hj. apply in_upto in Hj. lia. }
  assert (J0r : forall j, In j (rev (upto (Z.of_nat n0))) -> 0 <= j < Z.of_nat (length r0) /\ 0 <= 0 + j < Z.of_nat (length flags)).
  { intros j Hj. apply J0, in_rev, Hj. }
  assert (J1r : forall j, In j (rev (upto (Z.of_nat n1))) -> 0 <= j < Z.of_nat (length r1) /\ 0 <= Z.of_nat n0 + j < Z.of_nat (length flags)).
  { intros j Hj. apply J1, in_rev, Hj. }
  assert (Lu0 : length (upto (Z.of_nat n0)) = n0) by (rewrite seq_length_upto; lia).
  assert (Lu1 : length (upto (Z.of_nat n1)) = n1) by (rewrite seq_length_upto; lia).
  set (K0 := shift_by dr r0 (firstn n0 flags)) in *. set (K1 := shift_by dr r1 (firstn n1 (skipn n0 flags))) in *.
  set (KR := shift_by dr [0] (skipn (n0 + n1) flags)).
  assert (E0 : cands dr r0 flags 0 (upto (Z.of_nat n0)) = K0).
  { rewrite <- L0. rewrite cands_upto by lia. cbn [Z.to_nat skipn]. rewrite L0. reflexivity. }
  assert (E1 : cands dr r1 flags (Z.of_nat n0) (upto (Z.of_nat n1)) = K1).
  { rewrite <- L1. rewrite cands_upto by lia. rewrite Nat2Z.id, L1. reflexivity. }
  assert (ER : KR = [(dr, znth flags (Z.of_nat n0 + Z.of_nat n1) (0, 0))]).
  { unfold KR, shift_by, znth. rewrite <- Nat2Z.inj_add, Nat2Z.id.
    destruct (nth_error flags (n0 + n1)) as [x|] eqn:En; [|apply nth_error_None in En; lia].
    rewrite (nth_error_nth _ _ (0, 0) En), (skipn_nth _ _ _ En). reflexivity. }
  assert (R0 : cands dr r0 flags 0 (rev (upto (Z.of_nat n0))) = rev K0) by (rewrite <- E0; unfold cands; rewrite map_rev; reflexivity).
  assert (R1 : cands dr r1 flags (Z.of_nat n0) (rev (upto (Z.of_nat n1))) = rev K1) by (rewrite <- E1; unfold cands; rewrite map_rev; reflexivity).
  assert (SK : forall l f, Forall (small B) l -> forall x, In x (shift_by dr l f) -> small (B + 32768) (fst x)).
  { intros l f F x Hx. apply in_shift in Hx. destruct Hx as (r & Hr & ->). rewrite Forall_forall in F. specialize (F r Hr). unfold small in *. lia. }
  assert (SR : forall f x, In x (shift_by dr [0] f) -> small (B + 32768) (fst x)).
  { intros f x Hx. apply in_shift in Hx. destruct Hx as (r & [<-|[]] & ->). unfold small in *. lia. }
  assert (I0 : forallb in_i32 (map fst K0) = true).
  { apply (forallb_small (B + 32768)); [lia|]. rewrite Forall_map. apply Forall_forall. intros x Hx. eapply SK; [exact B0|exact Hx]. }
  assert (I1 : forallb in_i32 (map fst K1) = true).
  { apply (forallb_small (B + 32768)); [lia|]. rewrite Forall_map. apply Forall_forall. intros x Hx. eapply SK; [exact B1|exact Hx]. }
  assert (I0r : forallb in_i32 (map fst (rev K0)) = true).
  { apply (forallb_small (B + 32768)); [lia|]. rewrite Forall_map. apply Forall_forall. intros x Hx. eapply SK; [exact B0|apply in_rev, Hx]. }
  assert (I1r : forallb in_i32 (map fst (rev K1)) = true).
  { apply (forallb_small (B + 32768)); [lia|]. rewrite Forall_map. apply Forall_forall. intros x Hx. eapply SK; [exact B1|apply in_rev, Hx]. }
  assert (LK0 : length K0 = n0) by (rewrite <- E0; unfold cands; rewrite map_length; exact Lu0).
  assert (LK1 : length K1 = n1) by (rewrite <- E1; unfold cands; rewrite map_length; exact Lu1).
  assert (LKR : length KR = 1%nat) by (rewrite ER; reflexivity).
  unfold bind at 1. rewrite cand_loop_eq; [|exact J1r|rewrite rev_length; cbn [length]; lia]. rewrite R1, I1r. cbn [app].
  pose proof (keep_length (-1) (rev K1)) as KL1. rewrite rev_length in KL1.
  unfold bind at 1. rewrite push_cand_eq; [|lia|lia]. rewrite <- ER.
  pose proof (keep_length (-1) KR) as KLR.
  unfold bind at 1. rewrite cand_loop_eq; [|exact J0|rewrite app_length; lia]. rewrite E0, I0.
  rewrite <- app_assoc, <- !keep_app. set (c0 := keep (-1) (rev K1 ++ KR ++ K0)).
  assert (Fc0 : Forall (fun e => small (B + 32768) (fst e)) c0).
  { apply Forall_forall. intros x Hx. apply in_keep in Hx. destruct Hx as (y & Hy & ->). rewrite !in_app_iff, <- in_rev in Hy.
    destruct Hy as [Hy|[Hy|Hy]]; [eapply SK; [exact B1|exact Hy]|eapply SR; exact Hy|eapply SK; [exact B0|exact Hy]]. }
  assert (Sc0 : sorted (fun x y : Z * Z => -1 * fst x < -1 * fst y) c0).
  { apply keep_sorted. apply (candidates_sorted (-1)); auto. }
  destruct (minus1s_strong (-1) (B + 32768) c0 (or_intror eq_refl) HB 0 b ltac:(unfold small; lia) Fc0 (keep_pos (-1) _) Sc0)
    as (s0 & Es0 & D0 & U0 & G0).
  unfold bind at 1. rewrite Es0.
  unfold bind at 1. rewrite cand_loop_eq; [|exact J0r|rewrite rev_length; cbn [length]; lia]. rewrite R0, I0r. cbn [app].
  pose proof (keep_length 1 (rev K0)) as KL0. rewrite rev_length in KL0.
  unfold bind at 1. rewrite push_cand_eq; [|lia|lia]. rewrite <- ER.
  pose proof (keep_length 1 KR) as KLR'.
  unfold bind at 1. rewrite cand_loop_eq; [|exact J1|rewrite app_length; lia]. rewrite E1, I1.
  rewrite <- app_assoc, <- !keep_app. set (c1 := keep 1 (rev K0 ++ KR ++ K1)).
  assert (Fc1 : Forall (fun e => small (B + 32768) (fst e)) c1).
  { apply Forall_forall. intros x Hx. apply in_keep in Hx. destruct Hx as (y & Hy & ->). rewrite !in_app_iff, <- in_rev in Hy.
    destruct Hy as [Hy|[Hy|Hy]]; [eapply SK; [exact B0|exact Hy]|eapply SR; exact Hy|eapply SK; [exact B1|exact Hy]]. }
  assert (Sc1 : sorted (fun x y : Z * Z => 1 * fst x < 1 * fst y) c1).
  { apply keep_sorted. apply (candidates_sorted 1); auto. }
  destruct (minus1s_strong 1 (B + 32768) c1 (or_introl eq_refl) HB 0 b ltac:(unfold small; lia) Fc1 (keep_pos 1 _) Sc1)
    as (s1 & Es1 & D1 & U1 & G1).
  unfold bind at 1. rewrite Es1.
  exists s0, s1. split; [reflexivity|]. rewrite D0, U0, D1, U1, !combine_fst_snd.
  repeat split; try assumption; rewrite Forall_map; assumption.
Qed.

Lemma delta_pocs_inj sign l : sign = 1 \/ sign = -1 -> forall p l',
  combine (delta_pocs sign p l) (map snd l) = combine (delta_pocs sign p l') (map snd l') -> l = l'.
Proof.
  intros Hs. induction l as [|[d u] l IH]; intros p [|[d' u'] l'] H; cbn in H; try discriminate; [reflexivity|].
  injection H as H1 H2 H3. assert (d = d') by (destruct Hs as [-> | ->]; lia). subst d' u'. f_equal. eapply IH, H3.
Qed.

(** * The parser *)
Lemma parses_rps_flag f : rps_flag_ok f -> parses read_rps_flag (enc_rps_flag f) f.
Proof. destruct f. unfold rps_flag_ok, enc_rps_flag. cbn. intros H. split_hyps. unfold read_rps_flag. prun. Qed.
Lemma wp_rps_flag : wp no_err read_rps_flag (fun f bs => rps_flag_ok f /\ bs = enc_rps_flag f).
Proof. unfold read_rps_flag. wrun. unfold rps_flag_ok, enc_rps_flag. cbn. split; [conjs|reflexivity]. Qed.
Lemma parses_rps_entry f : rps_entry_ok f -> parses read_rps_entry (enc_rps_entry f) f.
Proof. destruct f. unfold rps_entry_ok, enc_rps_entry. cbn. intros H. split_hyps. unfold read_rps_entry. prun. Qed.
Lemma wp_rps_entry : wp no_err read_rps_entry (fun f bs => rps_entry_ok f /\ bs = enc_rps_entry f).
Proof. unfold read_rps_entry. wrun. unfold rps_entry_ok, enc_rps_entry. cbn. split; [conjs|reflexivity]. Qed.
#[export] Hint Resolve parses_rps_flag parses_rps_entry : parses_db.
#[export] Hint Resolve wp_rps_flag wp_rps_entry : wp_db.

Lemma ref_u32 idx di : 0 <= di -> 0 < idx < 2 ^ 32 -> di <= u32 (idx - 1) -> u32 (idx - u32 (di + 1)) = idx - (di + 1).
Proof. intros H1 H2 H3. unfold u32 in *. rewrite (Z.mod_small (idx - 1)) in H3 by lia. rewrite (Z.mod_small (di + 1)) by lia. apply Z.mod_small. lia. Qed.

Definition rps_big : rps := mkRPS 0 0 0 0 [] 0 0 [] [].

(** What is known of the sets the parser is given. *)
Definition sets_ok (idx : Z) (sets : list rps) : Prop :=
  0 <= idx < 2 ^ 32 /\ idx <= Z.of_nat (length sets) /\ Forall rps_shape sets.
Lemma ref_shape idx sets i : sets_ok idx sets -> 0 <= i < idx -> rps_shape (znth sets i rps_dummy).
Proof. intros (H1 & H2 & F) Hi. rewrite Forall_forall in F. apply F. unfold znth. apply nth_In. lia. Qed.

Lemma explicit_shape neg pos s0 s1 : vec neg rps_entry_ok s0 -> vec pos rps_entry_ok s1 -> 0 <= neg -> 0 <= pos -> neg + pos <= 16 ->
  rps_shape (mkRPS 0 0 0 0 [] neg pos s0 s1).
Proof.
  intros [L0 F0] [L1 F1] H0 H1 H. unfold rps_shape. cbn [num_negative_pics num_positive_pics rps_s0 rps_s1].
  assert (W : forall l, Forall rps_entry_ok l -> Forall (fun e => 0 <= fst e < 2 ^ 32 /\ u_ok 1 (snd e)) l).
  { intros l F. eapply Forall_impl; [|exact F]. unfold rps_entry_ok, ue_ok. intros e [? ?]. split; [lia|assumption]. }
  repeat split; auto; lia.
Qed.

(** [D]: a property of what DeriveValues computes from a reference set in [sets]. *)
Definition derives (E : errs) (sets : list rps) (D : rps -> Z -> Z -> list (Z * Z) -> list (Z * Z) * list (Z * Z) -> Prop) : Prop :=
  forall ref sign abs flags, In ref sets -> rps_shape' ref -> u_ok 1 sign -> 0 <= abs <= 32767 -> Forall rps_flag_ok flags ->
  Z.of_nat (length flags) = num_negative_pics ref + num_positive_pics ref + 1 ->
  wp E (DeriveValues ref sign abs flags) (fun r bs => bs = [] /\ (length (fst r) + length (snd r) <= length flags)%nat /\
    Forall (fun e => 0 <= fst e < 2 ^ 32 /\ u_ok 1 (snd e)) (fst r) /\ Forall (fun e => 0 <= fst e < 2 ^ 32 /\ u_ok 1 (snd e)) (snd r) /\
    D ref sign abs flags r).
Lemma derives_weak sets : derives ovf_any sets (fun _ _ _ _ _ => True).
Proof.
  intros ref sign abs flags _ H1 H2 H3 H4 H5 b W. pose proof (DeriveValues_weak ref sign abs flags b H1 H2 H3 H4 H5) as D.
  destruct (DeriveValues ref sign abs flags b) as [[s0 s1] b'|b'|e]; [|contradiction|exact D].
  destruct D as (-> & D1 & D2 & D3). exists []. split; [apply steps_refl, W|]. auto 6.
Qed.
(** Sets whose differences fit. *)
Definition sets_bounded (B : Z) (sets : list rps) : Prop := 0 <= B /\ B + 32768 <= 2 ^ 29 /\ Forall (rps_bounded B) sets.
Definition derived_lists (B : Z) (ref : rps) (sign abs : Z) (flags : list (Z * Z)) (r : list (Z * Z) * list (Z * Z)) : Prop :=
  let spec := inter_spec ref ((1 - 2 * sign) * (abs + 1)) flags in
  combine (delta_pocs (-1) 0 (fst r)) (map snd (fst r)) = fst spec /\ combine (delta_pocs 1 0 (snd r)) (map snd (snd r)) = snd spec /\
  Forall (small (B + 32768)) (delta_pocs (-1) 0 (fst r)) /\ Forall (small (B + 32768)) (delta_pocs 1 0 (snd r)).
Lemma DeriveValues_both B sets ref sign abs flags b : sets_bounded B sets -> In ref sets -> rps_shape' ref -> u_ok 1 sign -> 0 <= abs <= 32767 -> Forall rps_flag_ok flags ->
  Z.of_nat (length flags) = num_negative_pics ref + num_positive_pics ref + 1 ->
  exists r, DeriveValues ref sign abs flags b = Ok r b /\ (length (fst r) + length (snd r) <= length flags)%nat /\
    Forall (fun e => 0 <= fst e < 2 ^ 32 /\ u_ok 1 (snd e)) (fst r) /\ Forall (fun e => 0 <= fst e < 2 ^ 32 /\ u_ok 1 (snd e)) (snd r) /\
    derived_lists B ref sign abs flags r.
Proof.
  intros (B0 & B1 & BF) Hin H1 H2 H3 H4 H5. pose proof (DeriveValues_weak ref sign abs flags b H1 H2 H3 H4 H5) as D.
  pose proof H1 as ((_ & _ & _ & F0 & F1) & _).
  assert (P : forall l : list (Z * Z), Forall (fun e => 0 <= fst e < 2 ^ 32 /\ u_ok 1 (snd e)) l -> Forall (fun e => 0 <= fst e) l).
  { intros l F. eapply Forall_impl; [|exact F]. cbv beta. intros. lia. }
  rewrite Forall_forall in BF.
  destruct (DeriveValues_strong ref sign abs flags B b H1 H2 H3 H5 (P _ F0) (P _ F1) (BF _ Hin) B0 B1) as (s0 & s1 & E & D1 & D2 & _ & _ & D3 & D4).
  rewrite E in D. destruct D as (_ & L & G0 & G1). exists (s0, s1). split; [exact E|]. cbn [fst snd]. unfold derived_lists. cbn [fst snd]. auto 10.
Qed.
Lemma derives_strong B sets : sets_bounded B sets -> derives no_err sets (derived_lists B).
Proof.
  intros HB ref sign abs flags Hin H1 H2 H3 H4 H5 b W.
  destruct (DeriveValues_both B sets ref sign abs flags b HB Hin H1 H2 H3 H4 H5) as (r & E & R). rewrite E. exists []. split; [apply steps_refl, W|]. auto.
Qed.

Lemma wp_rps_explicit m : 0 <= m <= 16 ->
  wp no_err (read_rps_explicit m) (fun s bs => rps_shape s /\ inter_ref_pic_set_prediction_flag s = 0 /\ 
     delta_idx_minus1 s = 0 /\ delta_rps_sign s = 0 /\ abs_delta_rps_minus1 s = 0 /\ rps_flags s = [] /\
     num_negative_pics s + num_positive_pics s <= m /\ Forall rps_entry_ok (rps_s0 s) /\ Forall rps_entry_ok (rps_s1 s) /\
     bs = concat [enc_ue (num_negative_pics s); enc_ue (num_positive_pics s); flat_map enc_rps_entry (rps_s0 s); flat_map enc_rps_entry (rps_s1 s)]).
Proof.
  intros Hm. unfold read_rps_explicit. wstep. wstep. wstep. wstep.
  assert (Hu : u32 (m - a) = m - a) by (unfold u32, ue_ok in *; apply Z.mod_small; lia). rewrite Hu in *. clear Hu.
  unfold ue_ok in *. wrun. cbn. destruct H3 as [L0 F0]. destruct H4 as [L1 F1].
  split; [apply explicit_shape; try split; auto; lia|]. repeat (split; [reflexivity|]).
  split; [lia|]. split; [exact F0|]. split; [exact F1|]. reflexivity.
Qed.

Lemma wp_rps_inter E D idx num sets : sets_ok idx sets -> idx <> 0 -> derives E sets D ->
  wp E (read_rps_inter idx num sets) (fun s bs => rps_shape s /\ inter_ref_pic_set_prediction_flag s = 1 /\
     optf (idx =? num) ue_ok 0 (delta_idx_minus1 s) /\ 0 <= ref_idx idx s < idx /\ u_ok 1 (delta_rps_sign s) /\ ue_le 32767 (abs_delta_rps_minus1 s) /\
     (let total := num_negative_pics (ref_of idx sets s) + num_positive_pics (ref_of idx sets s) in
      total <= 15 /\ vec (total + 1) rps_flag_ok (rps_flags s)) /\
     bs = concat [opt (idx =? num) (enc_ue (delta_idx_minus1 s)); enc_u 1 (delta_rps_sign s); enc_ue (abs_delta_rps_minus1 s); flat_map enc_rps_flag (rps_flags s)] /\
     D (ref_of idx sets s) (delta_rps_sign s) (abs_delta_rps_minus1 s) (rps_flags s) (rps_s0 s, rps_s1 s)).
Proof.
  intros Hs Hi HD. unfold read_rps_inter. wstep. wstep. wstep. wstep. cbv beta zeta.
  assert (Ha : 0 <= a) by (unfold optf, ue_ok in *; destruct (idx =? num); lia).
  pose proof Hs as (Hr & Hl & _). rewrite ref_u32 by lia. assert (Hu : u32 (idx - 1) = idx - 1) by (unfold u32; apply Z.mod_small; lia). rewrite Hu in *.
  apply (wp_at _ sets _ rps_dummy); [lia|]. set (ref := znth sets (idx - (a + 1)) rps_dummy).
  pose proof (ref_shape idx sets (idx - (a + 1)) Hs ltac:(lia)) as Sh. fold ref in Sh.
  pose proof Sh as (N0 & N1 & N16 & _).
  assert (Et : u32 (num_negative_pics ref + num_positive_pics ref) = num_negative_pics ref + num_positive_pics ref) by (unfold u32; apply Z.mod_small; lia).
  rewrite Et. wstep. unfold HEVC_MAX_DPB_SIZE in *. wstep.
  eapply wp_bind; [apply HD|].
  - unfold ref, znth. apply nth_In. lia.
  - split; [exact Sh|lia].
  - assumption.
  - unfold ue_le in *. assumption.
  - apply H4.
  - destruct H4 as [L _]. rewrite L. lia.
  - cbv beta. intros r bs (-> & L & F0 & F1 & HDr). apply wp_ret. cbn [inter_ref_pic_set_prediction_flag delta_idx_minus1 delta_rps_sign abs_delta_rps_minus1 rps_flags].
    split; [|split; [reflexivity|]].
    + unfold rps_shape. cbn. destruct H4 as [L3 _]. repeat split; auto. lia.
    + split; [assumption|]. unfold ref_idx, ref_of, ref_idx. cbn [delta_idx_minus1]. fold ref. split; [lia|]. split; [assumption|]. split; [assumption|].
      split; [split; [lia|assumption]|]. cbn. rewrite ?app_nil_r. split; [reflexivity|]. fold ref. rewrite <- surjective_pairing. exact HDr.
Qed.

Lemma wp_rps_gen E D idx num sets m : sets_ok idx sets -> 0 <= m <= 16 -> derives E sets D ->
  wp E (ParseStRefPicSet idx num sets m) (fun s bs => rps_ok idx num sets m s /\ bs = enc_rps idx num s /\
    (nz (inter_ref_pic_set_prediction_flag s) = true ->
      D (ref_of idx sets s) (delta_rps_sign s) (abs_delta_rps_minus1 s) (rps_flags s) (rps_s0 s, rps_s1 s))).
Proof.
  intros Hs Hm HD. unfold ParseStRefPicSet. wstep. wstep. destruct (nz a) eqn:Ea.
  - destruct (Z.eqb_spec idx 0) as [->|Hi]; [cbn in H0; unfold optf in H0; cbn in H0; subst a; discriminate|].
    eapply wp_weaken; [apply (wp_rps_inter E D); assumption|]. cbv beta. intros s bs (Sh & Ei & R). unfold rps_ok, enc_rps. rewrite Ei.
    assert (a = 1) as -> by (unfold optf, u_ok, nz in *; cbn in H0; lia). change (nz 1) with true. cbv iota.
    destruct R as (R1 & R2 & R3 & R4 & R5 & -> & R6). replace (idx =? 0) with false by lia. split; [|split; [reflexivity|auto]].
    split; [assumption|]. split; [lia|]. split; [assumption|]. auto 10.
  - apply wp_err. eapply wp_weaken; [apply wp_rps_explicit; assumption|]. cbv beta. intros s bs (Sh & Ei & R). unfold rps_ok, enc_rps. rewrite Ei.
    assert (a = 0) as -> by (unfold nz in Ea; lia). change (nz 0) with false. cbv iota.
    destruct R as (R1 & R2 & R3 & R4 & R5 & R6 & R7 & ->). split; [|split; [reflexivity|discriminate]].
    repeat (split; [first [assumption|lia|idtac]|]); assumption.
Qed.

Lemma wp_rps idx num sets m : sets_ok idx sets -> 0 <= m <= 16 ->
  wp ovf_any (ParseStRefPicSet idx num sets m) (fun s bs => rps_ok idx num sets m s /\ bs = enc_rps idx num s).
Proof.
  intros Hs Hm. eapply wp_weaken; [apply (wp_rps_gen _ _ _ _ _ _ Hs Hm (derives_weak sets))|]. cbv beta. tauto.
Qed.
Lemma wp_rps_bounded B idx num sets m : sets_ok idx sets -> 0 <= m <= 16 -> sets_bounded B sets ->
  wp no_err (ParseStRefPicSet idx num sets m) (fun s bs => rps_ok idx num sets m s /\ bs = enc_rps idx num s /\ rps_derived idx sets s /\
    (nz (inter_ref_pic_set_prediction_flag s) = true -> rps_bounded (B + 32768) s)).
Proof.
  intros Hs Hm HB. eapply wp_weaken; [apply (wp_rps_gen _ _ _ num _ _ Hs Hm (derives_strong B sets HB))|]. cbv beta.
  intros s bs (H1 & H2 & H3). split; [exact H1|]. split; [exact H2|]. split.
  - intros Hi. destruct (H3 Hi) as (D1 & D2 & _). split; assumption.
  - intros Hi. destruct (H3 Hi) as (_ & _ & D1 & D2). split; assumption.
Qed.

Lemma parses_rps_explicit m s : 0 <= m <= 16 -> rps_shape s -> num_negative_pics s + num_positive_pics s <= m ->
  inter_ref_pic_set_prediction_flag s = 0 -> delta_idx_minus1 s = 0 -> delta_rps_sign s = 0 -> abs_delta_rps_minus1 s = 0 -> rps_flags s = [] ->
  Forall rps_entry_ok (rps_s0 s) -> Forall rps_entry_ok (rps_s1 s) ->
  parses (read_rps_explicit m) (concat [enc_ue (num_negative_pics s); enc_ue (num_positive_pics s); flat_map enc_rps_entry (rps_s0 s); flat_map enc_rps_entry (rps_s1 s)]) s.
Proof.
  destruct s. unfold rps_shape. cbn. intros Hm (N0 & N1 & N16 & _) Hle -> -> -> -> -> F0 F1. unfold read_rps_explicit.
  eapply parses_bind; [apply parses_ue_ok; unfold ue_ok; lia|]. apply parses_guard; [lia|].
  eapply parses_bind; [apply parses_ue_ok; unfold ue_ok; lia|]. apply parses_guard; [unfold u32; rewrite Z.mod_small; lia|].
  eapply parses_bind; [eapply parses_vec; [split; [|exact F0]; lia|intros; apply parses_rps_entry; assumption]|].
  eapply parses_bind; [eapply parses_vec; [split; [|exact F1]; lia|intros; apply parses_rps_entry; assumption]|].
  apply parses_ret_eq. reflexivity.
Qed.

Lemma parses_DeriveValues B sets s idx : sets_bounded B sets -> In (ref_of idx sets s) sets -> rps_shape' (ref_of idx sets s) ->
  u_ok 1 (delta_rps_sign s) -> 0 <= abs_delta_rps_minus1 s <= 32767 -> Forall rps_flag_ok (rps_flags s) ->
  Z.of_nat (length (rps_flags s)) = num_negative_pics (ref_of idx sets s) + num_positive_pics (ref_of idx sets s) + 1 ->
  rps_derived idx sets s -> nz (inter_ref_pic_set_prediction_flag s) = true ->
  parses (DeriveValues (ref_of idx sets s) (delta_rps_sign s) (abs_delta_rps_minus1 s) (rps_flags s)) [] (rps_s0 s, rps_s1 s).
Proof.
  intros HB Hin H1 H2 H3 H4 H5 HD Hi b rest W Hr.
  destruct (DeriveValues_both B sets _ _ _ _ b HB Hin H1 H2 H3 H4 H5) as ([s0 s1] & E & _ & _ & _ & D1 & D2 & _). cbn [fst snd] in D1, D2.
  destruct (HD Hi) as [G1 G2]. unfold delta_rps_of in G1, G2.
  fold (DeltaPocS0 s) in G1. unfold DeltaPocS0 in G1. unfold DeltaPocS1 in G2.
  rewrite <- G1 in D1. rewrite <- G2 in D2. apply delta_pocs_inj in D1; [|auto]. apply delta_pocs_inj in D2; [|auto]. subst s0 s1.
  rewrite E. cbn [length]. rewrite adv_0; [reflexivity|exact W].
Qed.

Lemma parses_rps B idx num sets m s : sets_ok idx sets -> 0 <= m <= 16 -> sets_bounded B sets ->
  rps_ok idx num sets m s -> rps_derived idx sets s -> parses (ParseStRefPicSet idx num sets m) (enc_rps idx num s) s.
Proof.
  intros Hs Hm HB (Sh & Hn & Hf & H) HD. unfold ParseStRefPicSet, enc_rps. apply parses_guard; [lia|].
  eapply parses_bind; [eapply parses_when_optf; [exact Hf|]; intros; apply parses_u_ok; [lia|assumption]|].
  destruct (nz (inter_ref_pic_set_prediction_flag s)) eqn:Ei.
  - assert (Hi : idx <> 0). { intros ->. unfold optf in Hf. cbn in Hf. rewrite Hf in Ei. discriminate. }
    assert (E1 : inter_ref_pic_set_prediction_flag s = 1). { unfold optf in Hf. replace (idx =? 0) with false in Hf by lia. unfold nz, u_ok in *. cbn in Hf. lia. }
    destruct H as (R1 & R2 & R3 & R4 & R5 & R6). pose proof Hs as (Hr & Hl & _). unfold ref_idx in R2.
    unfold read_rps_inter. cbn [concat].
    assert (Hu : u32 (idx - 1) = idx - 1) by (unfold u32; apply Z.mod_small; lia).
    assert (Ha : 0 <= delta_idx_minus1 s) by (unfold optf, ue_ok in *; destruct (idx =? num); lia).
    eapply parses_bind; [eapply parses_when_optf; [exact R1|]; intros; apply parses_ue_ok; assumption|].
    apply parses_guard; [lia|].
    eapply parses_bind; [apply parses_u_ok; [lia|assumption]|].
    eapply parses_bind; [apply parses_ue_max; [lia|assumption]|]. cbv zeta. rewrite ref_u32 by lia.
    apply (parses_at sets _ rps_dummy); [lia|]. fold (ref_idx idx s). fold (ref_of idx sets s).
    assert (Shr : rps_shape (ref_of idx sets s)) by (apply (ref_shape idx); [exact Hs|unfold ref_idx; lia]).
    pose proof Shr as (N0 & N1 & N16 & _).
    assert (Et : u32 (num_negative_pics (ref_of idx sets s) + num_positive_pics (ref_of idx sets s)) =
      num_negative_pics (ref_of idx sets s) + num_positive_pics (ref_of idx sets s)) by (unfold u32; apply Z.mod_small; lia).
    rewrite Et. apply parses_guard; [unfold HEVC_MAX_DPB_SIZE; lia|].
    eapply parses_bind; [eapply parses_vec; [exact R6|]; intros; apply parses_rps_flag; assumption|].
    destruct R6 as [L6 F6].
    eapply parses_bind_nil; [apply (parses_DeriveValues B)|]; try assumption.
    + unfold ref_of, znth. apply nth_In. unfold ref_idx. lia.
    + split; [exact Shr|lia].
    + lia.
    + cbn [fst snd]. destruct Sh as (M0 & M1 & _). rewrite <- M0, <- M1. apply parses_ret_eq. destruct s. cbn in *. subst. reflexivity.
  - assert (E0 : inter_ref_pic_set_prediction_flag s = 0) by (unfold nz in Ei; lia).
    destruct H as (R1 & R2 & R3 & R4 & R5 & R6 & R7). apply parses_rps_explicit; assumption.
Qed.
