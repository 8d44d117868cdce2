(** How long the text of the fdump functions is: a bound on the characters a command sequence prints, compositional in the text combinators. *)
From Coq Require Import ZArith List Bool Lia ZifyBool ZifyNat String Ascii.
From Coq Require Decimal DecimalFacts DecimalPos DecimalString DecimalZ.
From Verif Require Import MBase MBitBuffer Spec Syntax MCommon PropsCommon MText SpecSize.
Import ListNotations.
Open Scope string_scope.
Open Scope Z_scope.

Definition slen (s : string) : Z := Z.of_nat (String.length s).
Lemma slen_app a b : slen (a ++ b) = slen a + slen b.
Proof. unfold slen. induction a as [|c a IH]; cbn [String.append String.length]; lia. Qed.
Lemma slen_nonneg s : 0 <= slen s.
Proof. unfold slen. lia. Qed.
Lemma append_assoc a b c : (a ++ b) ++ c = a ++ (b ++ c).
Proof. induction a as [|x a IH]; cbn [String.append]; [reflexivity|]. rewrite IH. reflexivity. Qed.

(** * Decimal numbers *)
Section Digits.
Import Decimal DecimalFacts DecimalPos DecimalString.
(** The most significant digit (the last one, in little-endian order) is not 0. *)
Fixpoint nlz (d : uint) : Prop :=
  match d with
  | Nil => False
  | D0 Nil => False
  | D0 r | D1 r | D2 r | D3 r | D4 r | D5 r | D6 r | D7 r | D8 r | D9 r => match r with Nil => True | _ => nlz r end
  end.
Lemma nlz_step d : nlz d -> nlz (D0 d) /\ nlz (D1 d) /\ nlz (D2 d) /\ nlz (D3 d) /\ nlz (D4 d) /\ nlz (D5 d) /\ nlz (D6 d) /\ nlz (D7 d) /\ nlz (D8 d) /\ nlz (D9 d).
Proof. destruct d; cbn [nlz]; [tauto|..]; intros H; repeat split; exact H. Qed.
Lemma nlz_double d : nlz d -> nlz (Little.double d) /\ nlz (Little.succ_double d).
Proof.
  induction d as [|d IH|d IH|d IH|d IH|d IH|d IH|d IH|d IH|d IH|d IH]; intros H; [destruct H|..].
  all: destruct (uint_eq_dec d Nil) as [->|N]; [cbn in H |- *; tauto|].
  all: assert (H' : nlz d) by (destruct d; [congruence|..]; exact H); destruct (IH H') as [A B];
    cbn [Little.double Little.succ_double]; pose proof (nlz_step _ A); pose proof (nlz_step _ B); tauto.
Qed.
Lemma nlz_pos p : nlz (Pos.to_little_uint p).
Proof. induction p as [p IH|p IH|]; cbn [Pos.to_little_uint]; [apply nlz_double in IH; tauto|apply nlz_double in IH; tauto|exact I]. Qed.
Lemma nlz_value d : nlz d -> 10 ^ Z.of_nat (nb_digits d) <= 10 * Z.of_N (Unsigned.of_lu d).
Proof.
  induction d as [|d IH|d IH|d IH|d IH|d IH|d IH|d IH|d IH|d IH|d IH]; intros H; [destruct H|..].
  all: destruct (uint_eq_dec d Nil) as [->|N]; [cbn in H |- *; lia|].
  all: assert (H' : nlz d) by (destruct d; [congruence|..]; exact H); specialize (IH H'); cbn [nb_digits Unsigned.of_lu];
    replace (Z.of_nat (S (nb_digits d))) with (Z.of_nat (nb_digits d) + 1) by lia; rewrite Z.pow_add_r by lia; lia.
Qed.
Lemma of_to_little p : Unsigned.of_lu (Pos.to_little_uint p) = Npos p.
Proof.
  induction p as [p IH|p IH|]; cbn [Pos.to_little_uint]; [rewrite Unsigned.of_lu_succ_double, IH; reflexivity|rewrite Unsigned.of_lu_double, IH; reflexivity|reflexivity].
Qed.
Lemma length_uint d : String.length (NilEmpty.string_of_uint d) = nb_digits d.
Proof. induction d; cbn [NilEmpty.string_of_uint String.length nb_digits]; congruence. Qed.
Lemma length_uint0 d : d <> Nil -> String.length (NilZero.string_of_uint d) = nb_digits d.
Proof. intros H. destruct d; [congruence|..]; apply length_uint. Qed.
Lemma pos_digits p k : 0 <= k -> Zpos p < 10 ^ k -> Z.of_nat (nb_digits (Pos.to_uint p)) <= k.
Proof.
  intros K H. unfold Pos.to_uint. rewrite nb_digits_rev. pose proof (nlz_value _ (nlz_pos p)) as V. rewrite of_to_little in V.
  destruct (Z.le_gt_cases (Z.of_nat (nb_digits (Pos.to_little_uint p))) k) as [L|L]; [exact L|].
  pose proof (Z.pow_le_mono_r 10 (k + 1) (Z.of_nat (nb_digits (Pos.to_little_uint p))) ltac:(lia) ltac:(lia)) as M. rewrite Z.pow_add_r in M by lia. change (Z.of_N (Npos p)) with (Zpos p) in V. lia.
Qed.
Lemma dec_width x k : 1 <= k -> - 10 ^ (k - 1) < x < 10 ^ k -> slen (dec x) <= k.
Proof.
  intros K H. unfold slen, dec, Z.to_int. destruct x as [|p|p]; cbn [NilZero.string_of_int String.length].
  - cbn. lia.
  - rewrite length_uint0 by apply Unsigned.to_uint_nonnil. apply pos_digits; lia.
  - rewrite length_uint0 by apply Unsigned.to_uint_nonnil. pose proof (pos_digits p (k - 1) ltac:(lia) ltac:(lia)). lia.
Qed.
End Digits.
Definition small64 (x : Z) : Prop := 0 <= x < 2 ^ 64.
Lemma w_dec x : small64 x -> slen (dec x) <= 20.
Proof. intros H. apply dec_width; [lia|]. unfold small64 in H. lia. Qed.
Lemma w_i x : slen (pr_i x) <= 11.
Proof. apply dec_width; [lia|]. unfold to_i32, u32. pose proof (Z.mod_pos_bound x (2 ^ 32) ltac:(lia)). destruct (_ <? _) eqn:E; lia. Qed.
Lemma w_u x : small64 x -> slen (pr_u x) <= 20.
Proof. apply w_dec. Qed.
Lemma w_hex_digits n : forall x, slen (hex_digits n x) = Z.of_nat n.
Proof. induction n as [|n IH]; intros x; cbn [hex_digits]; [reflexivity|]. rewrite slen_app, IH. change (slen (String _ "")) with 1. lia. Qed.
Lemma w_x n x : small64 x -> (n <= 16)%nat -> slen (pr_x n x) <= 16.
Proof.
  intros H N. unfold pr_x. rewrite w_hex_digits. unfold hex_len. unfold small64 in H.
  assert (Z.log2 x <= 63). { destruct (Z.eq_dec x 0) as [->|X0]; [cbn; lia|]. assert (Z.log2 x < 64) by (apply Z.log2_lt_pow2; lia). lia. }
  pose proof (Z.log2_nonneg x). assert (Z.log2 x / 4 < 16) by (apply Z.div_lt_upper_bound; lia). pose proof (Z.div_pos (Z.log2 x) 4 ltac:(lia) ltac:(lia)). lia.
Qed.
Lemma w_dec_digits n : forall x, slen (dec_digits n x) = Z.of_nat n.
Proof. induction n as [|n IH]; intros x; cbn [dec_digits]; [reflexivity|]. rewrite slen_app, IH. change (slen (String _ "")) with 1. lia. Qed.
Lemma w_f d k x : 0 <= k <= 2 -> (d <= 5)%nat -> 0 <= x < 2 ^ 32 -> slen (pr_f d k x) <= 26.
Proof.
  intros K D H. unfold pr_f. rewrite !slen_app, w_dec_digits. change (slen ".") with 1.
  assert (small64 (k * x / 10 ^ Z.of_nat d)). { unfold small64. assert (0 < 10 ^ Z.of_nat d) by (apply Z.pow_pos_nonneg; lia). assert (0 <= k * x < 2 ^ 64) by nia.
    split; [apply Z.div_pos; lia|]. apply Z.div_lt_upper_bound; [lia|]. nia. }
  pose proof (w_dec _ H0). lia.
Qed.

(** * Texts *)
(** The level at depth [d] of a text printed at level [l] *)
Definition lv (l d : Z) : Z := if l =? -1 then -1 else l + d.
(** At depth [d], [t] prints at most [k * (level + 2)] characters and leaves the level and the stack as they are. *)
Definition tsz (d k : Z) (t : txt) : Prop := 0 <= k /\ forall cs, t = Done cs -> forall l stack rest, -1 <= l ->
  exists s, run (lv l d) stack (cs ++ rest)%list = s ++ run (lv l d) stack rest /\ slen s <= k * (l + 2).
Lemma tsz_mono d k k' t : tsz d k t -> k <= k' -> tsz d k' t.
Proof. intros [K H] L. split; [lia|]. intros cs E l st r Hl. destruct (H cs E l st r Hl) as (s & A & B). exists s. split; [exact A|]. nia. Qed.
Lemma tsz_nop d : tsz d 0 tnop.
Proof. split; [lia|]. intros cs E l st r Hl. injection E as <-. exists "". split; [reflexivity|]. change (slen "") with 0. lia. Qed.
Lemma tsz_seq d k1 k2 t1 t2 : tsz d k1 t1 -> tsz d k2 t2 -> tsz d (k1 + k2) (t1 +> t2).
Proof.
  intros [K1 H1] [K2 H2]. split; [lia|]. intros cs E l st r Hl. unfold tseq in E. destruct t1 as [c1|]; [|discriminate E]. destruct t2 as [c2|]; [|discriminate E].
  injection E as <-. destruct (H1 c1 eq_refl l st (c2 ++ r)%list Hl) as (s1 & A1 & B1). destruct (H2 c2 eq_refl l st r Hl) as (s2 & A2 & B2).
  exists (s1 ++ s2). rewrite <- app_assoc, A1, A2, append_assoc. split; [reflexivity|]. rewrite slen_app. lia.
Qed.
Lemma tsz_bad d e : tsz d 0 (Bad e).
Proof. split; [lia|]. intros cs E. discriminate E. Qed.
Lemma tsz_if d k c t : (c = true -> tsz d k t) -> 0 <= k -> tsz d k (tif c t).
Proof. intros H K. destruct c; cbn [tif]; [apply H; reflexivity|]. eapply tsz_mono; [apply tsz_nop | exact K]. Qed.
Lemma tsz_ite d k k' (c : bool) t t' : tsz d k t -> tsz d k' t' -> tsz d (k + k') (if c then t else t').
Proof. intros H H'. pose proof (proj1 H). pose proof (proj1 H'). destruct c; [apply (tsz_mono _ _ _ _ H) | apply (tsz_mono _ _ _ _ H')]; lia. Qed.
Lemma tsz_deref {A} d k (p : option A) (f : A -> txt) : 0 <= k -> (forall a, p = Some a -> tsz d k (f a)) -> tsz d k (tderef p f).
Proof. intros K H. destruct p as [a|]; cbn [tderef]; [apply H; reflexivity|]. eapply tsz_mono; [apply tsz_bad | exact K]. Qed.
Lemma tsz_checked {A} d k (p : option A) (f : A -> txt) : 0 <= k -> (forall a, p = Some a -> tsz d k (f a)) -> tsz d k (tchecked p f).
Proof. intros K H. destruct p as [a|]; cbn [tchecked]; [apply H; reflexivity|]. eapply tsz_mono; [apply tsz_nop | exact K]. Qed.
Lemma total_nonneg {A} (f : A -> Z) l : (forall x, 0 <= f x) -> 0 <= total f l.
Proof. intros H. unfold total. induction l as [|x l IH]; cbn [fold_right]; [lia|]. specialize (H x). lia. Qed.
Lemma tsz_each {A} d m (g : A -> Z) (l : list A) (f : A -> txt) : (forall a, In a l -> tsz d (m * (1 + g a)) (f a)) -> tsz d (m * vsize g l) (teach l f).
Proof.
  intros H. induction l as [|a l IH]; cbn [teach]; [eapply tsz_mono; [apply tsz_nop|]; cbn; lia|].
  eapply tsz_mono; [apply tsz_seq; [apply H; left; reflexivity | apply IH; intros b Hb; apply H; right; exact Hb]|]. unfold vsize, total. cbn [fold_right]. lia.
Qed.
Lemma tsz_upto d k n f : (forall i, tsz d k (f i)) -> 0 <= k -> tsz d (Z.of_nat n * k) (tupto n f).
Proof.
  intros H K. induction n as [|n IH]; cbn [tupto]; [eapply tsz_mono; [apply tsz_nop | lia]|]. eapply tsz_mono; [apply tsz_seq; [exact IH | apply H]|]. lia.
Qed.
(** A loop over the indices of [l] *)
Lemma tsz_elems {A} d m (g : A -> Z) (l : list A) n (f : nat -> txt) : 0 <= m -> (forall a, 0 <= g a) ->
  (forall i a, nth_error l i = Some a -> tsz d (m * (1 + g a)) (f i)) -> (forall i, nth_error l i = None -> forall cs, f i <> Done cs) -> tsz d (m * vsize g l) (tupto n f).
Proof.
  intros M G H B.
  assert (X : forall k, tsz d (m * vsize g (firstn k l)) (tupto k f)).
  { induction k as [|k IH]; cbn [tupto]; [eapply tsz_mono; [apply tsz_nop | cbn; lia]|].
    destruct (nth_error l k) as [a|] eqn:E.
    - eapply tsz_mono; [apply tsz_seq; [exact IH | apply (H _ _ E)]|].
      assert (firstn (S k) l = firstn k l ++ [a])%list as ->.
      { clear -E. revert k E. induction l as [|x l IH]; intros [|k] E; cbn in E; try discriminate E; [injection E as ->; reflexivity|]. cbn [firstn app]. f_equal. apply IH, E. }
      assert (T : forall r, vsize g (r ++ [a])%list = vsize g r + (1 + g a)).
      { clear. intros r. unfold vsize, total. induction r as [|x r IHr]; cbn [fold_right app]; [|rewrite IHr]; lia. }
      rewrite T. lia.
    - destruct IH as [K0 _]. assert (V : 0 <= vsize g (firstn (S k) l)) by (apply total_nonneg; intros x; specialize (G x); lia). split; [nia|]. intros cs Ec. exfalso. unfold tseq in Ec.
      destruct (tupto k f); [|discriminate Ec]. destruct (f k) eqn:F; [|discriminate Ec]. exact (B k E _ F). }
  eapply tsz_mono; [apply X|]. apply Z.mul_le_mono_nonneg_l; [exact M|].
  rewrite <- (firstn_skipn n l) at 2. unfold vsize at 2, total. rewrite fold_right_app.
  assert (Y : forall (r : list A) z, 0 <= z -> vsize g r <= fold_right (fun x n => 1 + g x + n) z r).
  { clear. intros r z Hz. unfold vsize, total. induction r as [|x r IHr]; cbn [fold_right]; lia. }
  apply Y. fold (total (fun x => 1 + g x) (skipn n l)). apply total_nonneg. intros x. specialize (G x). lia.
Qed.
Lemma w_ind l d : -1 <= l -> 0 <= d -> slen (fdump_indent_level (lv l d)) <= (d + 2) * (l + 2).
Proof.
  intros Hl Hd. unfold lv, fdump_indent_level. destruct (Z.eqb_spec l (-1)) as [->|N]; [change (slen (if -1 =? -1 then _ else _)) with 1; lia|].
  destruct (Z.eqb_spec (l + d) (-1)); [lia|]. unfold slen. cbn [String.length].
  assert (forall n, String.length (spaces n) = n) as -> by (induction n0 as [|k IH]; cbn [spaces String.length]; congruence). nia.
Qed.
Lemma tsz_ind d : 0 <= d -> tsz d (d + 2) (Done [Ind]).
Proof.
  intros D. split; [lia|]. intros cs E l st r Hl. injection E as <-. exists (fdump_indent_level (lv l d)). split; [reflexivity|]. apply w_ind; assumption.
Qed.
Lemma tsz_put d s : tsz d (slen s) (Done [Put s]).
Proof. pose proof (slen_nonneg s). split; [lia|]. intros cs E l st r Hl. injection E as <-. exists s. split; [reflexivity|]. nia. Qed.
Lemma tsz_line d s : 0 <= d -> tsz d (d + 2 + slen s) (line s).
Proof. intros D. change (line s) with (Done [Ind] +> Done [Put s]). apply tsz_seq; [apply tsz_ind, D | apply tsz_put]. Qed.
Lemma tsz_call d k t : tsz d k t -> tsz d k (call t).
Proof.
  intros [K H]. split; [exact K|]. intros cs E l st r Hl. unfold call, tseq in E. destruct t as [c|]; [|discriminate E]. injection E as <-.
  destruct (H c eq_refl l (lv l d :: st) (Restore :: r) Hl) as (s & A & B). exists s. split; [|exact B].
  cbn [app run]. rewrite <- app_assoc. cbn [app]. rewrite A. reflexivity.
Qed.
Lemma lv_incr l d : -1 <= l -> 0 <= d -> indent_level_incr (lv l d) = lv l (d + 1).
Proof. intros Hl Hd. unfold indent_level_incr, lv. destruct (Z.eqb_spec l (-1)); [reflexivity|]. destruct (Z.eqb_spec (l + d) (-1)); lia. Qed.
Lemma lv_decr l d : -1 <= l -> 0 <= d -> indent_level_decr (lv l (d + 1)) = lv l d.
Proof. intros Hl Hd. unfold indent_level_decr, lv. destruct (Z.eqb_spec l (-1)); [reflexivity|]. destruct (Z.eqb_spec (l + (d + 1)) (-1)); lia. Qed.
Lemma tsz_struct d k n t : 0 <= d -> tsz (d + 1) k t -> tsz d (slen n + 5 + d + k) (struct n t).
Proof.
  intros D [K H]. pose proof (slen_nonneg n). split; [lia|]. intros cs E l st r Hl. unfold struct, close, tseq in E. destruct t as [c|]; [|discriminate E]. injection E as <-.
  destruct (H c eq_refl l st (Decr :: Ind :: Put "}" :: r) Hl) as (s & A & B).
  exists ((n ++ " {") ++ s ++ fdump_indent_level (lv l d) ++ "}"). split.
  - cbn [app run]. rewrite lv_incr by assumption. rewrite <- app_assoc. cbn [app]. rewrite A. cbn [run]. rewrite lv_decr by assumption. rewrite !append_assoc. reflexivity.
  - rewrite !slen_app. change (slen " {") with 2. change (slen "}") with 1. pose proof (w_ind l d Hl D). nia.
Qed.
Lemma tsz_block d k n t : 0 <= d -> tsz (d + 1) k t -> tsz d (slen n + 7 + 2 * d + k) (block n t).
Proof.
  intros D H. assert (E : block n t = (Done [Ind] +> struct n t)) by (unfold block, struct, tseq; destruct t; reflexivity). rewrite E.
  eapply tsz_mono; [apply tsz_seq; [apply tsz_ind, D | apply tsz_struct; eassumption]|]. lia.
Qed.
Lemma tsz_sub d k t : 0 <= d -> tsz d k t -> tsz d (d + 2 + k) (sub t).
Proof. intros D H. apply tsz_seq; [apply tsz_ind, D | apply tsz_call, H]. Qed.

(** * Lines *)
Lemma tsz_fi d n x : 0 <= d <= 16 -> slen n <= 69 -> tsz d 100 (fi n x).
Proof. intros D N. unfold fi. eapply tsz_mono; [apply tsz_line; lia|]. rewrite !slen_app. change (slen ": ") with 2. pose proof (w_i x). lia. Qed.
Lemma tsz_fu d n x : 0 <= d <= 16 -> slen n <= 60 -> small64 x -> tsz d 100 (fu n x).
Proof. intros D N S. unfold fu. eapply tsz_mono; [apply tsz_line; lia|]. rewrite !slen_app. change (slen ": ") with 2. pose proof (w_u x S). lia. Qed.
Lemma w_list pr pre post w l : (forall x, In x l -> slen (pr x) <= w) -> slen (pr_list pr pre post l) <= (slen pre + w + slen post) * len l.
Proof.
  intros H. unfold pr_list, len. induction l as [|x l IH]; cbn [fold_right List.length]; [change (slen "") with 0; lia|].
  rewrite !slen_app. specialize (IH (fun y Hy => H y (or_intror Hy))). specialize (H x (or_introl eq_refl)). lia.
Qed.
Lemma tsz_vec d n l : 0 <= d <= 16 -> slen n <= 78 -> tsz d (100 + 12 * len l) (vec n l).
Proof.
  intros D N. unfold vec. eapply tsz_mono; [apply tsz_line; lia|]. rewrite !slen_app. change (slen " {") with 2. change (slen " }") with 2.
  pose proof (w_list pr_i " " "" 11 l (fun x _ => w_i x)) as W. change (slen " ") with 1 in W. change (slen "") with 0 in W. lia.
Qed.
Lemma tsz_vecs d n l : 0 <= d <= 16 -> slen n <= 78 -> tsz d (100 + 13 * len l) (vecs n l).
Proof.
  intros D N. unfold vecs. eapply tsz_mono; [apply tsz_line; lia|]. rewrite !slen_app. change (slen " {") with 2. change (slen " }") with 2.
  pose proof (w_list pr_i " " " " 11 l (fun x _ => w_i x)) as W. change (slen " ") with 1 in W. lia.
Qed.
Lemma tsz_vecci d n l : 0 <= d <= 16 -> slen n <= 77 -> tsz d (100 + 12 * len l) (vecci n l).
Proof.
  intros D N. unfold vecci. eapply tsz_mono; [apply tsz_line; lia|]. rewrite !slen_app. change (slen ": {") with 3. change (slen " }") with 2.
  pose proof (w_list pr_i " " "" 11 l (fun x _ => w_i x)) as W. change (slen " ") with 1 in W. change (slen "") with 0 in W. lia.
Qed.
Lemma tsz_vecu d n l : 0 <= d <= 16 -> slen n <= 78 -> Forall small64 l -> tsz d (100 + 21 * len l) (vecu n l).
Proof.
  intros D N F. unfold vecu. eapply tsz_mono; [apply tsz_line; lia|]. rewrite !slen_app. change (slen " {") with 2. change (slen " }") with 2.
  pose proof (w_list pr_u " " "" 20 l (fun x Hx => w_u x (proj1 (Forall_forall _ _) F x Hx))) as W. change (slen " ") with 1 in W. change (slen "") with 0 in W. lia.
Qed.
Lemma tsz_vecc d n l : 0 <= d <= 16 -> slen n <= 77 -> Forall small64 l -> tsz d (100 + 21 * len l) (vecc n l).
Proof.
  intros D N F. unfold vecc. eapply tsz_mono; [apply tsz_line; lia|]. rewrite !slen_app. change (slen ": {") with 3. change (slen " }") with 2.
  pose proof (w_list pr_u " " "" 20 l (fun x Hx => w_u x (proj1 (Forall_forall _ _) F x Hx))) as W. change (slen " ") with 1 in W. change (slen "") with 0 in W. lia.
Qed.
Lemma w_list2 l : slen (pr_list2 l) <= 12 * vsize len l.
Proof.
  unfold pr_list2, vsize, total. induction l as [|x l IH]; cbn [fold_right]; [change (slen "") with 0; lia|].
  rewrite !slen_app. change (slen " {") with 2. change (slen " }") with 2.
  pose proof (w_list pr_i " " "" 11 x (fun x _ => w_i x)) as W. change (slen " ") with 1 in W. change (slen "") with 0 in W. lia.
Qed.
Lemma tsz_vec2 d n l : 0 <= d <= 16 -> slen n <= 78 -> tsz d (100 + 12 * vsize len l) (vec2 n l).
Proof.
  intros D N. unfold vec2. eapply tsz_mono; [apply tsz_line; lia|]. rewrite !slen_app. change (slen " {") with 2. change (slen " }") with 2. pose proof (w_list2 l). lia.
Qed.
Lemma w_list3 l : slen (pr_list3 l) <= 12 * vsize (vsize len) l.
Proof.
  unfold pr_list3. unfold vsize at 1, total. induction l as [|x l IH]; cbn [fold_right]; [change (slen "") with 0; lia|].
  rewrite !slen_app. change (slen " {") with 2. change (slen " }") with 2. pose proof (w_list2 x). lia.
Qed.
Lemma tsz_vec3 d n l : 0 <= d <= 16 -> slen n <= 78 -> tsz d (100 + 12 * vsize (vsize len) l) (vec3 n l).
Proof.
  intros D N. unfold vec3. eapply tsz_mono; [apply tsz_line; lia|]. rewrite !slen_app. change (slen " {") with 2. change (slen " }") with 2. pose proof (w_list3 l). lia.
Qed.
Lemma len_map {A B} (f : A -> B) l : len (map f l) = len l.
Proof. unfold len. rewrite map_length. reflexivity. Qed.
Lemma len_nn {A} (l : list A) : 0 <= len l.
Proof. unfold len. lia. Qed.
