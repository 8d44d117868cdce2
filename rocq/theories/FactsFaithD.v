(** What fdump prints determines the parsed structure: hexadecimal numbers and the VPS *)
From Coq Require Import ZArith List Bool Lia ZifyBool ZifyNat String Ascii.
From Verif Require Import MBase MBitBuffer Spec Reader ReaderFacts Rules Syntax SyntaxSe MCommon MSyntaxA SpecA MProfile MSyntaxB SpecB MText SpecText FactsText FactsTells FactsFaithA FactsFaithB.
Import ListNotations.
Open Scope string_scope.
Open Scope Z_scope.

Lemma snoc_inj a b c d : a ++ String c "" = b ++ String d "" -> a = b /\ c = d.
Proof.
  revert b. induction a as [|x a IH]; intros [|y b] H; cbn in H.
  - injection H as ->. auto.
  - injection H as _ H. destruct b; discriminate H.
  - injection H as _ H. destruct a; discriminate H.
  - injection H as -> H. apply IH in H. destruct H as [-> ->]. auto.
Qed.
Lemma hex_char_inj d e : 0 <= d < 16 -> 0 <= e < 16 -> ascii_of_nat (Z.to_nat (hex_char d)) = ascii_of_nat (Z.to_nat (hex_char e)) -> d = e.
Proof.
  intros D E H. assert (K : forallb (fun i => forallb (fun j => implb (Ascii.eqb (ascii_of_nat (Z.to_nat (hex_char (Z.of_nat i)))) (ascii_of_nat (Z.to_nat (hex_char (Z.of_nat j))))) (Nat.eqb i j)) (List.seq 0 16)) (List.seq 0 16) = true)
    by (vm_compute; reflexivity).
  rewrite forallb_forall in K. specialize (K (Z.to_nat d)). rewrite in_seq, forallb_forall in K. specialize (K ltac:(lia) (Z.to_nat e)). rewrite in_seq in K. specialize (K ltac:(lia)).
  rewrite !Z2Nat.id in K by lia. rewrite H, Ascii.eqb_refl in K. cbn [implb] in K. apply Nat.eqb_eq in K. lia.
Qed.
Lemma hex_digits_inj n : forall m x y, 0 <= x < 16 ^ Z.of_nat n -> 0 <= y < 16 ^ Z.of_nat m -> hex_digits n x = hex_digits m y -> x = y /\ n = m.
Proof.
  induction n as [|n IH]; intros [|m] x y Hx Hy H; cbn [hex_digits] in H.
  - cbn in *. split; [lia|reflexivity].
  - exfalso. destruct (hex_digits m _); discriminate H.
  - exfalso. destruct (hex_digits n _); discriminate H.
  - apply snoc_inj in H. destruct H as [H C]. apply hex_char_inj in C; [|apply land15|apply land15].
    rewrite Nat2Z.inj_succ, Z.pow_succ_r in * by lia.
    change 15 with (Z.ones 4) in C. rewrite !Z.land_ones in C by lia. rewrite !Z.shiftr_div_pow2 in H by lia. change (2 ^ 4) with 16 in *.
    destruct (IH m (x / 16) (y / 16)) as [E ->]; [| |exact H|].
    + split; [apply Z.div_pos; lia | apply Z.div_lt_upper_bound; lia].
    + split; [apply Z.div_pos; lia | apply Z.div_lt_upper_bound; lia].
    + split; [|reflexivity]. rewrite (Z.div_mod x 16), (Z.div_mod y 16) by lia. lia.
Qed.
Lemma hex_len_bound n x : 0 <= x -> 0 <= x < 16 ^ Z.of_nat (Nat.max n (hex_len x)).
Proof.
  intros H. split; [exact H|]. eapply Z.lt_le_trans; [|apply Z.pow_le_mono_r; [lia | apply inj_le, Nat.le_max_r]].
  unfold hex_len. rewrite Nat2Z.inj_succ, Z2Nat.id by (apply Z.div_pos; [apply Z.log2_nonneg|lia]).
  destruct (Z.eq_dec x 0) as [->|N]; [reflexivity|]. change 16 with (2 ^ 4). rewrite <- Z.pow_mul_r by (try lia; assert (0 <= Z.log2 x / 4) by (apply Z.div_pos; [apply Z.log2_nonneg|lia]); lia).
  eapply Z.lt_le_trans; [apply Z.log2_spec; lia|]. apply Z.pow_le_mono_r; [lia|].
  pose proof (Z.div_mod (Z.log2 x) 4). pose proof (Z.mod_pos_bound (Z.log2 x) 4). lia.
Qed.
Lemma pr_x_inj n x y : 0 <= x -> 0 <= y -> pr_x n x = pr_x n y -> x = y.
Proof. unfold pr_x. intros X Y H. eapply hex_digits_inj in H; [apply H | apply hex_len_bound, X | apply hex_len_bound, Y]. Qed.
Lemma hex_word n x : sall (fun c => negb (is_space c)) (hex_digits n x) = true.
Proof.
  revert x. induction n as [|n IH]; intros x; [reflexivity|]. cbn [hex_digits]. rewrite sall_app, IH. cbn [sall andb].
  assert (K : forallb (fun i => negb (is_space (ascii_of_nat (Z.to_nat (hex_char (Z.of_nat i)))))) (List.seq 0 16) = true) by (vm_compute; reflexivity).
  rewrite forallb_forall in K. specialize (K (Z.to_nat (Z.land x 15))). rewrite in_seq in K. pose proof (land15 x). rewrite Z2Nat.id in K by lia. rewrite K by lia. reflexivity.
Qed.
(** a word that ends in a hexadecimal number *)
Lemma prefix_inj p a b : p ++ a = p ++ b -> a = b.
Proof. induction p; cbn; [auto|]. intros H. injection H as H. auto. Qed.
Lemma tells_hex name pre n x x' : 0 <= x -> 0 <= x' -> sall (fun c => negb (is_space c)) pre = true -> pre <> "" ->
  tells (line (name ++ ": " ++ pre ++ pr_x n x)) (line (name ++ ": " ++ pre ++ pr_x n x')) (x = x').
Proof.
  intros X X' P N. apply tells_line. intros r r'. rewrite !words_colon, <- !app_assoc.
  assert (W : forall y, words (pre ++ pr_x n y) = [pre ++ pr_x n y]).
  { intros y. apply words_word; [destruct pre; [congruence | discriminate] | rewrite sall_app, P; apply hex_word]. }
  rewrite !W. intros H. apply app_inv_head in H. injection H as H1 H2. split; [|exact H2]. apply prefix_inj in H1. revert H1. apply pr_x_inj; assumption.
Qed.

(** * VPS.  The C++ object has one hrd_parameters, the last one read. *)
Definition vps_hrds_stored (l : list vps_hrd_entry) : list vps_hrd_entry :=
  map (fun e => mkVH (hrd_layer_set_idx e) (cprms_present_flag e) (match rev l with e' :: _ => vps_hrd_parameters e' | [] => vps_hrd_parameters e end)) l.
Definition vps_stored (s : vps_body) : vps_body :=
  mkVPS (vps_video_parameter_set_id s) (vps_base_layer_internal_flag s) (vps_base_layer_available_flag s) (vps_max_layers_minus1 s) (vps_max_sub_layers_minus1 s)
    (vps_temporal_id_nesting_flag s) (vps_reserved_0xffff_16bits s) (vps_profile_tier_level s) (vps_sub_layer_ordering_info_present_flag s) (vps_ordering s)
    (vps_max_layer_id s) (vps_num_layer_sets_minus1 s) (layer_id_included_flag s) (vps_timing_info_present_flag s) (vps_num_units_in_tick s) (vps_time_scale s)
    (vps_poc_proportional_to_timing_flag s) (vps_num_ticks_poc_diff_one_minus1 s) (vps_num_hrd_parameters s)
    (vps_hrds_stored (vps_hrds s)) (vps_extension_flag s).
Definition last_of {A} (l : list A) : option A := match rev l with e :: _ => Some e | [] => None end.
Lemma hrds_stored_ext l l' : map hrd_layer_set_idx l = map hrd_layer_set_idx l' -> map cprms_present_flag l = map cprms_present_flag l' ->
  option_map vps_hrd_parameters (last_of l) = option_map vps_hrd_parameters (last_of l') -> vps_hrds_stored l = vps_hrds_stored l'.
Proof.
  unfold vps_hrds_stored, last_of. intros H1 H2. destruct (rev l) as [|x r] eqn:E, (rev l') as [|x' r'] eqn:E'; intros H3; try discriminate.
  - apply (f_equal (@rev _)) in E, E'. rewrite rev_involutive in E, E'. subst. reflexivity.
  - cbn in H3. injection H3 as H3. rewrite H3. clear E E' H3. revert l' H1 H2. induction l as [|a l IH]; intros [|b l'] H1 H2; try discriminate; [reflexivity|].
    cbn [map] in *. injection H1 as A1 H1. injection H2 as A2 H2. f_equal; [congruence | apply IH; assumption].
Qed.
Lemma ord_ext l : forall l', map max_dec_pic_buffering_minus1 l = map max_dec_pic_buffering_minus1 l' -> map max_num_reorder_pics l = map max_num_reorder_pics l' ->
  map max_latency_increase_plus1 l = map max_latency_increase_plus1 l' -> l = l'.
Proof. induction l as [|[] l IH]; intros [|[] l'] H1 H2 H3; try discriminate; [reflexivity|]. cbn in *. f_equal; [congruence | apply IH; congruence]. Qed.
Lemma last_facts num m l : 0 < num -> veci num (vps_hrd_ok false m) l -> is_some (fun e => exists i, vps_hrd_ok false m i e) (last_of l).
Proof.
  intros N [L H]. unfold last_of. destruct (rev l) as [|e r] eqn:E.
  - apply (f_equal (@rev _)) in E. rewrite rev_involutive in E. subst l. cbn in L. lia.
  - assert (I : In e l) by (apply in_rev; rewrite E; left; reflexivity).
    revert H I. clear. generalize 0. induction l as [|x l IH]; intros k H I; [destruct I|]. destruct I as [->|I].
    + exists k. apply H.
    + eapply IH; [apply H | exact I].
Qed.

Lemma last_map {A B} (f : A -> B) l l' : map f l = map f l' -> option_map f (last_of l) = option_map f (last_of l').
Proof.
  intros H. apply (f_equal (@rev _)) in H. rewrite <- !map_rev in H. unfold last_of. destruct (rev l), (rev l'); cbn in *; congruence.
Qed.
Lemma tells_last m m' l l' : m = m' -> map cprms_present_flag l = map cprms_present_flag l' ->
  is_some (fun e => exists i, vps_hrd_ok false m i e) (last_of l) -> is_some (fun e => exists i, vps_hrd_ok false m' i e) (last_of l') ->
  tells (tderef (last_of l) (fun e => text_hrd (nz (cprms_present_flag e)) (vps_hrd_parameters e)))
        (tderef (last_of l') (fun e => text_hrd (nz (cprms_present_flag e)) (vps_hrd_parameters e)))
        (option_map vps_hrd_parameters (last_of l) = option_map vps_hrd_parameters (last_of l')).
Proof.
  intros <- C H H'. apply last_map in C. destruct (last_of l) as [e|]; [|destruct H]. destruct (last_of l') as [e'|]; [|destruct H']. cbn in *.
  injection C as C. destruct H as (i & _ & _ & H), H' as (i' & _ & _ & H'). rewrite <- C in *. eapply tells_weaken; [apply (tells_hrd _ _ _ _ _ eq_refl H H')|]. congruence.
Qed.
Lemma included_range n m l : Syntax.vec n (Syntax.vec m (u_ok 1)) l -> Forall (Forall P_u) l.
Proof. intros [_ F]. eapply Forall_impl; [|exact F]. intros a [_ G]. eapply Forall_impl; [|exact G]. intros x H. refine (Pu_u _ _ _ H). lia. Qed.
Lemma hrds_range n m l : veci n (vps_hrd_ok false m) l -> Forall P_u (map hrd_layer_set_idx l) /\ Forall P_u (map cprms_present_flag l).
Proof.
  intros [_ H]. revert H. generalize 0. induction l as [|e l IH]; intros k H; [split; constructor|]. destruct H as [(U & C & _) H]. destruct (IH _ H). split; cbn [map]; constructor; try assumption; prange.
Qed.
Ltac tspecial ::= lazymatch goal with
  | |- tells (line ("vps_reserved_0xffff_16bits: 0x" ++ pr_x 4 _)) _ _ => apply (tells_hex "vps_reserved_0xffff_16bits" "0x" 4); [unfold u_ok in *; lia | unfold u_ok in *; lia | reflexivity | discriminate]
  | |- tells (fi "vps_max_layer_id" _) _ _ => apply tells_fi, det_pu; assumption
  | |- tells (vec2 _ _) _ _ => apply tells_vec2; assumption
  | |- tells (MText.vec _ (map _ (vps_hrds _))) _ _ => apply tells_vec, vdet_u; assumption
  | |- tells (text_ptl _ _ _) _ _ => eapply tells_ptl; [assumption | eassumption | eassumption]
  | |- tells (tderef (match rev (vps_hrds ?s) with _ => _ end) _) (tderef (match rev (vps_hrds ?s') with _ => _ end) _) _ => 
     apply (tells_last (vps_max_sub_layers_minus1 s) (vps_max_sub_layers_minus1 s') (vps_hrds s) (vps_hrds s'))
  | |- tells (tif _ _) _ _ => apply tells_tif2; [tcond | let C := fresh "C" in intros C; let C' := fresh "C" in intros C']
  end.
Lemma tells_vps s s' x x' : vps_ok false s -> vps_ok false s' -> u_ok 1 x -> u_ok 1 x' -> tells (text_vps s x) (text_vps s' x') (vps_stored s = vps_stored s' /\ x = x').
Proof.
  intros H H' X X'. unfold vps_ok in *. cbv zeta in *. split_ok.
  repeat match goal with K : optf _ (veci _ _) [] (vps_hrds ?s) |- _ => 
    assert (Forall P_u (map hrd_layer_set_idx (vps_hrds s)) /\ Forall P_u (map cprms_present_flag (vps_hrds s))) by
      (destruct (nz (vps_timing_info_present_flag s)); unfold optf in K; [exact (hrds_range _ _ _ K) | rewrite K; split; constructor]);
    assert (0 < vps_num_hrd_parameters s -> is_some (fun e => exists i, vps_hrd_ok false (vps_max_sub_layers_minus1 s) i e) (last_of (vps_hrds s))) by
      (intros N; destruct (nz (vps_timing_info_present_flag s)); unfold optf in *; [exact (last_facts _ _ _ N K) | lia]); revert K end. intros K K'. split_ok.
  match goal with A : Syntax.vec _ (Syntax.vec _ _) (layer_id_included_flag s), B : Syntax.vec _ (Syntax.vec _ _) (layer_id_included_flag s') |- _ => apply included_range in A, B end.
  assert (P_u (vps_max_layer_id s)) by (unfold P_u; lia). assert (P_u (vps_max_layer_id s')) by (unfold P_u; lia).
  assert (CW : forall c k n x, ue_le 1023 n -> optf c (ue_le (n + k)) 0 x -> k = 1 -> optf c ue_ok 0 x) by (clear; intros c k n x; destruct c; unfold optf, ue_le, ue_ok; lia).
  repeat match goal with X : optf _ (ue_le (_ + 1)) 0 _, Y : ue_le 1023 _ |- _ => apply (CW _ _ _ _ Y) in X; [|reflexivity] end. clear CW.
  eapply tells_weaken; [unfold text_vps; tgo; [assumption | assumption | match goal with F : _ -> is_some _ ?l |- is_some _ ?l => apply F; clear F end | match goal with F : _ -> is_some _ ?l |- is_some _ ?l => apply F; clear F end]|].
  1, 2: apply Z.ltb_lt; assumption.
  cbv beta. intros T. tuse. split; [|assumption].
  assert (EO : vps_ordering s = vps_ordering s') by (apply ord_ext; assumption).
  assert (EH : vps_hrds_stored (vps_hrds s) = vps_hrds_stored (vps_hrds s')).
  { destruct (0 <? vps_num_hrd_parameters s) eqn:N.
    - match goal with T : true = true -> _ |- _ => specialize (T eq_refl) end. tuse. apply hrds_stored_ext; assumption.
    - assert (Z0 : forall s0, optf (nz (vps_timing_info_present_flag s0)) (veci (vps_num_hrd_parameters s0) (vps_hrd_ok false (vps_max_sub_layers_minus1 s0))) [] (vps_hrds s0) -> vps_num_hrd_parameters s0 <= 0 -> vps_hrds s0 = []).
      { clear. intros s0 K N. destruct (nz _); unfold optf in K; [|exact K]. destruct K as [L _]. destruct (vps_hrds s0); [reflexivity|]. cbn in L. lia. }
      apply Z.ltb_ge in N. rewrite (Z0 s K N). match goal with E : vps_num_hrd_parameters s = _ |- _ => rewrite E in N end. rewrite (Z0 s' K' N). reflexivity. }
  unfold vps_stored. rewrite EH, EO. repeat match goal with E : ?f s = ?f s' |- _ => rewrite E; clear E end. reflexivity.
Qed.
