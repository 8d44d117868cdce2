(** What fdump prints determines the parsed structure: SEI messages *)
From Coq Require Import ZArith List Bool Lia ZifyBool ZifyNat String Ascii.
From Verif Require Import MBase MBitBuffer Spec Reader ReaderFacts Rules Syntax SyntaxSe MCommon MSyntaxA SpecA MSyntaxB SpecB MSei SpecSei MText SpecText FactsText FactsTells FactsFaithA FactsFaithB FactsFaithD.
Import ListNotations.
Open Scope string_scope.
Open Scope Z_scope.
Ltac tspecial ::= fail.

(** * Lines *)
(** a number followed by more words that depend on it *)
Lemma tells_more n (g : Z -> string) x x' : tells (line (n ++ ": " ++ pr_u x ++ String " " (g x))) (line (n ++ ": " ++ pr_u x' ++ String " " (g x'))) (x = x').
Proof.
  apply tells_line. intros r r'. rewrite !words_colon, !words_cut, !pr_u_word, <- !app_assoc. intros H. apply app_inv_head in H. cbn [app] in H.
  injection H as H1 H2. apply dec_inj in H1. subst x'. split; [reflexivity | apply app_inv_head in H2; exact H2].
Qed.
(** elements of two lists of the same length *)
Lemma tells_elems {A} (d : nat -> A -> txt) n (P P' : A -> Prop) l l' : List.length l = n -> List.length l' = n -> Forall P l -> Forall P' l' ->
  (forall c a a', P a -> P' a' -> tells (d c a) (d c a') (a = a')) -> tells (tupto n (fun c => telem l c (d c))) (tupto n (fun c => telem l' c (d c))) (l = l').
Proof.
  intros L L' F F' D. eapply tells_weaken; [apply (tells_tupto n _ _ (fun c => nth_error l c = nth_error l' c))|].
  - intros c Hc. unfold telem. destruct (nth_error l c) as [a|] eqn:E; [|apply nth_error_None in E; lia]. destruct (nth_error l' c) as [a'|] eqn:E'; [|apply nth_error_None in E'; lia].
    rewrite Forall_forall in F, F'. eapply tells_weaken; [apply D; [apply F, (nth_error_In _ _ E) | apply F', (nth_error_In _ _ E')]|]. congruence.
  - cbv beta. intros H. apply list_nth_ext. intros i. destruct (Nat.lt_ge_cases i n) as [K|K]; [auto|].
    rewrite !(proj2 (nth_error_None _ _)) by lia. reflexivity.
Qed.
Ltac fields := repeat match goal with E : ?f ?s = ?f ?s' |- _ => rewrite E; clear E end.

Lemma tells_t35 size size' s s' : t35_ok size s -> t35_ok size' s' -> tells (text_t35 s) (text_t35 s') (s = s').
Proof.
  intros H H'. unfold t35_ok in *. split_ok. eapply tells_weaken; [unfold text_t35; tgo|]. intros T. tuse. destruct s, s'; cbn in *. congruence.
Qed.
(** uuid: five groups of a fixed number of hexadecimal digits *)
Lemma hex_len_le n x : (0 < n)%nat -> 0 <= x < 16 ^ Z.of_nat n -> (hex_len x <= n)%nat.
Proof.
  intros N H. unfold hex_len. destruct (Z.eq_dec x 0) as [->|Z0]; [cbn; lia|].
  assert (Z.log2 x < 4 * Z.of_nat n). { apply Z.log2_lt_pow2; [lia|]. rewrite Z.pow_mul_r by lia. exact (proj2 H). }
  pose proof (Z.log2_nonneg x). assert (Z.log2 x / 4 < Z.of_nat n) by (apply Z.div_lt_upper_bound; lia). assert (D : 0 <= Z.log2 x / 4) by (apply Z.div_pos; lia). clear H. lia.
Qed.
Lemma pr_x_fixed n x : (0 < n)%nat -> 0 <= x < 16 ^ Z.of_nat n -> pr_x n x = hex_digits n x.
Proof. intros N H. unfold pr_x. rewrite Nat.max_l; [reflexivity | apply hex_len_le; assumption]. Qed.
Lemma sapp_len a b : String.length (a ++ b) = (String.length a + String.length b)%nat.
Proof. induction a; cbn; congruence. Qed.
Lemma hex_digits_len n : forall x, String.length (hex_digits n x) = n.
Proof. induction n as [|n IH]; intros x; [reflexivity|]. cbn [hex_digits]. rewrite sapp_len, IH. cbn. lia. Qed.
Lemma sapp_inj a : forall b c d, String.length a = String.length c -> a ++ b = c ++ d -> a = c /\ b = d.
Proof. induction a as [|x a IH]; intros b [|y c] d L H; try discriminate; [auto|]. cbn in *. injection H as -> H. injection L as L. destruct (IH _ _ _ L H) as [-> ->]. auto. Qed.
Lemma tells_group n x x' t t' (Q : Prop) : (0 < n)%nat -> 0 <= x < 16 ^ Z.of_nat n -> 0 <= x' < 16 ^ Z.of_nat n -> (t = t' -> Q) ->
  pr_x n x ++ t = pr_x n x' ++ t' -> x = x' /\ Q.
Proof.
  intros N X X' H E. rewrite !pr_x_fixed in E by assumption. apply sapp_inj in E; [|rewrite !hex_digits_len; reflexivity]. destruct E as [E1 E2].
  apply hex_digits_inj in E1; [|assumption|assumption]. tauto.
Qed.
Definition uuid_word (u1 u2 : Z) : string := pr_x 8 (Z.shiftr u1 32) ++ "-" ++ pr_x 4 (Z.land (Z.shiftr u1 16) 65535) ++ "-" ++ pr_x 4 (Z.land u1 65535)
        ++ "-" ++ pr_x 4 (Z.shiftr u2 48) ++ "-" ++ pr_x 12 (Z.land u2 281474976710655).
Lemma uuid_is_word u1 u2 : words (uuid_word u1 u2) = [uuid_word u1 u2].
Proof.
  apply words_word.
  - unfold uuid_word. intros H. apply (f_equal String.length) in H. rewrite !sapp_len in H. cbn in H. lia.
  - unfold uuid_word. unfold pr_x. rewrite !sall_app, !hex_word. reflexivity.
Qed.
Lemma uuid_inj u1 u2 v1 v2 : u_ok 64 u1 -> u_ok 64 u2 -> u_ok 64 v1 -> u_ok 64 v2 -> uuid_word u1 u2 = uuid_word v1 v2 -> u1 = v1 /\ u2 = v2.
Proof.
  unfold u_ok, uuid_word. intros U1 U2 V1 V2 H.
  assert (S : forall n k x, 0 <= x < 2 ^ 64 -> 0 <= k -> 64 <= k + 4 * n -> 0 <= n -> 0 <= Z.shiftr x k < 16 ^ n).
  { intros n k x X K L N. rewrite Z.shiftr_div_pow2 by lia. split; [apply Z.div_pos; lia|]. apply Z.div_lt_upper_bound; [lia|]. change 16 with (2 ^ 4). rewrite <- Z.pow_mul_r, <- Z.pow_add_r by lia.
    eapply Z.lt_le_trans; [apply X|]. apply Z.pow_le_mono_r; lia. }
  assert (L4 : forall x, 0 <= Z.land x 65535 < 16 ^ 4) by (intros x; change 65535 with (Z.ones 16); rewrite Z.land_ones by lia; apply Z.mod_pos_bound; lia).
  assert (L12 : forall x, 0 <= Z.land x 281474976710655 < 16 ^ 12) by (intros x; change 281474976710655 with (Z.ones 48); rewrite Z.land_ones by lia; apply Z.mod_pos_bound; lia).
  eapply tells_group in H; [|lia|apply (S 8); lia|apply (S 8); lia|exact (prefix_inj "-" _ _)]. destruct H as [A1 H].
  eapply tells_group in H; [|lia|apply L4|apply L4|exact (prefix_inj "-" _ _)]. destruct H as [A2 H].
  eapply tells_group in H; [|lia|apply L4|apply L4|exact (prefix_inj "-" _ _)]. destruct H as [A3 H].
  eapply tells_group in H; [|lia|apply (S 4); lia|apply (S 4); lia|exact (prefix_inj "-" _ _)]. destruct H as [A4 H].
  rewrite !pr_x_fixed in H by (first [lia | apply L12]). apply hex_digits_inj in H; [|apply L12|apply L12]. destruct H as [A5 _].
  change 65535 with (Z.ones 16) in *. change 281474976710655 with (Z.ones 48) in *. rewrite !Z.land_ones in * by lia. rewrite !Z.shiftr_div_pow2 in * by lia.
  clear S L4 L12. split.
  - assert (E : forall u, 0 <= u -> u = (u / 2 ^ 32) * 2 ^ 32 + (u / 2 ^ 16) mod 2 ^ 16 * 2 ^ 16 + u mod 2 ^ 16).
    { clear. intros u _. change (2 ^ 32) with (2 ^ 16 * 2 ^ 16). rewrite <- Z.div_div by lia. pose proof (Z.div_mod u (2 ^ 16)). pose proof (Z.div_mod (u / 2 ^ 16) (2 ^ 16)). lia. }
    rewrite (E u1), (E v1) by lia. congruence.
  - rewrite (Z.div_mod u2 (2 ^ 48)), (Z.div_mod v2 (2 ^ 48)) by lia. congruence.
Qed.
Lemma tells_unregistered size size' s s' : unregistered_ok size s -> unregistered_ok size' s' -> tells (text_unregistered s) (text_unregistered s') (s = s').
Proof.
  intros H H'. unfold unregistered_ok in *. split_ok. eapply tells_weaken.
  - unfold text_unregistered. cbv zeta. tstep. eapply tells_seq; [|intros E; tgo].
    apply tells_line with (Q := uuid_iso_iec_11578_1 s = uuid_iso_iec_11578_1 s' /\ uuid_iso_iec_11578_2 s = uuid_iso_iec_11578_2 s'). intros r r'.
    change ("uuid_iso_iec_11578: " ++ ?t) with ("uuid_iso_iec_11578" ++ ": " ++ t). fold (uuid_word (uuid_iso_iec_11578_1 s) (uuid_iso_iec_11578_2 s)) (uuid_word (uuid_iso_iec_11578_1 s') (uuid_iso_iec_11578_2 s')).
    rewrite !words_colon, !uuid_is_word, <- !app_assoc. intros K. apply app_inv_head in K. cbn [app] in K. injection K as K1 K2. split; [|exact K2]. apply uuid_inj; assumption.
  - cbv beta. intros T. tuse. destruct s, s'; cbn in *. congruence.
Qed.
Lemma tells_alpha s s' : alpha_ok s -> alpha_ok s' -> tells (text_alpha s) (text_alpha s') (s = s').
Proof.
  intros H H'. unfold alpha_ok in *. cbv zeta in *. split_ok.
  assert (B : forall c d x, optf c (u_ok 3) 0 d -> optf c (u_ok (d + 9)) 0 x -> optf c (u_ok 32) 0 x).
  { clear. intros c d x. destruct c; unfold optf, u_ok; [|auto]. intros D [X0 X]. split; [exact X0|]. pose proof (Z.pow_le_mono_r 2 (d + 9) 32). lia. }
  repeat match goal with D : optf ?c (u_ok 3) 0 ?d, X : optf ?c (u_ok (?d + 9)) 0 _ |- _ => apply (B _ _ _ D) in X end. clear B.
  eapply tells_weaken; [unfold text_alpha; tgo|]. intros T. tuse. destruct s, s'; cbn in *. subst. tfields. reflexivity.
Qed.
Lemma tells_mastering s s' : mastering_ok s -> mastering_ok s' -> tells (text_mastering s) (text_mastering s') (s = s').
Proof.
  intros H H'. unfold mastering_ok in *. split_ok.
  eapply tells_weaken.
  - unfold text_mastering. tstep. eapply tells_seq; [|intros E].
    + match goal with A : Syntax.vec 3 _ (display_primaries s), B : Syntax.vec 3 _ (display_primaries s') |- _ => destruct A as [A1 A2], B as [B1 B2]; eapply (tells_elems (fun c e =>
        line ("display_primaries[" ++ dec (Z.of_nat c) ++ "]_x: " ++ pr_u (fst e) ++ " (" ++ pr_f 5 2 (fst e) ++ ")") +>
        line ("display_primaries[" ++ dec (Z.of_nat c) ++ "]_y: " ++ pr_u (snd e) ++ " (" ++ pr_f 5 2 (snd e) ++ ")"))); [exact A1 | exact B1 | exact A2 | exact B2|] end.
      intros c [a b] [a' b'] _ _. cbn [fst snd].
      replace ("display_primaries[" ++ dec (Z.of_nat c) ++ "]_x: " ++ pr_u a ++ " (" ++ pr_f 5 2 a ++ ")") with (("display_primaries[" ++ dec (Z.of_nat c) ++ "]_x") ++ ": " ++ pr_u a ++ String " " ("(" ++ pr_f 5 2 a ++ ")")) by (rewrite !sapp_assoc; reflexivity).
      replace ("display_primaries[" ++ dec (Z.of_nat c) ++ "]_x: " ++ pr_u a' ++ " (" ++ pr_f 5 2 a' ++ ")") with (("display_primaries[" ++ dec (Z.of_nat c) ++ "]_x") ++ ": " ++ pr_u a' ++ String " " ("(" ++ pr_f 5 2 a' ++ ")")) by (rewrite !sapp_assoc; reflexivity).
      replace ("display_primaries[" ++ dec (Z.of_nat c) ++ "]_y: " ++ pr_u b ++ " (" ++ pr_f 5 2 b ++ ")") with (("display_primaries[" ++ dec (Z.of_nat c) ++ "]_y") ++ ": " ++ pr_u b ++ String " " ("(" ++ pr_f 5 2 b ++ ")")) by (rewrite !sapp_assoc; reflexivity).
      replace ("display_primaries[" ++ dec (Z.of_nat c) ++ "]_y: " ++ pr_u b' ++ " (" ++ pr_f 5 2 b' ++ ")") with (("display_primaries[" ++ dec (Z.of_nat c) ++ "]_y") ++ ": " ++ pr_u b' ++ String " " ("(" ++ pr_f 5 2 b' ++ ")")) by (rewrite !sapp_assoc; reflexivity).
      eapply tells_weaken; [apply tells_seq; [apply (tells_more _ (fun v => "(" ++ pr_f 5 2 v ++ ")")) | intros _; apply (tells_more _ (fun v => "(" ++ pr_f 5 2 v ++ ")"))]|]. intros [-> ->]. reflexivity.
    + tstep; [apply (tells_more "white_point_x" (fun v => "(" ++ pr_f 5 2 v ++ ")"))|]. tstep; [apply (tells_more "white_point_y" (fun v => "(" ++ pr_f 5 2 v ++ ")"))|].
      tstep; [apply (tells_more "max_display_mastering_luminance" (fun v => "(" ++ pr_f 4 1 v ++ " cd/m^2)"))|]. apply (tells_more "min_display_mastering_luminance" (fun v => "(" ++ pr_f 4 1 v ++ " cd/m^2)")).
  - intros T. tuse. destruct s, s'; cbn in *. congruence.
Qed.
Lemma tells_light s s' : tells (text_light s) (text_light s') (s = s').
Proof.
  eapply tells_weaken.
  - unfold text_light. tstep. tstep; [apply (tells_more "max_content_light_level" (fun _ => "cd/m^2"))|]. apply (tells_more "max_pic_average_light_level" (fun _ => "cd/m^2")).
  - intros T. tuse. destruct s, s'; cbn in *. congruence.
Qed.
Lemma tells_knee s s' : knee_ok s -> knee_ok s' -> tells (text_knee s) (text_knee s') (s = s').
Proof.
  intros H H'. unfold knee_ok in *. cbv zeta in *. split_ok.
  assert (L : forall c n (l : list (Z * Z)), optf c ue_ok 0 n -> optf c (Syntax.vec (n + 1) (pair_ok 10 10)) [] l -> c = true -> negb (Nat.eqb (List.length l) 0) = true).
  { clear. intros c n l N L ->. unfold optf in *. destruct L as [L _]. unfold ue_ok in N. destruct l; [cbn in L; lia | reflexivity]. }
  eapply tells_weaken.
  - unfold text_knee. tgo. apply tells_tif; [|intros C1; tgo].
    rewrite (L (negb (nz (knee_function_cancel_flag s))) (num_knee_points_minus1 s)), (L (negb (nz (knee_function_cancel_flag s'))) (num_knee_points_minus1 s')); try assumption; [reflexivity|].
    match goal with C : negb (nz (knee_function_cancel_flag s)) = true, E : knee_function_cancel_flag s = _ |- _ => rewrite <- E; exact C end.
  - intros T. tuse.
    assert (EK : knee_points s = knee_points s').
    { match goal with A : optf ?c _ [] (knee_points s), B : optf ?c' _ [] (knee_points s') |- _ => apply (optf_eq2 _ _ _ _ _ _ _ A B); [do 2 apply f_equal; assumption|] end.
      intros C. tuse. match goal with K : negb (Nat.eqb _ _) = true -> _ |- _ => destruct K as [K1 K2]; [apply (L (negb (nz (knee_function_cancel_flag s))) (num_knee_points_minus1 s)); assumption|] end. apply ext_fst; assumption. }
    clear L. destruct s, s'; cbn in *. subst. tfields. reflexivity.
Qed.
Lemma tells_lut pre n m n' m' l l' : Syntax.vec 3 (lut_ok n m) l -> Syntax.vec 3 (lut_ok n' m') l' -> tells (text_lut pre l) (text_lut pre l') (l = l').
Proof.
  intros [L F] [L' F']. unfold text_lut. eapply (tells_elems (fun c e =>
    fu (index (pre ++ "_lut_num_val_minus1") c) (fst e) +>
    tif (0 <? fst e) (
      vecc (index (pre ++ "_lut_coded_value") c) (map fst (snd e)) +>
      vecc (index (pre ++ "_lut_target_value") c) (map snd (snd e))))); [exact L | exact L' | exact F | exact F'|].
  intros c [a b] [a' b'] [_ O] [_ O']. cbn [fst snd] in *. eapply tells_weaken.
  - tstep; [apply tells_fu|]. apply tells_tif; [apply f_equal; assumption|]. intros C. apply tells_seq; [apply tells_vecc | intros _; apply tells_vecc].
  - cbv beta. intros [-> T]. f_equal. apply (optf_eq _ _ _ _ _ _ O O'). intros C. tuse. apply ext_fst; assumption.
Qed.
Lemma tells_coeffs l l' : Syntax.vec 3 (Syntax.vec 3 se_ok) l -> Syntax.vec 3 (Syntax.vec 3 se_ok) l' ->
  tells (tif (negb (Nat.eqb (List.length l) 0)) (tupto 3 (fun c => tif (Nat.ltb c (List.length l)) (telem l c (fun l => vecci (index "colour_remap_coeffs" c) l)))))
        (tif (negb (Nat.eqb (List.length l') 0)) (tupto 3 (fun c => tif (Nat.ltb c (List.length l')) (telem l' c (fun l => vecci (index "colour_remap_coeffs" c) l))))) (l = l').
Proof.
  intros [L F] [L' F']. rewrite L, L'. change (Z.to_nat 3) with 3%nat in *. cbn [Nat.eqb negb tif].
  assert (X : forall k, List.length k = 3%nat -> tupto 3 (fun c => tif (Nat.ltb c 3) (telem k c (fun l => vecci (index "colour_remap_coeffs" c) l))) = tupto 3 (fun c => telem k c (fun l => vecci (index "colour_remap_coeffs" c) l))) by (intros; reflexivity).
  rewrite !X by assumption. eapply (tells_elems (fun c l => vecci (index "colour_remap_coeffs" c) l)); [exact L | exact L' | exact F | exact F'|].
  intros c a a' [_ A] [_ A']. apply tells_vecci, vdet_s; (eapply Forall_impl; [|eassumption]); intros x; apply Ps_se.
Qed.
Lemma optf_true {A} c (P : A -> Prop) d x : c = true -> optf c P d x -> P x.
Proof. intros ->. auto. Qed.
Ltac tspecial ::= lazymatch goal with
  | |- tells (text_lut _ (_ ?s)) (text_lut _ (_ ?s')) _ => eapply tells_lut; (eapply optf_true; [|eassumption]); assumption
  | |- tells (tif (negb (Nat.eqb (List.length _) 0)) _) _ _ => eapply tells_coeffs; (eapply optf_true; [|eassumption]); apply andb_true_intro; split; assumption
  | |- tells (tif _ _) _ _ => apply tells_tif2; [tcond | let C := fresh "C" in intros C; let C' := fresh "C" in intros C']
  end.
Lemma tells_remap s s' : remap_ok false s -> remap_ok false s' -> tells (text_remap s) (text_remap s') (s = s').
Proof.
  intros H H'. unfold remap_ok in *. cbv zeta in *. split_ok.
  repeat match goal with X : _ = true -> _ /\ _ |- _ => clear X end.
  eapply tells_weaken; [unfold text_remap; tgo|].
  intros T. tuse. destruct s, s'; cbn in *. subst. tfields. reflexivity.
Qed.
Lemma tells_ccv s s' : ccv_ok s -> ccv_ok s' -> tells (text_ccv s) (text_ccv s') (s = s').
Proof.
  intros H H'. unfold ccv_ok in *. cbv zeta in *. split_ok.
  eapply tells_weaken; [unfold text_ccv; tgo|].
  - match goal with A : optf _ _ [] (ccv_primaries s), B : optf _ _ [] (ccv_primaries s') |- _ => apply optf_true in A; [|apply andb_true_intro; split; assumption]; apply optf_true in B; [|apply andb_true_intro; split; assumption];
      destruct A as [A1 A2], B as [B1 B2]; eapply (tells_elems (fun c e => fi (index "ccv_primaries_x" c) (fst e) +> fi (index "ccv_primaries_y" c) (snd e))); [exact A1 | exact B1 | exact A2 | exact B2|] end.
    intros c [a b] [a' b'] [U1 U2] [U3 U4]. cbn [fst snd] in *. eapply tells_weaken; [apply tells_seq; [apply tells_fi, det_s; assumption | intros _; apply tells_fi, det_s; assumption]|]. intros [-> ->]. reflexivity.
  - intros T. tuse. destruct s, s'; cbn in *. subst. tfields. reflexivity.
Qed.
Lemma tells_alt v v' : tells (text_alt v) (text_alt v') (v = v').
Proof. unfold text_alt. tgo. Qed.
Lemma tells_ambient s s' : tells (text_ambient s) (text_ambient s') (s = s').
Proof. eapply tells_weaken; [unfold text_ambient; tgo|]. intros T. tuse. destruct s, s'; cbn in *. congruence. Qed.
Lemma tells_unknown l l' : tells (text_unknown l) (text_unknown l') (l = l').
Proof.
  eapply tells_weaken.
  - unfold text_unknown. tstep. tstep; [apply (tells_more "payload_size" (fun _ => ""))|]. tgo.
  - tauto.
Qed.
(** * The message *)
Lemma tells_payload ty size size' p p' : payload_ok false ty size p -> payload_ok false ty size' p' -> tells (text_sei_payload p) (text_sei_payload p') (p = p').
Proof.
  intros H H'. destruct p, p'; cbn [payload_ok] in H, H'; try (exfalso; destruct H as [H _], H' as [H' _]; subst; first [discriminate | unfold known_types in *; cbn [In] in *; tauto]);
    cbn [text_sei_payload]; (eapply tells_weaken; [first [eapply tells_t35 | eapply tells_unregistered | eapply tells_alpha | eapply tells_mastering | eapply tells_light | eapply tells_knee | eapply tells_remap |
      eapply tells_ccv | eapply tells_alt | eapply tells_ambient | eapply tells_unknown]; first [apply H | apply H'] | congruence]).
Qed.
Lemma sei_first p c : text_sei_payload p = Done c -> exists t r, toks c = t :: r /\ t <> "}".
Proof.
  assert (X : forall n d c0, struct n d = Done c0 -> exists c1, toks c0 = (words (n ++ " {") ++ toks c1)%list).
  { intros n d c0 E. unfold struct in E. destruct (tseq_done _ _ _ E) as (ca & cb & Ea & _ & ->). injection Ea as <-. exists cb. rewrite toks_app. cbn [toks flat_map]. unfold toks, flat_map at 1. now rewrite app_nil_r. }
  intros E. destruct p; cbn [text_sei_payload] in E;
    match type of E with ?f _ = _ => unfold f in E | ?f = _ => unfold f in E end; cbv zeta in E;
    match type of E with struct ?n ?d = Done ?c0 => destruct (X n d c0 E) as (c1 & ->); let w := eval vm_compute in (words (n ++ " {")) in change (words (n ++ " {")) with w end; clear;
    (eexists; eexists; split; [reflexivity | discriminate]).
Qed.
Lemma toks_line s c : line s = Done c -> toks c = words s.
Proof. intros E. injection E as <-. unfold toks, flat_map. cbn [app]. apply app_nil_r. Qed.
Lemma tells_sei s s' : ff_ok (payload_type s) -> ff_ok (payload_type s') -> 
  (forall p, sei_payload_state s = Some p -> payload_ok false (payload_type s) (MSei.payload_size s) p) ->
  (forall p, sei_payload_state s' = Some p -> payload_ok false (payload_type s') (MSei.payload_size s') p) -> tells (text_sei s) (text_sei s') (s = s').
Proof.
  intros F F' H H' c c' r r' E E' T.
  assert (X : forall s c r, text_sei s = Done c -> exists c1, tchecked (sei_payload_state s) (fun p => sub (text_sei_payload p)) = Done c1 /\
    (toks c ++ r = "sei" :: "message" :: "{" :: "payload_type:" :: pr_i (payload_type s) :: "payload_size:" :: pr_u (MSei.payload_size s) :: toks c1 ++ "}" :: r)%list).
  { clear. intros s c r E. unfold text_sei, struct in E. destruct (tseq_done _ _ _ E) as (ca & cb & Ea & Eb & ->). injection Ea as <-. destruct (tseq_done _ _ _ Eb) as (cc & cd & Ec & Ed & ->). injection Ed as <-.
    destruct (tseq_done _ _ _ Ec) as (c1 & c2 & E1 & E2 & ->). destruct (tseq_done _ _ _ E2) as (c3 & c4 & E3 & E4 & ->). exists c4. split; [exact E4|].
    assert (A1 : toks c1 = ["payload_type:"; pr_i (payload_type s)]).
    { unfold fi in E1. apply toks_line in E1. rewrite E1, words_colon, pr_i_word. reflexivity. }
    assert (A3 : toks c3 = ["payload_size:"; pr_u (MSei.payload_size s)]).
    { unfold fu in E3. apply toks_line in E3. rewrite E3, words_colon, pr_u_word. reflexivity. }
    rewrite !toks_app, A1, A3, <- !app_assoc. reflexivity. }
  destruct (X _ _ r E) as (c1 & E1 & T1), (X _ _ r' E') as (c1' & E1' & T1'). clear X. rewrite T1, T1' in T. clear T1 T1' E E'.
  assert (T2 : pr_i (payload_type s) = pr_i (payload_type s')) by congruence. assert (T3 : pr_u (MSei.payload_size s) = pr_u (MSei.payload_size s')) by congruence.
  assert (T4 : (toks c1 ++ "}" :: r = toks c1' ++ "}" :: r')%list) by congruence. clear T.
  apply dec_inj in T2, T3. apply (det_u _ _ F F') in T2.
  assert (G : forall p c1, tchecked (Some p) (fun p => sub (text_sei_payload p)) = Done c1 -> exists c2, text_sei_payload p = Done c2 /\ toks c1 = toks c2).
  { clear. intros p c1 E. cbn [tchecked] in E. unfold sub, MText.call in E. destruct (tseq_done _ _ _ E) as (ca & cb & Ea & Eb & ->). injection Ea as <-. destruct (tseq_done _ _ _ Eb) as (cc & cd & Ec & Ed & ->). injection Ec as <-.
    destruct (tseq_done _ _ _ Ed) as (ce & cf & Ee & Ef & ->). injection Ef as <-. exists ce. split; [exact Ee|]. rewrite !toks_app. cbn. now rewrite app_nil_r. }
  assert (S : sei_payload_state s = sei_payload_state s' /\ r = r').
  { destruct (sei_payload_state s) as [p|], (sei_payload_state s') as [p'|].
    - destruct (G _ _ E1) as (c2 & P & K), (G _ _ E1') as (c2' & P' & K'). rewrite K, K' in T4.
      specialize (H p eq_refl). specialize (H' p' eq_refl). rewrite <- T2 in H'. destruct (tells_payload _ _ _ _ _ H H' c2 c2' _ _ P P' T4) as [-> T5]. injection T5 as ->. auto.
    - exfalso. destruct (G _ _ E1) as (c2 & P & K). destruct (sei_first _ _ P) as (t & q & Q & N). injection E1' as <-. rewrite K, Q in T4. cbn [app toks flat_map] in T4. unfold toks, flat_map in T4. cbn [app] in T4. assert (t = "}") by congruence. contradiction.
    - exfalso. destruct (G _ _ E1') as (c2 & P & K). destruct (sei_first _ _ P) as (t & q & Q & N). injection E1 as <-. rewrite K, Q in T4. cbn [app toks flat_map] in T4. unfold toks, flat_map in T4. cbn [app] in T4. assert (t = "}") by congruence. contradiction.
    - injection E1 as <-. injection E1' as <-. cbn in T4. injection T4 as ->. auto. }
  destruct S as [S ->]. split; [|reflexivity]. destruct s, s'; cbn in *. congruence.
Qed.
