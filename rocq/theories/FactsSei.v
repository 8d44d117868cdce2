(** The SEI parsers read the layouts of SpecSei.v. *)
From Coq Require Import ZArith List Bool Lia ZifyBool ZifyNat.
From Verif Require Import MBase MBitBuffer Spec BitsFacts Reader ReaderFacts Rules Syntax SyntaxSe MCommon CommonFacts PropsBits
  MSyntaxA SpecA FactsA Api MSyntaxB SpecB FactsB MSei SpecSei.
Import ListNotations.
Open Scope Z_scope.
Ltac Zify.zify_post_hook ::= Z.div_mod_to_equations.

Global Arguments enc_t35 : simpl never.
Global Arguments t35_ok : simpl never.
Global Arguments enc_unregistered : simpl never.
Global Arguments unregistered_ok : simpl never.
Global Arguments enc_alpha : simpl never.
Global Arguments alpha_ok : simpl never.
Global Arguments enc_pair : simpl never.
Global Arguments pair_ok : simpl never.
Global Arguments enc_mastering : simpl never.
Global Arguments mastering_ok : simpl never.
Global Arguments enc_light : simpl never.
Global Arguments light_ok : simpl never.
Global Arguments enc_knee : simpl never.
Global Arguments knee_ok : simpl never.
Global Arguments enc_lut : simpl never.
Global Arguments lut_ok : simpl never.
Global Arguments lut_pair_ok : simpl never.
Global Arguments lut_bits : simpl never.
Global Arguments enc_remap : simpl never.
Global Arguments remap_ok : simpl never.
Global Arguments enc_i32_pair : simpl never.
Global Arguments i32_pair_ok : simpl never.
Global Arguments i32_ok : simpl never.
Global Arguments enc_ccv : simpl never.
Global Arguments ccv_ok : simpl never.
Global Arguments enc_ambient : simpl never.
Global Arguments ambient_ok : simpl never.
Global Arguments ff_ok : simpl never.
Global Arguments enc_ff : simpl never.

(** * The header numbers *)
Lemma enc_ff_small n : 0 <= n < 255 -> enc_ff n = enc_u 8 n.
Proof. intros H. unfold enc_ff, ff_bytes. rewrite Z.div_small, Z.mod_small by lia. cbn. unfold flat_map. apply app_nil_r. Qed.
Lemma enc_ff_step n : 255 <= n -> enc_ff n = enc_u 8 255 ++ enc_ff (n - 255).
Proof.
  intros H. unfold enc_ff, ff_bytes. replace (n / 255) with ((n - 255) / 255 + 1) by lia. replace (n mod 255) with ((n - 255) mod 255) by lia.
  replace (Z.to_nat ((n - 255) / 255 + 1)) with (S (Z.to_nat ((n - 255) / 255))) by lia. reflexivity.
Qed.
Lemma parses_ff_loop : forall fuel acc n, 0 <= acc -> 0 <= n -> acc + n < 2 ^ 32 -> n / 255 < Z.of_nat fuel -> parses (ff_loop fuel acc) (enc_ff n) (acc + n).
Proof.
  induction fuel as [|fuel IH]; intros acc n Ha Hn Hs Hf; [pose proof (Z.div_pos n 255); lia|]. cbn [ff_loop]. destruct (Z.ltb_spec n 255) as [L|L].
  - rewrite enc_ff_small by lia. rewrite <- (app_nil_r (enc_u 8 n)). eapply parses_bind; [apply (parses_u_ok 8); [lia|unfold u_ok; lia]|].
    apply parses_guard; [unfold u32_max; lia|]. replace (n =? 255) with false by lia. apply parses_ret.
  - rewrite enc_ff_step by lia. eapply parses_bind; [apply (parses_u_ok 8); [lia|unfold u_ok; lia]|].
    apply parses_guard; [unfold u32_max; lia|]. replace (255 =? 255) with true by lia. replace (acc + n) with (acc + 255 + (n - 255)) by lia.
    apply IH; lia.
Qed.
Lemma enc_ff_length n : 0 <= n -> Z.of_nat (length (enc_ff n)) = 8 * (n / 255 + 1).
Proof.
  intros H. unfold enc_ff, ff_bytes. rewrite flat_map_app, app_length. change (length (flat_map (enc_u 8) [n mod 255])) with (length (enc_u 8 (n mod 255) ++ [])).
  rewrite app_nil_r, length_enc_u.
  assert (G : forall k, length (flat_map (enc_u 8) (repeat 255 k)) = (8 * k)%nat).
  { induction k; [reflexivity|]. change (length (enc_u 8 255 ++ flat_map (enc_u 8) (repeat 255 k)) = (8 * S k)%nat). rewrite app_length, length_enc_u. lia. }
  rewrite G. lia.
Qed.
Lemma rem_length b : wf b -> (length (rem b) <= 8 * length (bb_bytes b))%nat.
Proof. intros W. unfold rem. rewrite skipn_length, length_bits_of. lia. Qed.
Lemma parses_ff n : ff_ok n -> parses read_ff (enc_ff n) n.
Proof.
  intros H b rest W E. unfold ff_ok in H. unfold read_ff. apply (parses_ff_loop (S (length (bb_bytes b))) 0 n ltac:(lia) ltac:(lia) ltac:(lia)) with (rest := rest); try assumption.
  pose proof (rem_length b W). rewrite E, app_length in H0. pose proof (enc_ff_length n ltac:(lia)). lia.
Qed.
Lemma ff_loop_sound : forall fuel acc b, wf b -> (length (rem b) < 8 * fuel)%nat -> 0 <= acc <= u32_max ->
  match ff_loop fuel acc b with
  | Ok n b' => exists bs, steps b b' bs /\ acc <= n <= u32_max /\ bs = enc_ff (n - acc)
  | Fail b' => exists bs, steps b b' bs
  | Err e => False
  end.
Proof.
  induction fuel as [|fuel IH]; intros acc b W L Ha; [lia|]. cbn [ff_loop]. unfold bind at 1.
  pose proof (wp_u_ok 8 ltac:(lia) b W) as R. destruct (ReadBits 8 b) as [v b1|b1|e]; [|exact R|exact R].
  destruct R as (bs & St & Hv & ->). unfold u_ok in Hv. change (2 ^ 8) with 256 in Hv. change (Z.to_nat 8) with 8%nat in *.
  unfold guard, bind at 1. destruct (Z.ltb_spec (u32_max - v) acc) as [G|G]; cbn [negb]; [eexists; exact St|].
  change (ret tt b1) with (Ok tt b1). cbv iota beta.
  destruct (Z.eqb_spec v 255) as [E|E].
  - subst v. assert (W1 : wf b1) by (eapply steps_wf; eassumption). specialize (IH (acc + 255) b1 W1).
    assert (L1 : (length (rem b1) < 8 * fuel)%nat) by (destruct St as [E1 _]; rewrite E1, app_length, length_enc_u in L; lia).
    specialize (IH L1 ltac:(lia)). destruct (ff_loop fuel (acc + 255) b1) as [n b2|b2|e].
    + destruct IH as (bs2 & St2 & Hn & ->). exists (enc_u 8 255 ++ enc_ff (n - (acc + 255))). split; [eapply steps_trans; eassumption|]. split; [lia|].
      rewrite (enc_ff_step (n - acc)) by lia. f_equal. f_equal. lia.
    + destruct IH as (bs2 & St2). eexists. eapply steps_trans; eassumption.
    + exact IH.
  - exists (enc_u 8 v). split; [exact St|]. split; [lia|]. replace (acc + v - acc) with v by lia. rewrite enc_ff_small by lia. reflexivity.
Qed.
Lemma wp_ff : wp no_err read_ff (fun n bs => ff_ok n /\ bs = enc_ff n).
Proof.
  intros b W. unfold read_ff. pose proof (ff_loop_sound (S (length (bb_bytes b))) 0 b W) as H. pose proof (rem_length b W).
  specialize (H ltac:(lia) ltac:(unfold u32_max; lia)). destruct (ff_loop _ 0 b) as [n b'|b'|e]; [|exact H|exact H].
  destruct H as (bs & S & Hn & ->). exists (enc_ff (n - 0)). split; [exact S|]. rewrite Z.sub_0_r. split; [unfold ff_ok, u32_max in *; lia|reflexivity].
Qed.
#[export] Hint Resolve parses_ff : parses_db.
#[export] Hint Resolve wp_ff : wp_db.

(** * Payloads *)
Lemma parses_bytes n l : Forall (u_ok 8) l -> n = Z.of_nat (length l) -> parses (collect n (fun _ => ReadUInt8)) (flat_map (enc_u 8) l) l.
Proof.
  intros F ->. eapply (parses_vec _ _ (u_ok 8) (enc_u 8)); [split; [lia|exact F]|]. intros i a Ha. apply (parses_u_ok 8); [lia|exact Ha].
Qed.
Lemma wp_bytes n : wp no_err (collect n (fun _ => ReadUInt8)) (fun l bs => vec n (u_ok 8) l /\ bs = flat_map (enc_u 8) l).
Proof. apply wp_vec. intros. apply (wp_u_ok 8). lia. Qed.

Lemma parses_t35 size s : t35_ok size s -> parses (parse_t35 size) (enc_t35 s) s.
Proof.
  destruct s as [c x l]. unfold t35_ok, enc_t35. cbn. intros (H1 & H2 & H3 & H4). unfold parse_t35, ReadUInt8 at 1 2.
  apply parses_guard; [destruct (c =? 255); lia|]. pstep. apply parses_guard; [destruct (c =? 255); cbn [negb orb] in *; lia|]. pstep.
  eapply parses_bind; [apply parses_bytes; [exact H3|destruct (c =? 255); lia]|]. prun.
Qed.
Lemma wp_t35 size : 0 <= size -> wp no_err (parse_t35 size) (fun s bs => t35_ok size s /\ bs = enc_t35 s).
Proof.
  intros Hs. unfold parse_t35, ReadUInt8 at 1 2. wstep. wstep. wstep. wstep. eapply wp_bind_eq; [apply wp_bytes|]. intros l [L F]. wrun.
  unfold t35_ok, enc_t35. cbn. split; [|reflexivity]. conjs. destruct (a =? 255); cbn [negb orb] in *; lia.
Qed.
Lemma parses_unregistered size s : unregistered_ok size s -> parses (parse_unregistered size) (enc_unregistered s) s.
Proof.
  destruct s as [u1 u2 l]. unfold unregistered_ok, enc_unregistered. cbn. intros (H1 & H2 & H3 & H4). unfold parse_unregistered.
  apply parses_guard; [lia|]. change 64%nat with (Z.to_nat (32 + 32)). pstep. pstep. eapply parses_bind; [apply parses_bytes; [exact H3|lia]|]. prun.
Qed.
Lemma wp_unregistered size : wp no_err (parse_unregistered size) (fun s bs => unregistered_ok size s /\ bs = enc_unregistered s).
Proof.
  unfold parse_unregistered. wstep. wstep. wstep. eapply wp_bind_eq; [apply wp_bytes|]. intros l [L F]. wrun.
  unfold unregistered_ok, enc_unregistered. cbn. split; [|reflexivity]. conjs. lia.
Qed.
Lemma parses_alpha s : alpha_ok s -> parses parse_alpha (enc_alpha s) s.
Proof.
  destruct s. unfold alpha_ok, enc_alpha. cbn. intros H. split_hyps. unfold parse_alpha.
  assert (0 <= alpha_channel_bit_depth_minus8 < 8).
  { match goal with H : optf ?c (u_ok 3) 0 alpha_channel_bit_depth_minus8 |- _ => clear - H; unfold optf, u_ok in H; destruct c; lia end. }
  prun.
Qed.
Lemma wp_alpha : wp no_err parse_alpha (fun s bs => alpha_ok s /\ bs = enc_alpha s).
Proof.
  unfold parse_alpha. wstep. wstep. wstep.
  assert (0 <= a1 < 8) by (match goal with H : optf ?c (u_ok 3) 0 a1 |- _ => clear - H; unfold optf, u_ok in H; destruct c; lia end).
  wrun. unfold alpha_ok, enc_alpha. cbn. split; [conjs|reflexivity].
Qed.
Lemma parses_pair n p : 0 < n <= 32 -> pair_ok n n p -> parses (read_pair n) (enc_pair n n p) p.
Proof. intros Hn. destruct p. unfold pair_ok, enc_pair. cbn. intros H. split_hyps. unfold read_pair. prun. Qed.
Lemma wp_pair n : 0 < n -> wp no_err (read_pair n) (fun p bs => pair_ok n n p /\ bs = enc_pair n n p).
Proof. intros Hn. unfold read_pair. wrun. unfold pair_ok, enc_pair. cbn. split; [conjs|reflexivity]. Qed.
Lemma parses_mastering s : mastering_ok s -> parses parse_mastering (enc_mastering s) s.
Proof.
  destruct s. unfold mastering_ok, enc_mastering. cbn. intros H. split_hyps. unfold parse_mastering.
  eapply parses_bind; [eapply parses_vec; [eassumption|]; intros; apply parses_pair; [lia|assumption]|]. prun.
Qed.
Lemma wp_mastering : wp no_err parse_mastering (fun s bs => mastering_ok s /\ bs = enc_mastering s).
Proof.
  unfold parse_mastering. eapply wp_bind_eq; [apply wp_vec; intros; apply wp_pair; lia|]. intros. wrun.
  unfold mastering_ok, enc_mastering. cbn. split; [conjs|reflexivity].
Qed.
Lemma parses_light s : light_ok s -> parses parse_light (enc_light s) s.
Proof. destruct s. unfold light_ok, enc_light. cbn. intros H. split_hyps. unfold parse_light. prun. Qed.
Lemma wp_light : wp no_err parse_light (fun s bs => light_ok s /\ bs = enc_light s).
Proof. unfold parse_light. wrun. unfold light_ok, enc_light. cbn. split; [conjs|reflexivity]. Qed.
Lemma parses_knee s : knee_ok s -> parses parse_knee (enc_knee s) s.
Proof.
  destruct s. unfold knee_ok, enc_knee. cbn. intros H. split_hyps. unfold parse_knee. do 8 pstep.
  eapply parses_bind; [eapply parses_when_optf; [eassumption|]; intros _ ?; eapply parses_vec; [eassumption|]; intros; apply parses_pair; [lia|assumption]|]. prun.
Qed.
Lemma wp_knee : wp no_err parse_knee (fun s bs => knee_ok s /\ bs = enc_knee s).
Proof.
  unfold parse_knee. do 8 wstep. eapply wp_bind_eq; [eapply wp_when; intros; apply wp_vec; intros; apply wp_pair; lia|]. intros. wrun.
  unfold knee_ok, enc_knee. cbn. split; [conjs|reflexivity].
Qed.
Lemma depth_used_bits bd : depth_used bd = lut_bits bd.
Proof. unfold depth_used, lut_bits. rewrite Z.shiftr_div_pow2, Z.shiftl_mul_pow2 by lia. change (2 ^ 3) with 8. lia. Qed.
Lemma wp_u_le n : 0 < n -> wp no_err (ReadBits n) (fun v bs => (n <= 32 /\ u_ok n v) /\ bs = enc_u (Z.to_nat n) v).
Proof.
  intros Hn. destruct (Z.leb_spec n 32) as [L|L].
  - eapply wp_weaken; [apply wp_u_ok; exact Hn|]. cbv beta. tauto.
  - intros b W. unfold ReadBits, PeekBits, PeekBits_w, bind. replace (0 <? n) with true by lia. replace (32 <? n) with true by lia. rewrite orb_true_r.
    cbn [negb]. exists []. apply steps_refl. exact W.
Qed.
Lemma parses_lut n l : 0 < n -> lut_ok n n l -> parses (read_lut n) (enc_lut n n l) l.
Proof.
  intros Hn. destruct l as [k l]. unfold lut_ok, enc_lut. cbn. intros H. split_hyps. unfold read_lut. pstep.
  eapply parses_bind; [eapply parses_when_optf; [eassumption|]; intros _ ?; eapply parses_vec; [eassumption|]; intros i p (P1 & P2 & P3); apply parses_pair; [lia|assumption]|]. prun.
Qed.
Lemma wp_lut n : 0 < n -> wp no_err (read_lut n) (fun l bs => lut_ok n n l /\ bs = enc_lut n n l).
Proof.
  intros Hn. unfold read_lut. wstep. eapply wp_bind_eq.
  { eapply wp_when. intros. eapply (wp_vec _ _ _ (lut_pair_ok n n) (enc_pair n n)). intros. unfold read_pair.
    eapply wp_bind_eq; [apply wp_u_le; exact Hn|]. intros x [Hx1 Hx2]. eapply wp_bind_eq; [apply wp_u_le; exact Hn|]. intros y [Hy1 Hy2].
    apply wp_ret. unfold lut_pair_ok, pair_ok, enc_pair. cbn. split; [tauto|reflexivity]. }
  intros. wrun. unfold lut_ok, enc_lut. cbn. split; [conjs|reflexivity].
Qed.
Lemma lut_bits_pos bd : 0 <= bd -> bd <> 0 -> 0 < lut_bits bd.
Proof. unfold lut_bits. lia. Qed.
Lemma opt_nonneg (c : bool) n v : 0 <= n -> optf c (u_ok n) 0 v -> 0 <= v.
Proof. unfold optf, u_ok. destruct c; lia. Qed.
Lemma parses_remap s : remap_ok false s -> parses parse_remap (enc_remap false s) s.
Proof.
  destruct s. unfold remap_ok, enc_remap, pre_target_bits. cbn. intros H. split_hyps. unfold parse_remap.
  pose proof (opt_nonneg _ 8 _ ltac:(lia) H7) as P1. pose proof (opt_nonneg _ 8 _ ltac:(lia) H8) as P2.
  do 10 pstep. apply parses_guard; [clear - H9; destruct (nz colour_remap_cancel_flag); cbn [negb orb] in *; [reflexivity|specialize (H9 eq_refl); lia]|].
  rewrite !depth_used_bits.
  eapply parses_bind; [eapply parses_when_optf; [exact H10|]; intros C ?; eapply parses_vec; [eassumption|]; intros; apply parses_lut; [apply lut_bits_pos; [lia|apply H9, C]|assumption]|].
  do 2 pstep. pstep.
  eapply parses_bind; [eapply parses_when_optf; [exact H14|]; intros C ?; eapply parses_vec; [eassumption|]; intros; apply parses_lut; [apply lut_bits_pos; [lia|apply H9, C]|assumption]|].
  prun.
Qed.
Lemma wpa_remap : wpa ovf_only parse_remap (remap_ok false) (enc_remap false).
Proof.
  unfold parse_remap, wpa. do 10 astep.
  match goal with |- wp _ (bind (guard (nz ?c || negb ((?i =? 0) || (?o =? 0)))) _) _ => rename i into ib; rename o into ob; rename c into cc end.
  assert (P1 : 0 <= ib) by (eapply (opt_nonneg _ 8); [lia|eassumption]). assert (P2 : 0 <= ob) by (eapply (opt_nonneg _ 8); [lia|eassumption]).
  rewrite !depth_used_bits. apply wp_guard. intros G.
  assert (G' : negb (nz cc) = true -> ib <> 0 /\ ob <> 0) by (clear - G; destruct (nz cc); cbn in *; [discriminate|lia]).
  eapply wpa_bind; [eapply wpa_when; intros C; apply wpa_exact, wp_err, wp_vec; intros; apply wp_lut, lut_bits_pos; [lia|apply G', C]|]. intros.
  do 3 astep.
  eapply wpa_bind; [eapply wpa_when; intros C; apply wpa_exact, wp_err, wp_vec; intros; apply wp_lut, lut_bits_pos; [lia|apply G', C]|]. intros.
  arun. unfold remap_ok, enc_remap, pre_target_bits. cbn. split; [conjs|agrees].
Qed.
Lemma to_i32_enc v : 0 <= v < 2 ^ 32 -> i32_ok (to_i32 v) /\ enc_u 32 (to_i32 v) = enc_u 32 v.
Proof.
  intros H. unfold to_i32, u32. rewrite Z.mod_small by lia. unfold i32_ok. destruct (Z.ltb_spec v (2 ^ 31)); [split; [lia|reflexivity]|]. split; [lia|].
  assert (G : forall n, (n <= 32)%nat -> enc_u n (v - 2 ^ 32) = enc_u n v).
  { induction n as [|n IH]; intros Hn; [reflexivity|].
    change (Z.testbit (v - 2 ^ 32) (Z.of_nat n) :: enc_u n (v - 2 ^ 32) = Z.testbit v (Z.of_nat n) :: enc_u n v). rewrite IH by lia. f_equal.
    rewrite <- (Z.mod_pow2_bits_low (v - 2 ^ 32) 32) by lia. rewrite <- (Z.mod_pow2_bits_low v 32) by lia. f_equal.
    replace (v - 2 ^ 32) with (v + (-1) * 2 ^ 32) by lia. rewrite Z.mod_add by lia. reflexivity. }
  apply G. lia.
Qed.
Lemma parses_i32 v : i32_ok v -> parses ReadI32 (enc_u 32 v) v.
Proof.
  intros H. unfold i32_ok in H. assert (R : 0 <= v mod 2 ^ 32 < 2 ^ 32) by (apply Z.mod_pos_bound; lia).
  assert (E : to_i32 (v mod 2 ^ 32) = v) by (unfold to_i32, u32; rewrite Z.mod_mod by lia; destruct (Z.ltb_spec (v mod 2 ^ 32) (2 ^ 31)); lia).
  destruct (to_i32_enc _ R) as [_ E2]. rewrite E in E2. rewrite E2. unfold ReadI32. rewrite <- (app_nil_r (enc_u 32 _)).
  eapply parses_bind; [apply (parses_u_ok 32); [lia|exact R]|]. rewrite E. apply parses_ret.
Qed.
Lemma wp_i32 : wp no_err ReadI32 (fun v bs => i32_ok v /\ bs = enc_u 32 v).
Proof.
  unfold ReadI32. eapply wp_bind_eq; [apply (wp_u_ok 32); lia|]. intros v Hv. apply wp_ret. rewrite app_nil_r. destruct (to_i32_enc v Hv) as [H1 H2].
  rewrite H2. auto.
Qed.
Global Arguments ReadI32 : simpl never.
#[export] Hint Resolve parses_i32 : parses_db.
#[export] Hint Resolve wp_i32 : wp_db.
Lemma parses_i32_pair p : i32_pair_ok p -> parses read_i32_pair (enc_i32_pair p) p.
Proof. destruct p. unfold i32_pair_ok, enc_i32_pair. cbn. intros H. split_hyps. unfold read_i32_pair. prun. Qed.
Lemma wp_i32_pair : wp no_err read_i32_pair (fun p bs => i32_pair_ok p /\ bs = enc_i32_pair p).
Proof. unfold read_i32_pair. wrun. unfold i32_pair_ok, enc_i32_pair. cbn. split; [conjs|reflexivity]. Qed.
#[export] Hint Resolve parses_i32_pair : parses_db.
#[export] Hint Resolve wp_i32_pair : wp_db.
Lemma parses_ccv s : ccv_ok s -> parses parse_ccv (enc_ccv s) s.
Proof. destruct s. unfold ccv_ok, enc_ccv. cbn. intros H. split_hyps. unfold parse_ccv. prun. Qed.
Lemma wp_ccv : wp no_err parse_ccv (fun s bs => ccv_ok s /\ bs = enc_ccv s).
Proof. unfold parse_ccv. wrun. unfold ccv_ok, enc_ccv. cbn. split; [conjs|reflexivity]. Qed.
Lemma parses_ambient s : ambient_ok s -> parses parse_ambient (enc_ambient s) s.
Proof. destruct s. unfold ambient_ok, enc_ambient. cbn. intros H. split_hyps. unfold parse_ambient. prun. Qed.
Lemma wp_ambient : wp no_err parse_ambient (fun s bs => ambient_ok s /\ bs = enc_ambient s).
Proof. unfold parse_ambient. wrun. unfold ambient_ok, enc_ambient. cbn. split; [conjs|reflexivity]. Qed.

(** * The dispatcher *)
Lemma parses_fmap {A B} (f : A -> B) (m : M A) bs v : parses m bs v -> parses (fmap f m) bs (f v).
Proof. intros H. unfold fmap. rewrite <- (app_nil_r bs). eapply parses_bind; [exact H|apply parses_ret]. Qed.
Lemma wpa_fmap E {A B} (f : A -> B) (m : M A) P enc Q enc' : wpa E m P enc -> (forall a, P a -> Q (f a) /\ enc' (f a) = enc a) -> wpa E (fmap f m) Q enc'.
Proof.
  intros H1 H2. unfold fmap. eapply wpa_bind; [exact H1|]. intros a bs Ha Hb. apply wp_ret. rewrite app_nil_r. destruct (H2 a Ha) as [H3 H4].
  rewrite H4. split; assumption.
Qed.
Lemma parses_payload ty size p : payload_ok false ty size p -> parses (parse_payload ty size) (enc_payload false p) p.
Proof.
  destruct p; cbn [payload_ok enc_payload]; unfold parse_payload.
  - intros [-> H]. apply (parses_fmap P_t35), parses_t35, H.
  - intros [-> H]. apply (parses_fmap P_unregistered), parses_unregistered, H.
  - intros [-> H]. apply (parses_fmap P_alpha), parses_alpha, H.
  - intros [-> H]. apply (parses_fmap P_mastering), parses_mastering, H.
  - intros [-> H]. apply (parses_fmap P_light), parses_light, H.
  - intros [-> H]. apply (parses_fmap P_knee), parses_knee, H.
  - intros [-> H]. apply (parses_fmap P_remap), parses_remap, H.
  - intros [-> H]. apply (parses_fmap P_ccv), parses_ccv, H.
  - intros [-> H]. apply (parses_fmap P_alt), (parses_u_ok 8); [lia|exact H].
  - intros [-> H]. apply (parses_fmap P_ambient), parses_ambient, H.
  - intros (Hn & F & L & N). assert (forall k, In k known_types -> (ty =? k) = false) as K by (intros k Hk; apply Z.eqb_neq; intros ->; auto).
    rewrite !K by (cbn; tauto). apply (parses_fmap P_unknown). unfold parse_unknown. apply parses_guard; [lia|]. apply parses_bytes; assumption.
Qed.
Lemma wpa_payload ty size : 0 <= size -> wpa ovf_only (parse_payload ty size) (payload_ok false ty size) (enc_payload false).
Proof.
  intros Hs. unfold parse_payload.
  destruct (Z.eqb_spec ty 4) as [->|N4]; [eapply wpa_fmap; [apply wpa_exact, wp_err, wp_t35, Hs|cbn; auto]|].
  destruct (Z.eqb_spec ty 5) as [->|N5]; [eapply wpa_fmap; [apply wpa_exact, wp_err, wp_unregistered|cbn; auto]|].
  destruct (Z.eqb_spec ty 137) as [->|N137]; [eapply wpa_fmap; [apply wpa_exact, wp_err, wp_mastering|cbn; auto]|].
  destruct (Z.eqb_spec ty 144) as [->|N144]; [eapply wpa_fmap; [apply wpa_exact, wp_err, wp_light|cbn; auto]|].
  destruct (Z.eqb_spec ty 141) as [->|N141]; [eapply wpa_fmap; [apply wpa_exact, wp_err, wp_knee|cbn; auto]|].
  destruct (Z.eqb_spec ty 142) as [->|N142]; [eapply wpa_fmap; [apply wpa_remap|cbn; auto]|].
  destruct (Z.eqb_spec ty 149) as [->|N149]; [eapply wpa_fmap; [apply wpa_exact, wp_err, wp_ccv|cbn; auto]|].
  destruct (Z.eqb_spec ty 147) as [->|N147]; [eapply wpa_fmap; [apply wpa_exact, wp_err, (wp_u_ok 8); lia|cbn; auto]|].
  destruct (Z.eqb_spec ty 148) as [->|N148]; [eapply wpa_fmap; [apply wpa_exact, wp_err, wp_ambient|cbn; auto]|].
  destruct (Z.eqb_spec ty 165) as [->|N165]; [eapply wpa_fmap; [apply wpa_exact, wp_err, wp_alpha|cbn; auto]|].
  eapply (wpa_fmap _ P_unknown _ (fun l => vec size (u_ok 8) l /\ size <> 0)).
  - apply wpa_exact, wp_err. unfold parse_unknown. apply wp_guard. intros G. eapply wp_weaken; [apply wp_bytes|]. cbv beta. intros l bs [H ->].
    split; [split; [exact H|lia]|reflexivity].
  - intros l [[L F] N]. cbn. split; [|reflexivity]. split; [unfold known_types; cbn; intuition lia|]. split; [exact F|]. split; [lia|exact N].
Qed.
