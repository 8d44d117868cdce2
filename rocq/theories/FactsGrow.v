(** Rules for C50: parsers that consume at least half a bit for every element they return. *)
From Coq Require Import ZArith List Bool Lia ZifyBool ZifyNat.
From Verif Require Import MBase MBitBuffer Spec BitsFacts Reader ReaderFacts Rules Syntax SyntaxSe MCommon MSyntaxA MSyntaxB MSps MPps MSlice MSei MNal MRtp SpecSei FactsB FactsPps FactsSei FactsNal FactsLocal SpecSize.
Import ListNotations.
Open Scope Z_scope.
Open Scope monad_scope.
Ltac Zify.zify_post_hook ::= Z.div_mod_to_equations.


Definition grows {A} (P : A -> Prop) (g : A -> Z) (m : M A) : Prop :=
  forall b a b', wf b -> m b = Ok a b' -> wf b' /\ P a /\ g a <= 2 * (pos b' - pos b).
Lemma grows_mono {A} (P P' : A -> Prop) (g g' : A -> Z) m : grows P g m -> (forall a, P a -> P' a /\ g' a <= g a) -> grows P' g' m.
Proof. intros H Q b a b' W E. destruct (H b a b' W E) as (W' & Pa & G). destruct (Q a Pa). split; [exact W'|]. split; [assumption|lia]. Qed.
Lemma grows_ret {A} (P : A -> Prop) (g : A -> Z) a : P a -> g a <= 0 -> grows P g (ret a).
Proof. intros Pa G b a' b' W E. unfold ret in E. injection E as <- <-. split; [exact W|]. split; [exact Pa|]. lia. Qed.
Lemma grows_bind {A B} (P1 : A -> Prop) (g : A -> Z) (P : B -> Prop) (f : B -> Z) (m : M A) (k : A -> M B) :
  grows P1 g m -> (forall a, P1 a -> grows P (fun c => f c - g a) (k a)) -> grows P f (bind m k).
Proof.
  intros Hm Hk b c b' W E. apply bind_ok in E. destruct E as (a & b1 & E1 & E2). destruct (Hm b a b1 W E1) as (W1 & Pa & G1).
  destruct (Hk a Pa b1 c b' W1 E2) as (W2 & Pc & G2). split; [exact W2|]. split; [exact Pc|]. lia.
Qed.
Lemma grows_local {A} (m : M A) : local m -> grows (fun _ => True) (fun _ => 0) m.
Proof.
  intros H b a b' W E. destruct (H b a b' W E I) as (bs & S & _). split; [apply (steps_wf _ _ _ W S)|]. split; [exact I|]. destruct S as [_ ->]. rewrite pos_adv. lia.
Qed.
Lemma grows_if {A} P (g : A -> Z) (c : bool) m1 m2 : (c = true -> grows P g m1) -> (c = false -> grows P g m2) -> grows P g (if c then m1 else m2).
Proof. destruct c; auto. Qed.
Lemma grows_when {A} P (g : A -> Z) (c : bool) m d : (c = true -> grows P g m) -> P d -> g d <= 0 -> grows P g (when c m d).
Proof. intros H Pd G. unfold when. destruct c; [auto|apply grows_ret; assumption]. Qed.
Lemma grows_some {A} P (g : A -> Z) m : grows P g m -> grows (fun _ => True) (osize g) (some m).
Proof. intros H. unfold some. eapply grows_bind; [exact H|]. intros a Pa. apply grows_ret; [exact I|]. unfold osize. lia. Qed.
Lemma grows_collect {A} P (g : A -> Z) n (body : Z -> M A) : (forall i, grows P g (body i)) ->
  grows (fun l => Forall P l /\ length l = Z.to_nat n) (total g) (collect n body).
Proof.
  intros H b l b' W E. rewrite collect_nat_eq in E. revert b l b' W E. generalize (Z.to_nat n) as k. generalize 0 as i. intros i k. revert i.
  induction k as [|k IH]; intros i b l b' W E; cbn [collect_nat] in E.
  - unfold ret in E. injection E as <- <-. split; [exact W|]. split; [split; [constructor|reflexivity]|]. cbn [total fold_right]. lia.
  - apply bind_ok in E. destruct E as (x & b1 & E1 & E). apply bind_ok in E. destruct E as (r & b2 & E2 & E). unfold ret in E. injection E as <- <-.
    destruct (H i b x b1 W E1) as (W1 & Px & G1). destruct (IH _ b1 r b2 W1 E2) as (W2 & (F & L) & G2). split; [exact W2|]. split; [split; [constructor; assumption|cbn; congruence]|].
    unfold total in *. cbn [fold_right]. lia.
Qed.
Lemma total_const {A} k (l : list A) : total (fun _ => k) l = k * len l.
Proof. unfold len, total. induction l as [|x l IH]; [cbn; lia|]. change (fold_right (fun _ n => k + n) 0 (x :: l)) with (k + fold_right (fun _ n => k + n) 0 l). rewrite IH. cbn [length]. lia. Qed.
Lemma total_plus {A} (f g : A -> Z) (l : list A) : total (fun x => f x + g x) l = total f l + total g l.
Proof. unfold total. induction l as [|x l IH]; [reflexivity|]. cbn [fold_right] in *. lia. Qed.
Lemma total_le {A} (f g : A -> Z) (l : list A) : (forall x, f x <= g x) -> total f l <= total g l.
Proof. intros H. unfold total. induction l as [|x l IH]; [cbn; lia|]. cbn [fold_right] in *. specialize (H x). lia. Qed.
Lemma total_app {A} (f : A -> Z) (l r : list A) : total f (l ++ r) = total f l + total f r.
Proof. unfold total. induction l as [|x l IH]; [reflexivity|]. rewrite <- app_comm_cons. cbn [fold_right]. lia. Qed.
Lemma vsize_total {A} (f : A -> Z) l : vsize f l = len l + total f l.
Proof. unfold vsize. rewrite (total_plus (fun _ => 1) f), total_const. lia. Qed.
Lemma len_nonneg {A} (l : list A) : 0 <= len l. Proof. unfold len. lia. Qed.

(** * Reading *)
Lemma grows_bits n : grows (fun a => 0 <= a /\ 0 < n) (fun _ => 2) (ReadBits n).
Proof.
  intros b a b' W E. destruct (Z.ltb_spec 0 n) as [Hn|Hn].
  - rewrite (ReadBits_spec n b W Hn) in E. destruct (_ && _) eqn:C; [|discriminate E]. injection E as <- <-. split; [|split].
    + apply wf_adv; [exact W|]. lia.
    + split; [apply bval_range|exact Hn].
    + rewrite pos_adv. lia.
  - exfalso. unfold ReadBits, PeekBits, PeekBits_w, bind in E. replace (0 <? n) with false in E by lia. discriminate E.
Qed.
Lemma grows_bits64 n : grows (fun a => 0 <= a /\ 0 < n) (fun _ => 2) (ReadBits64 n).
Proof.
  intros b a b' W E. destruct (Z.ltb_spec 0 n) as [Hn|Hn].
  - rewrite (ReadBits64_spec n b W Hn) in E. destruct (_ && _) eqn:C; [|discriminate E]. injection E as <- <-. split; [|split].
    + apply wf_adv; [exact W|]. lia.
    + split; [apply bval_range|exact Hn].
    + rewrite pos_adv. lia.
  - exfalso. unfold ReadBits64, PeekBits64, PeekBits_w, bind in E. replace (0 <? n) with false in E by lia. discriminate E.
Qed.
Lemma grows_ue : grows (fun a => 0 <= a) (fun _ => 2) ReadExponentialGolomb.
Proof.
  intros b a b' W E. pose proof (wp_ue b W) as H. rewrite E in H. destruct H as (bs & S & Ha & ->). split; [apply (steps_wf _ _ _ W S)|].
  unfold ue_ok in Ha. split; [lia|]. destruct S as [_ ->]. rewrite pos_adv, length_enc_ue. lia.
Qed.
Lemma grows_se : grows (fun _ => True) (fun _ => 2) ReadSignedExponentialGolomb.
Proof.
  unfold ReadSignedExponentialGolomb. eapply grows_bind; [apply grows_ue|]. intros u Hu. cbv beta.
  apply grows_if; intros _; [apply grows_ret; [exact I|lia]|]. eapply grows_bind; [apply grows_local, local_chk|]. intros s _. apply grows_ret; [exact I|lia].
Qed.
Lemma grows_true {A} (P : A -> Prop) (g : A -> Z) m : grows P g m -> grows (fun _ => True) g m.
Proof. intros G. eapply grows_mono; [exact G|]. intros a Pa. split; [exact I|lia]. Qed.
Lemma grows_zero {A} (P : A -> Prop) (g : A -> Z) m : (forall a, P a -> 0 <= g a) -> grows P g m -> grows P (fun _ => 0) m.
Proof. intros H G. eapply grows_mono; [exact G|]. intros a Pa. split; [exact Pa|auto]. Qed.

(** Tactics: [gfield] proves [grows ?P ?g m] for the reads of one field; [grun] runs a parser. *)
Create HintDb grows_db.
Ltac gfield :=
  cbv beta;
  lazymatch goal with
  | |- grows _ _ (ReadBits _) => apply grows_bits
  | |- grows _ _ (ReadBits64 _) => apply grows_bits64
  | |- grows _ _ ReadUInt8 => apply grows_bits
  | |- grows _ _ ReadExponentialGolomb => apply grows_ue
  | |- grows _ _ ReadSignedExponentialGolomb => apply grows_se
  | |- grows _ _ (collect _ _) => eapply grows_collect; intro; gfield
  | |- grows _ _ (some _) => eapply grows_some; gfield
  | |- grows _ _ (@when Z _ _ _) => first [ apply (grows_when (fun a => 0 <= a) (fun _ => 0)); [intros _; gzero | lia | lia] | apply grows_local; lfield ]
  | |- grows _ _ (@when _ _ _ _) => eapply (grows_when (fun _ => True)); [intros _; eapply grows_true; gfield | exact I | gdef ]
  | |- grows _ _ _ => first [ solve [eauto with grows_db] | apply grows_local; lfield ]
  end
with gzero := eapply grows_mono; [gfield | cbv beta; intros; split; lia]
with gdef := cbv beta; unfold total, osize, len; cbn [fold_right fst snd length]; lia.
Ltac gstep := eapply grows_bind; [gfield | let a := fresh "r" in let H := fresh "P" in intros a H; cbv beta in H].
Ltac gend := apply grows_ret; [try exact I | cbv beta; rewrite ?total_const in *; unfold len, osize in *].
Ltac grun := cbv zeta; repeat lazymatch goal with |- grows _ _ (bind _ _) => gstep end; try (apply grows_ret; [try exact I | cbv beta]).

Lemma grows_ue_max k : grows (fun a => 0 <= a <= k) (fun _ => 2) (ReadUeMax k).
Proof.
  unfold ReadUeMax. gstep. unfold guard. destruct (r <=? k) eqn:Q; intros b a b' W E; [|discriminate E]. cbn in E. injection E as <- <-. split; [exact W|]. split; lia.
Qed.
Lemma grows_bits_max n k : grows (fun a => 0 <= a <= k) (fun _ => 2) (ReadBitsMax n k).
Proof.
  unfold ReadBitsMax. gstep. unfold guard. destruct (r <=? k) eqn:Q; intros b a b' W E; [|discriminate E]. cbn in E. injection E as <- <-. split; [exact W|]. split; lia.
Qed.
#[global] Hint Resolve grows_ue_max grows_bits_max : grows_db.
Lemma grows_profile_info : grows (fun _ => True) (fun p => 1 + profile_info_size p) ParseProfileInfo.
Proof. unfold ParseProfileInfo. grun. unfold profile_info_size. cbn [profile_compatibility_flag]. rewrite total_const. pose proof (len_nonneg r2). lia. Qed.
#[global] Hint Resolve grows_profile_info : grows_db.
Lemma grows_sub_layer_flags : grows (fun _ => True) (fun _ => 4) read_sub_layer_flags.
Proof. unfold read_sub_layer_flags. grun. lia. Qed.
Lemma grows_sub_layer fl i : grows (fun _ => True) (fun x => osize profile_info_size (fst x)) (read_sub_layer fl i).
Proof. unfold read_sub_layer. grun. cbn [fst]. destruct r0; unfold osize; lia. Qed.
#[global] Hint Resolve grows_sub_layer_flags grows_sub_layer : grows_db.
Lemma osize_zero {A} (o : option A) : osize (fun _ => 0) o = 0.
Proof. destruct o; reflexivity. Qed.
Lemma osize_succ {A} (f : A -> Z) o : osize f o <= osize (fun x => 1 + f x) o.
Proof. destruct o; cbn; lia. Qed.
Lemma grows_ptl present n : grows (fun _ => True) ptl_size (ParseProfileTierLevel present n).
Proof.
  unfold ParseProfileTierLevel. grun. unfold ptl_size. cbn [ptl_general ptl_sub_layer_flags ptl_reserved_zero_2bits ptl_sub_layers]. rewrite vsize_total, !total_const.
  pose proof (osize_succ profile_info_size r). pose proof (len_nonneg r1). pose proof (len_nonneg r2). destruct P1 as [_ L1], P3 as [_ L3]. assert (len r1 = len r3) by (unfold len; lia). lia.
Qed.
Lemma grows_cpb sp : grows (fun _ => True) (fun _ => 2) (read_cpb_entry sp).
Proof. unfold read_cpb_entry. grun. lia. Qed.
#[global] Hint Resolve grows_ptl grows_cpb : grows_db.
Lemma grows_sub_layer_hrd n sp : grows (fun _ => True) len (ParseSubLayerHrdParameters n sp).
Proof. unfold ParseSubLayerHrdParameters. eapply grows_mono; [gfield|]. cbv beta. intros l _. rewrite total_const. pose proof (len_nonneg l). split; [exact I|lia]. Qed.
#[global] Hint Resolve grows_sub_layer_hrd : grows_db.
Lemma grows_hrd_sub a b c : grows (fun _ => True) (fun x => 1 + hrd_sub_size x) (read_hrd_sub a b c).
Proof. unfold read_hrd_sub. grun. unfold hrd_sub_size. cbn [sub_layer_nal_hrd sub_layer_vcl_hrd]. lia. Qed.
#[global] Hint Resolve grows_hrd_sub : grows_db.
Lemma grows_hrd common n : grows (fun _ => True) hrd_size (ParseHrdParameters common n).
Proof. unfold ParseHrdParameters. grun. unfold hrd_size, vsize. cbn [hrd_sub_layers]. lia. Qed.
#[global] Hint Resolve grows_hrd : grows_db.
Lemma grows_vui n : grows (fun _ => True) vui_size (ParseVuiParameters n).
Proof. unfold ParseVuiParameters. grun. unfold vui_size. cbn [vui_hrd_parameters]. lia. Qed.
Lemma grows_ordering : grows (fun _ => True) (fun _ => 2) read_ordering_info.
Proof. unfold read_ordering_info. grun. lia. Qed.
Lemma grows_vps_hrd n i : grows (fun _ => True) (fun e => 1 + hrd_size (vps_hrd_parameters e)) (read_vps_hrd n i).
Proof. unfold read_vps_hrd. grun. cbn [vps_hrd_parameters]. lia. Qed.
#[global] Hint Resolve grows_vui grows_ordering grows_vps_hrd : grows_db.
(** A non-empty vector of vectors: the inner vectors pay for the outer one. *)
Lemma grows_inner {A} (P : A -> Prop) n (body : Z -> M A) : 0 < n -> (forall i, grows P (fun _ => 2) (body i)) -> grows (fun _ => True) (fun l => 1 + len l) (collect n body).
Proof.
  intros Hn H. eapply grows_mono; [apply (grows_collect P _ n body H)|]. cbv beta. intros l [_ L]. split; [exact I|]. rewrite total_const. unfold len. lia.
Qed.
Lemma grows_vps : grows (fun _ => True) vps_size ParseVpsBody.
Proof.
  unfold ParseVpsBody. do 12 gstep. 
  eapply (grows_bind (fun _ => True) (total (fun l => 1 + len l))); [eapply grows_true, grows_collect; intros i; apply (grows_inner (fun _ => True)); [lia|intros j; eapply grows_mono; [gfield|cbv beta; lia]]|intros r11 _].
  grun. unfold vps_size, vsize. cbn [vps_profile_tier_level vps_ordering layer_id_included_flag vps_hrds]. rewrite total_const. pose proof (len_nonneg r8). lia.
Qed.
(** * SPS *)
Lemma grows_sps_scc cf l c : grows (fun _ => True) sps_scc_size (ParseSpsSccExtension cf l c).
Proof.
  unfold ParseSpsSccExtension. do 6 gstep.
  eapply (grows_bind (fun _ => True) (total (fun l => 1 + len l))); [apply (grows_when (fun _ => True)); [intros _; eapply grows_true, grows_collect; intros i; apply (grows_inner (fun _ => True)); [lia|intros j; eapply grows_mono; [gfield|cbv beta; lia]]|exact I|cbn; lia]|intros r5 _].
  grun. unfold sps_scc_size, vsize. cbn [sps_palette_predictor_initializers]. lia.
Qed.
Lemma grows_coefs start n : grows (fun _ => True) (fun x => len (snd x)) (read_coefs start n).
Proof.
  assert (H : forall k i st, grows (fun _ => True) (fun x => len (snd x) - len (snd st)) (for_nat k i coef_step st)).
  { induction k as [|k IH]; intros i st; cbn [for_nat]; [apply grows_ret; [exact I|lia]|].
    eapply (grows_bind (fun _ => True) (fun x => len (snd x) - len (snd st))); [|intros x _; eapply grows_mono; [apply IH|cbv beta; split; [exact I|lia]]].
    unfold coef_step. destruct st as [[next ds] cs]. grun. cbn [snd]. unfold len. cbn [length]. lia. }
  unfold read_coefs. eapply (grows_bind (fun _ => True) (fun x => len (snd x))).
  - intros b a b' W E. rewrite for_loop_nat in E. destruct (H (Z.to_nat n) 0 (start, [], []) b a b' W E) as (W' & _ & G). split; [exact W'|]. split; [exact I|]. cbn [snd] in G. unfold len in *. cbn [length] in G. lia.
  - intros st _. apply grows_ret; [exact I|]. cbn [snd]. unfold len. rewrite rev_length. lia.
Qed.
#[global] Hint Resolve grows_sps_scc grows_coefs : grows_db.
Lemma grows_scaling_list i : grows (fun _ => True) (fun s => 2 + len (sl_coefs s)) (read_scaling_list i).
Proof. unfold read_scaling_list. grun. cbn [sl_coefs]. lia. Qed.
#[global] Hint Resolve grows_scaling_list : grows_db.
Lemma grows_scaling_list_data : grows (fun _ => True) scaling_list_data_size ParseScalingListData.
Proof.
  unfold ParseScalingListData, scaling_list_data_size, vsize. eapply grows_true, grows_collect. intros i.
  eapply grows_mono; [gfield|]. cbv beta. intros l [_ L]. split; [exact I|]. change (fun s => 2 + len (sl_coefs s)) with (fun s => (fun _ => 2) s + (fun s => len (sl_coefs s)) s).
  change (fun s => 1 + len (sl_coefs s)) with (fun s => (fun _ => 1) s + (fun s => len (sl_coefs s)) s). rewrite !total_plus, !total_const. unfold len at 1 3. rewrite L. destruct (i =? 3); lia.
Qed.
#[global] Hint Resolve grows_scaling_list_data : grows_db.

(** Reference picture sets: every candidate of the derivation goes to at most one of the two lists. *)
Definition counts_ok (r : rps) : Prop := 0 <= num_negative_pics r /\ 0 <= num_positive_pics r.
Definition hits (sign delta : Z) (ref : list Z) (js : list Z) : Z :=
  total (fun j => match (if j <? 0 then None else nth_error ref (Z.to_nat j)) with Some x => if 0 <? sign * (x + delta) then 1 else 0 | None => 0 end) js.
Definition hit (sign d : Z) : Z := if 0 <? sign * d then 1 else 0.
Lemma total_rev {A} (f : A -> Z) l : total f (rev l) = total f l.
Proof. induction l as [|x l IH]; [reflexivity|]. cbn [rev]. rewrite total_app, IH. unfold total. cbn [fold_right]. lia. Qed.
Lemma hits_both delta ref js : hits (-1) delta ref js + hits 1 delta ref js <= len js.
Proof.
  unfold hits. rewrite <- total_plus. rewrite <- (Z.mul_1_l (len js)), <- total_const. apply total_le. intros j.
  destruct (if j <? 0 then None else nth_error ref (Z.to_nat j)); [|lia]. destruct (Z.ltb_spec 0 (-1 * (z + delta))), (Z.ltb_spec 0 (1 * (z + delta))); lia.
Qed.
Lemma push_len sign fl d fi out b out' b' : push_cand sign fl d fi out b = Ok out' b' -> len out' <= len out + hit sign d.
Proof.
  unfold push_cand, hit. destruct (0 <? sign * d); intros E; [|unfold ret in E; injection E as <- _; lia]. apply bind_ok in E. destruct E as (x & b1 & _ & E).
  destruct (nz (snd x)); [|unfold ret in E; injection E as <- _; lia]. apply bind_ok in E. destruct E as (u & b2 & _ & E). unfold ret in E. injection E as <- _.
  unfold len. rewrite app_length. cbn [length]. lia.
Qed.
Lemma chk_ok x b y b' : chk_i32 x b = Ok y b' -> y = x.
Proof. unfold chk_i32. destruct (in_i32 x); unfold ret, throw; congruence. Qed.
Lemma at_ok {A} (l : list A) i b x b' : at_ l i b = Ok x b' -> (if i <? 0 then None else nth_error l (Z.to_nat i)) = Some x.
Proof. unfold at_. destruct (if i <? 0 then None else nth_error l (Z.to_nat i)); unfold ret, throw; congruence. Qed.
Lemma cand_len sign fl delta ref base js : forall out b out' b', cand_loop sign fl delta ref base js out b = Ok out' b' -> len out' <= len out + hits sign delta ref js.
Proof.
  induction js as [|j js IH]; intros out b out' b' E; cbn [cand_loop] in E.
  - unfold ret in E. injection E as <- _. unfold hits, total. cbn. lia.
  - apply bind_ok in E. destruct E as (x & b1 & E1 & E). apply bind_ok in E. destruct E as (d & b2 & E2 & E). apply bind_ok in E. destruct E as (o & b3 & E3 & E).
    apply at_ok in E1. apply chk_ok in E2. apply push_len in E3. apply IH in E. unfold hits, total in *. cbn [fold_right]. rewrite E1. unfold hit in E3. subst d. lia.
Qed.
Lemma minus1s_len sign l : forall prev b r b', minus1s sign prev l b = Ok r b' -> len r = len l.
Proof.
  induction l as [|[d u] l IH]; intros prev b r b' E; cbn [minus1s] in E; [unfold ret in E; injection E as <- _; reflexivity|]. inv_ok E. unfold ret in E. injection E as <- _.
  apply IH in E3. unfold len in *. cbn [length]. lia.
Qed.
Lemma cum_bound sign l n : forall i d b r b', cum_poc sign l n i d b = Ok r b' -> (n = 0%nat \/ i + Z.of_nat n <= HEVC_MAX_REFS).
Proof.
  induction n as [|n IH]; intros i d b r b' E; [left; reflexivity|]. right. cbn [cum_poc] in E. apply bind_ok in E. destruct E as (u & b1 & G & E). inv_ok E.
  assert (i < HEVC_MAX_REFS) by (unfold guard in G; destruct (i <? HEVC_MAX_REFS) eqn:Q; [lia|discriminate G]).
  destruct (IH _ _ _ _ _ E3) as [->|]; lia.
Qed.
Lemma len_upto n : len (upto n) = Z.max 0 n.
Proof. unfold len, upto. rewrite map_length, seq_length. lia. Qed.
Lemma derive_len ref sign abs fl b d b' : counts_ok ref -> len fl = u32 (num_negative_pics ref + num_positive_pics ref) + 1 ->
  DeriveValues ref sign abs fl b = Ok d b' -> len (fst d) + len (snd d) <= len fl.
Proof.
  intros [C1 C2] L E. unfold DeriveValues in E. cbv zeta in E. inv_ok E. unfold ret in E. injection E as <- _. cbn [fst snd].
  apply cum_bound in E1, E2. unfold HEVC_MAX_REFS in *.
  apply cand_len in E3, E5, E7, E9. apply push_len in E4, E8. apply minus1s_len in E6, E10. rewrite L. unfold u32. rewrite Z.mod_small by lia.
  unfold hits in E3, E7. rewrite total_rev in E3, E7. fold (hits (-1) r r1 (upto (num_positive_pics ref))) in E3. fold (hits 1 r r0 (upto (num_negative_pics ref))) in E7.
  pose proof (hits_both r r1 (upto (num_positive_pics ref))). pose proof (hits_both r r0 (upto (num_negative_pics ref))). rewrite len_upto in *.
  change (len []) with 0 in *. assert (hit (-1) r + hit 1 r <= 1) by (unfold hit; destruct (Z.ltb_spec 0 (-1 * r)), (Z.ltb_spec 0 (1 * r)); lia). lia.
Qed.
Lemma grows_rps_flag : grows (fun _ => True) (fun _ => 2) read_rps_flag.
Proof. unfold read_rps_flag. eapply grows_bind; [gfield|]. intros a _. eapply grows_bind; [apply grows_local; lfield|]. intros u _. apply grows_ret; [exact I|lia]. Qed.
Lemma grows_rps_entry : grows (fun _ => True) (fun _ => 4) read_rps_entry.
Proof. unfold read_rps_entry. grun. lia. Qed.
#[global] Hint Resolve grows_rps_flag grows_rps_entry : grows_db.
Lemma grows_rps idx num sets m : Forall counts_ok sets -> grows counts_ok (fun r => 1 + rps_size r) (ParseStRefPicSet idx num sets m).
Proof.
  intros F. unfold ParseStRefPicSet. do 2 gstep. apply grows_if; intros _.
  - unfold read_rps_inter. cbv zeta. do 4 gstep. intros b x b' W E. apply bind_ok in E. destruct E as (ref & b1 & E1 & E). 
    pose proof (at_ok _ _ _ _ _ E1) as Ea.
    assert (C : counts_ok ref). { destruct (_ <? 0) in Ea; [discriminate Ea|]. apply nth_error_In in Ea. rewrite Forall_forall in F. apply F, Ea. }
    assert (b1 = b) as -> by (unfold at_ in E1; destruct (if _ <? 0 then None else nth_error _ _); [unfold ret in E1; congruence|discriminate E1]). clear E1 Ea.
    apply bind_ok in E. destruct E as (u & b1 & G & E). assert (b1 = b) as -> by (unfold guard in G; destruct (negb _); [unfold ret in G; congruence|discriminate G]). clear G.
    apply bind_ok in E. destruct E as (flags & b2 & E2 & E). apply bind_ok in E. destruct E as (d & b3 & E3 & E). unfold ret in E. injection E as <- <-.
    destruct (grows_collect _ _ _ _ (fun _ => grows_rps_flag) _ _ _ W E2) as (W2 & (_ & Lf) & G2). destruct (grows_local _ (local_derive ref _ _ flags) _ _ _ W2 E3) as (W3 & _ & G3).
    assert (len flags = u32 (num_negative_pics ref + num_positive_pics ref) + 1) as L by (unfold len, u32 in *; lia).
    pose proof (derive_len _ _ _ _ _ _ _ C L E3). split; [exact W3|]. split; [split; cbn [num_negative_pics num_positive_pics]; lia|].
    unfold rps_size. cbn [rps_flags rps_s0 rps_s1]. rewrite total_const in G2. lia.
  - unfold read_rps_explicit. cbv zeta. grun; [split; cbn [num_negative_pics num_positive_pics]; assumption|]. unfold rps_size. cbn [rps_flags rps_s0 rps_s1].
    rewrite !total_const. change (len []) with 0. pose proof (len_nonneg r5). pose proof (len_nonneg r6). lia.
Qed.
Lemma grows_rps_loop k num : forall sets, Forall counts_ok sets -> grows (Forall counts_ok) (fun l => vsize rps_size l - vsize rps_size sets) (rps_loop k num sets).
Proof.
  induction k as [|k IH]; intros sets F; cbn [rps_loop]; [apply grows_ret; [exact F|lia]|].
  eapply grows_bind; [apply grows_rps, F|]. intros s C. cbv beta. eapply grows_mono; [apply IH, Forall_app; split; [exact F|constructor; [exact C|constructor]]|].
  cbv beta. intros l Fl. split; [exact Fl|]. unfold vsize. rewrite total_app. change (total (fun x => 1 + rps_size x) [s]) with (1 + rps_size s + 0). lia.
Qed.
Lemma grows_rps_sets num : grows (Forall counts_ok) (vsize rps_size) (read_rps_sets num).
Proof. unfold read_rps_sets. eapply grows_mono; [apply grows_rps_loop; constructor|]. cbv beta. intros l F. split; [exact F|]. change (vsize rps_size []) with 0. lia. Qed.
Lemma grows_sps_ordering : grows (fun _ => True) (fun _ => 2) read_sps_ordering.
Proof. unfold read_sps_ordering. grun. lia. Qed.
Lemma grows_lt n : grows (fun _ => True) (fun _ => 2) (read_lt n).
Proof. unfold read_lt. grun. lia. Qed.
Lemma grows_pic_size k : grows (fun _ => True) (fun _ => 0) (read_pic_size k).
Proof. apply grows_local. unfold read_pic_size. cbv zeta. lfield. Qed.
#[global] Hint Resolve grows_pic_size grows_rps_sets grows_sps_ordering grows_lt : grows_db.
Lemma grows_sps : grows (fun s => Forall counts_ok (sps_st_ref_pic_set s)) sps_size ParseSpsBody.
Proof.
  unfold ParseSpsBody. grun; [cbn [sps_st_ref_pic_set]; assumption|]. unfold sps_size. cbn [sps_profile_tier_level sps_ordering sps_scaling_list_data sps_st_ref_pic_set sps_lt sps_vui_parameters sps_scc_extension].
  rewrite ?osize_zero, !total_const. repeat match goal with |- context[len ?l] => lazymatch goal with H : 0 <= len l |- _ => fail | _ => pose proof (len_nonneg l) end end. lia.
Qed.

(** * PPS *)
Lemma grows_ref_loc : grows (fun _ => True) (fun _ => 2) read_ref_loc.
Proof. unfold read_ref_loc, read_quad. eapply grows_bind; [gfield|]. intros a P. eapply grows_mono; [apply grows_local; lfield|]. cbv beta. intros x _. split; [exact I|lia]. Qed.
#[global] Hint Resolve grows_ref_loc : grows_db.
Lemma grows_pps_ml : grows (fun _ => True) pps_ml_size ParsePpsMultilayerExtension.
Proof. unfold ParsePpsMultilayerExtension. grun. unfold pps_ml_size. cbn [ref_locs]. rewrite total_const. pose proof (len_nonneg r3). lia. Qed.
Lemma grows_palette d : grows (fun _ => True) (fun _ => 2) (read_palette_entry d).
Proof. unfold read_palette_entry. gstep. eapply grows_mono; [gfield|]. cbv beta. intros a Pa. split; [exact I|lia]. Qed.
Lemma grows_pps_scc : grows (fun _ => True) pps_scc_size ParsePpsSccExtension.
Proof.
  unfold ParsePpsSccExtension. do 11 gstep.
  eapply (grows_bind (fun _ => True) (total (fun l => 1 + len l))); [apply (grows_when (fun _ => True)); [intros C; eapply grows_true, grows_collect; intros i; apply (grows_inner (fun _ => True)); [lia|intros j; apply grows_palette]|exact I|cbn; lia]|intros r10 _].
  grun. unfold pps_scc_size, vsize. cbn [pps_palette_predictor_initializers]. lia.
Qed.
#[global] Hint Resolve grows_pps_ml grows_pps_scc : grows_db.
Lemma grows_attempt {A} (E : errs) Q P (g : A -> Z) (m : M A) : wp E m Q -> grows P g m -> grows (fun o => forall a, o = Some a -> P a) (osize g) (attempt m).
Proof.
  intros H G b o b' W R. unfold attempt in R. specialize (H b W). destruct (m b) as [a b1|b1|e] eqn:Em; [| |discriminate R]; injection R as <- <-.
  - destruct (G b a b1 W Em) as (W1 & Pa & Ga). split; [exact W1|]. split; [intros a' [= <-]; exact Pa|exact Ga].
  - destruct H as [bs S]. split; [apply (steps_wf _ _ _ W S)|]. split; [intros a' [=]|]. destruct S as [_ ->]. rewrite pos_adv. cbn. lia.
Qed.
Lemma grows_pps : grows (fun _ => True) pps_size ParsePpsBody.
Proof.
  unfold ParsePpsBody. do 46 gstep.
  eapply grows_bind; [apply grows_when; [intros _; apply (grows_attempt _ _ _ _ _ wpa_pps_ml_ext grows_pps_ml)|discriminate|cbn; lia]|]. intros em _. cbv beta. grun.
  unfold pps_size. cbn [column_width_minus1 row_height_minus1 pps_scaling_list_data pps_multilayer_extension pps_scc_extension].
  rewrite ?osize_zero, !total_const. repeat match goal with |- context[len ?l] => lazymatch goal with H : 0 <= len l |- _ => fail | _ => pose proof (len_nonneg l) end end. lia.
Qed.
(** * Slice headers *)
Lemma grows_luma_weight : grows (fun _ => True) (fun _ => 4) read_luma_weight.
Proof. unfold read_luma_weight. grun. lia. Qed.
Lemma grows_quad : grows (fun _ => True) (fun _ => 8) read_quad.
Proof. unfold read_quad. grun. lia. Qed.
#[global] Hint Resolve grows_luma_weight grows_quad : grows_db.
Lemma grows_pwt_entry c lf cf i : grows (fun _ => True) (fun x => osize (fun _ => 1) (fst x) + osize (fun _ => 1) (snd x)) (read_pwt_entry c lf cf i).
Proof. unfold read_pwt_entry. grun. cbn [fst snd]. destruct r0, r2; unfold osize; lia. Qed.
#[global] Hint Resolve grows_pwt_entry : grows_db.
Lemma total_options {A B} (f : A -> option B) (l : list A) : len (flat_map (fun e => match f e with Some p => [p] | None => [] end) l) = total (fun e => osize (fun _ => 1) (f e)) l.
Proof.
  unfold total, len. induction l as [|x l IH]; [reflexivity|].
  change (flat_map (fun e => match f e with Some p => [p] | None => [] end) (x :: l)) with ((match f x with Some p => [p] | None => [] end) ++ flat_map (fun e => match f e with Some p => [p] | None => [] end) l).
  rewrite app_length. cbn [fold_right]. destruct (f x); cbn [length osize]; lia.
Qed.
Lemma grows_pwt cat n : grows (fun _ => True) pwt_size (ParsePredWeightTable cat n).
Proof.
  unfold ParsePredWeightTable. grun. unfold pwt_size, pwt_luma, pwt_chroma. cbn [luma_weight_l0_flag chroma_weight_l0_flag pwt_entries].
  rewrite (total_options fst), (total_options snd), total_plus, !total_const. pose proof (len_nonneg r1). pose proof (len_nonneg r2). lia.
Qed.
Lemma grows_lt_entry a b c i : grows (fun _ => True) (fun _ => 2) (read_lt_entry a b c i).
Proof. unfold read_lt_entry. grun. lia. Qed.
#[global] Hint Resolve grows_pwt grows_lt_entry : grows_db.
Lemma grows_slice_rest nut s p a b c : Forall counts_ok (sps_st_ref_pic_set s) -> grows (fun _ => True) slice_size (slice_rest nut s p a b c).
Proof.
  intros F. unfold slice_rest. cbv zeta. do 10 gstep.
  eapply (grows_bind (fun _ => True) (osize (fun r => 1 + rps_size r))); [apply (grows_when (fun _ => True)); [intros _; eapply grows_some, grows_rps, F|exact I|cbn; lia]|]. intros st _. cbv beta. grun.
  unfold slice_size. cbn [slice_reserved_flag sh_st_ref_pic_set sh_lt sh_pred_weight_table entry_point_offset_minus1 slice_segment_header_extension_data_byte].
  rewrite !total_const. pose proof (osize_succ rps_size st). repeat match goal with |- context[len ?l] => lazymatch goal with H : 0 <= len l |- _ => fail | _ => pose proof (len_nonneg l) end end.
  lia.
Qed.
Definition store_counts (st : state) : Prop := forall k s x, st_sps st k = Some (s, x) -> Forall counts_ok (sps_st_ref_pic_set s).
Lemma grows_slice nut st : store_counts st -> grows (fun _ => True) slice_size (ParseSliceSegmentHeader nut st).
Proof.
  intros H. unfold ParseSliceSegmentHeader. do 3 gstep. destruct (st_pps st r1) as [[p x]|]; [|intros b a b' W E; discriminate E].
  destruct (st_sps st _) as [[s y]|] eqn:Es; [|intros b a b' W E; discriminate E]. eapply grows_mono; [apply grows_slice_rest, (H _ _ _ Es)|]. cbv beta. intros. split; [exact I|lia].
Qed.
(** * SEI *)
Lemma grows_ff : grows (fun a => 0 <= a) (fun _ => 0) read_ff.
Proof.
  intros b a b' W E. pose proof (wp_ff b W) as H. rewrite E in H. destruct H as (bs & S & Ha & _). split; [apply (steps_wf _ _ _ W S)|]. unfold ff_ok in Ha. split; [lia|].
  destruct S as [_ ->]. rewrite pos_adv. lia.
Qed.
Lemma grows_pair n : grows (fun _ => True) (fun _ => 2) (read_pair n).
Proof. unfold read_pair. grun. lia. Qed.
Lemma grows_i32_pair : grows (fun _ => True) (fun _ => 2) read_i32_pair.
Proof.
  assert (H : grows (fun _ => True) (fun _ => 2) ReadI32) by (unfold ReadI32; grun; lia).
  unfold read_i32_pair. eapply grows_bind; [exact H|]. intros a _. eapply grows_bind; [exact H|]. intros c _. apply grows_ret; [exact I|lia].
Qed.
#[global] Hint Resolve grows_pair grows_i32_pair grows_ff : grows_db.
Lemma grows_lut d : grows (fun _ => True) (fun x => 1 + len (snd x)) (read_lut d).
Proof. unfold read_lut. grun. cbn [snd]. rewrite total_const. pose proof (len_nonneg r0). lia. Qed.
Lemma grows_coeff_row : grows (fun _ => True) (fun l => 1 + len l) (collect 3 (fun _ => ReadSignedExponentialGolomb)).
Proof. apply (grows_inner (fun _ => True)); [lia|]. intros _. apply grows_se. Qed.
#[global] Hint Resolve grows_lut : grows_db.
Lemma grows_fmap {A B} (f : A -> B) P (g : A -> Z) (h : B -> Z) m : grows P g m -> (forall a, h (f a) <= g a) -> grows (fun _ => True) h (fmap f m).
Proof. intros H Q. unfold fmap. eapply grows_bind; [exact H|]. intros a _. apply grows_ret; [exact I|]. specialize (Q a). lia. Qed.
Ltac glens := rewrite ?osize_zero, ?total_const; repeat match goal with |- context[len ?l] => lazymatch goal with H : 0 <= len l |- _ => fail | _ => pose proof (len_nonneg l) end end.
Lemma grows_payload ty size : grows (fun _ => True) sei_payload_size (parse_payload ty size).
Proof.
  unfold parse_payload. repeat (apply grows_if; intros _).
  - apply (grows_fmap _ (fun _ => True) (fun s => len (t35_payload s))); [|intros; cbn [sei_payload_size]; lia]. unfold parse_t35. grun. cbn [t35_payload]. glens. lia.
  - apply (grows_fmap _ (fun _ => True) (fun s => len (ur_payload s))); [|intros; cbn [sei_payload_size]; lia]. unfold parse_unregistered. grun. cbn [ur_payload]. glens. lia.
  - apply (grows_fmap _ (fun _ => True) (fun s => len (display_primaries s))); [|intros; cbn [sei_payload_size]; lia]. unfold parse_mastering. grun. cbn [display_primaries]. glens. lia.
  - apply (grows_fmap _ (fun _ => True) (fun _ => 0)); [|intros; cbn [sei_payload_size]; lia]. unfold parse_light. grun. lia.
  - apply (grows_fmap _ (fun _ => True) (fun s => len (knee_points s))); [|intros; cbn [sei_payload_size]; lia]. unfold parse_knee. grun. cbn [knee_points]. glens. lia.
  - apply (grows_fmap _ (fun _ => True) (fun s => sei_payload_size (P_remap s))); [|intros; lia]. unfold parse_remap. cbn [sei_payload_size]. do 14 gstep.
    eapply (grows_bind (fun _ => True) (total (fun l => 1 + len l))); [apply (grows_when (fun _ => True)); [intros _; eapply grows_true, grows_collect; intros; apply grows_coeff_row|exact I|cbn; lia]|].
    intros co _. cbv beta. grun. cbn [pre_lut colour_remap_coeffs post_lut]. unfold vsize. lia.
  - apply (grows_fmap _ (fun _ => True) (fun s => len (ccv_primaries s))); [|intros; cbn [sei_payload_size]; lia]. unfold parse_ccv. grun. cbn [ccv_primaries]. glens. lia.
  - apply (grows_fmap _ (fun a => 0 <= a /\ 0 < 8) (fun _ => 2)); [apply grows_bits|intros; cbn [sei_payload_size]; lia].
  - apply (grows_fmap _ (fun _ => True) (fun _ => 0)); [|intros; cbn [sei_payload_size]; lia]. unfold parse_ambient. grun. lia.
  - apply (grows_fmap _ (fun _ => True) (fun _ => 0)); [|intros; cbn [sei_payload_size]; lia]. unfold parse_alpha. grun. lia.
  - apply (grows_fmap _ (fun _ => True) len); [|intros; cbn [sei_payload_size]; lia]. unfold parse_unknown. gstep. eapply grows_mono; [gfield|]. cbv beta. intros l _. split; [exact I|]. glens. lia.
Qed.
Lemma grows_sei : grows (fun _ => True) sei_size ParseSei.
Proof.
  unfold ParseSei. do 2 gstep. eapply grows_bind; [apply (grows_attempt _ _ _ _ _ (wpa_payload r r0 ltac:(assumption)) (grows_payload r r0))|]. intros p _. cbv beta.
  apply grows_ret; [exact I|]. unfold sei_size. cbn [sei_payload_state]. lia.
Qed.
Lemma grows_finish {A} P (g : A -> Z) has body : grows P g body -> grows (fun x => P (fst x)) (fun x => g (fst x)) (finish has body).
Proof.
  intros H b [s x] b' W E. unfold finish in E. apply bind_ok in E. destruct E as (s0 & b1 & E1 & E). destruct (H b s0 b1 W E1) as (W1 & Ps & G).
  destruct (finish_tail has s0 b1 W1) as (x2 & b2 & bs2 & E2 & S2 & _). rewrite E2 in E. injection E as <- <- <-. cbn [fst]. split; [apply (steps_wf _ _ _ W1 S2)|]. split; [exact Ps|].
  destruct S2 as [_ ->]. rewrite pos_adv. lia.
Qed.
