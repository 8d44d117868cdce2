(** The parsers of MSyntaxB.v read the layouts of SpecB.v. *)
From Coq Require Import ZArith List Bool Lia ZifyBool ZifyNat.
From Verif Require Import MBase MBitBuffer Spec BitsFacts Reader ReaderFacts Rules Syntax SyntaxSe MCommon CommonFacts PropsCommon
  MSyntaxA SpecA FactsA Api PropsA MSyntaxB SpecB.
Import ListNotations.
Open Scope Z_scope.

Global Arguments enc_nal_header : simpl never.
Global Arguments nal_header_ok : simpl never.
Global Arguments enc_profile_info : simpl never.
Global Arguments profile_info_ok : simpl never.
Global Arguments enc_sub_layer_flags : simpl never.
Global Arguments sub_layer_flags_ok : simpl never.
Global Arguments enc_sub_layer : simpl never.
Global Arguments sub_layer_ok : simpl never.
Global Arguments enc_ptl : simpl never.
Global Arguments ptl_ok : simpl never.
Global Arguments enc_cpb_entry : simpl never.
Global Arguments cpb_entry_ok : simpl never.
Global Arguments enc_sub_layer_hrd : simpl never.
Global Arguments sub_layer_hrd_ok : simpl never.
Global Arguments enc_hrd_sub : simpl never.
Global Arguments hrd_sub_ok : simpl never.
Global Arguments enc_hrd : simpl never.
Global Arguments hrd_ok : simpl never.
Global Arguments enc_vui : simpl never.
Global Arguments vui_ok : simpl never.

Global Arguments enc_ordering : simpl never.
Global Arguments ordering_ok : simpl never.
Global Arguments enc_vps_hrd : simpl never.
Global Arguments vps_hrd_ok : simpl never.
Global Arguments enc_vps : simpl never.
Global Arguments vps_ok : simpl never.
Global Arguments enc_sps_range_ext : simpl never.
Global Arguments sps_range_ext_ok : simpl never.
Global Arguments enc_sps_3d_ext : simpl never.
Global Arguments sps_3d_ext_ok : simpl never.
Global Arguments enc_sps_scc_ext : simpl never.
Global Arguments sps_scc_ext_ok : simpl never.
Global Arguments enc_scaling_list : simpl never.
Global Arguments scaling_list_ok : simpl never.
Global Arguments enc_scaling_list_data : simpl never.
Global Arguments scaling_list_data_ok : simpl never.
Global Arguments enc_rps_flag : simpl never.
Global Arguments rps_flag_ok : simpl never.
Global Arguments enc_rps_entry : simpl never.
Global Arguments rps_entry_ok : simpl never.
Global Arguments enc_rps : simpl never.
Global Arguments rps_ok : simpl never.

(** * Extension data *)
(** Value of the last bit of [d], 0 if there is none. *)
Definition last_bit (d : list bool) : Z := Z.b2z (last d false).

Lemma ReadBit1 b x r : wf b -> rem b = x :: r -> ReadBits 1 b = Ok (Z.b2z x) (adv b 1).
Proof. intros W E. apply (parses_u 1 (Z.b2z x) ltac:(lia) ltac:(destruct x; cbn; lia) b r W). destruct x; exact E. Qed.

Lemma more_true_nonempty b b' : wf b -> more_rbsp_data b = Ok true b' -> rem b <> [].
Proof. intros W H E. rewrite (C11_end_of_buffer b W E) in H. discriminate H. Qed.

Lemma ext_loop_safe fuel : forall b x, wf b -> (length (rem b) <= fuel)%nat -> u_ok 1 x ->
  exists y b' bs, ext_loop fuel x b = Ok y b' /\ steps b b' bs /\ u_ok 1 y.
Proof.
  induction fuel as [|f IH]; intros b x W L Hx; cbn [ext_loop]; destruct (C11_never_moves b W) as (v & E); rewrite E.
  - destruct v.
    + apply more_true_nonempty in E; [|assumption]. destruct (rem b); [congruence|cbn in L; lia].
    + exists x, b, []. split; [reflexivity|]. split; [apply steps_refl, W|exact Hx].
  - destruct v.
    + apply more_true_nonempty in E; [|assumption]. destruct (rem b) as [|y r] eqn:R; [congruence|].
      unfold bind. rewrite (ReadBit1 b y r W R).
      assert (St : steps b (adv b 1) [y]) by (apply (steps_app b [y] r W); exact R).
      destruct (IH (adv b 1) (Z.b2z y)) as (z & b' & bs & E1 & S1 & H1).
      * eapply steps_wf; eassumption.
      * destruct St as [St _]. rewrite R in St. injection St as St. rewrite <- St. cbn in L. lia.
      * unfold u_ok. destruct y; cbn; lia.
      * exists z, b', ([y] ++ bs). split; [exact E1|]. split; [eapply steps_trans; eassumption|exact H1].
    + exists x, b, []. split; [reflexivity|]. split; [apply steps_refl, W|exact Hx].
Qed.

Lemma last_bit_cons x y d : last_bit (x :: y :: d) = last_bit (y :: d).
Proof. reflexivity. Qed.

Lemma ext_loop_spec d : forall fuel b x k, wf b -> (length d <= fuel)%nat -> (k < 8)%nat -> rem b = d ++ true :: repeat false k ->
  ext_loop fuel x b = Ok (match d with [] => x | _ => last_bit d end) (adv b (length d)).
Proof.
  induction d as [|y d IH]; intros fuel b x k W L Hk R.
  - destruct fuel; cbn [ext_loop]; rewrite (C11_more_rbsp_data b [] k W Hk R); cbn [length]; rewrite adv_0 by assumption; reflexivity.
  - destruct fuel as [|f]; [cbn in L; lia|]. cbn [ext_loop]. rewrite (C11_more_rbsp_data b (y :: d) k W Hk R).
    unfold bind. rewrite (ReadBit1 b y (d ++ true :: repeat false k) W R).
    rewrite (IH f (adv b 1) (Z.b2z y) k).
    + rewrite adv_adv. cbn [length Nat.add]. destruct d; reflexivity.
    + apply (wf_adv_app b [y] (d ++ true :: repeat false k) W R).
    + cbn in L. lia.
    + exact Hk.
    + apply (rem_adv_app b [y] _ W R).
Qed.

Lemma wp_ext_data : wp no_err ext_data (fun x bs => u_ok 1 x).
Proof.
  intros b W. unfold ext_data. rewrite remaining_spec by assumption.
  destruct (ext_loop_safe (Z.to_nat (Z.of_nat (length (rem b)))) b 0 W ltac:(lia) ltac:(unfold u_ok; lia)) as (y & b' & bs & E & S & H).
  rewrite E. exists bs. auto.
Qed.
Lemma ext_data_total b : wf b -> exists y b' bs, ext_data b = Ok y b' /\ steps b b' bs /\ u_ok 1 y.
Proof.
  intros W. unfold ext_data. rewrite remaining_spec by assumption. apply ext_loop_safe; [assumption|lia|unfold u_ok; lia].
Qed.
Lemma ext_data_spec b d k : wf b -> (k < 8)%nat -> rem b = d ++ true :: repeat false k -> ext_data b = Ok (last_bit d) (adv b (length d)).
Proof.
  intros W Hk R. unfold ext_data. rewrite remaining_spec by assumption. rewrite (ext_loop_spec d _ b 0 k); auto.
  - destruct d; reflexivity.
  - rewrite R, app_length. lia.
Qed.

(** * [finish] *)
(** [m] is a parameter set parser returning (structure, extension data flag).  Only the structure is determined by a layout; whatever
    follows it is accepted.  [has]: extension data are announced. *)
Definition reads_prefix (E : errs) {A} (m : M (A * Z)) (has : A -> bool) (ok_in ok_out : A -> Prop) (enc : A -> list bool) : Prop :=
  forall b, wf b ->
    match m b with
    | Ok (s, x) b' => ok_out s /\ u_ok 1 x /\ wf b' /\ bb_bytes b' = bb_bytes b /\
        exists bs tail, rem b = bs ++ tail ++ rem b' /\ b' = adv b (length bs + length tail) /\ agree bs (enc s)
    | Fail b' => wf b' /\ bb_bytes b' = bb_bytes b /\ pos b <= pos b'
    | Err e => E e (rem b)
    end /\
    forall s rest, ok_in s -> rem b = enc s ++ rest ->
      exists x b', m b = Ok (s, x) b' /\
        (has s = false -> x = 0) /\
        (* well-formed extension data followed by trailing bits *)
        forall d k, has s = true -> (k < 8)%nat -> rest = d ++ true :: repeat false k -> x = last_bit d.

Lemma attempt_trailing_total b : wf b -> exists o b' bs, attempt rbsp_trailing_bits b = Ok o b' /\ steps b b' bs.
Proof.
  intros W. unfold attempt. pose proof (wp_trailing b W) as T. destruct (rbsp_trailing_bits b) as [u b'|b'|e]; [| |contradiction].
  - destruct T as (bs & S & _). eauto 6.
  - destruct T as (bs & S). eauto 6.
Qed.

Lemma finish_tail {A} (has : A -> bool) (s : A) b : wf b ->
  exists x b' bs, (bind (when (has s) ext_data 0) (fun flag => bind (attempt rbsp_trailing_bits) (fun _ => ret (s, flag)))) b = Ok (s, x) b' /\
    steps b b' bs /\ u_ok 1 x /\ (has s = false -> x = 0) /\
    forall d k, has s = true -> (k < 8)%nat -> rem b = d ++ true :: repeat false k -> x = last_bit d.
Proof.
  intros W. unfold when. destruct (has s).
  - destruct (ext_data_total b W) as (x & b1 & bs1 & E1 & S1 & H1).
    destruct (attempt_trailing_total b1 (steps_wf _ _ _ W S1)) as (o & b2 & bs2 & E2 & S2).
    exists x, b2, (bs1 ++ bs2). unfold bind. rewrite E1, E2. split; [reflexivity|].
    split; [eapply steps_trans; eassumption|]. split; [exact H1|]. split; [discriminate|].
    intros d k _ Hk R. rewrite (ext_data_spec b d k W Hk R) in E1. congruence.
  - destruct (attempt_trailing_total b W) as (o & b2 & bs2 & E2 & S2).
    exists 0, b2, bs2. unfold bind, ret at 1. rewrite E2. split; [reflexivity|]. split; [exact S2|]. split; [unfold u_ok; lia|].
    split; [reflexivity|discriminate].
Qed.

Lemma wpa_finish E {A} (has : A -> bool) (body : M A) P enc : wpa E body P enc ->
  wp E (finish has body) (fun r bs => P (fst r) /\ u_ok 1 (snd r) /\ exists bs1 bs2, bs = bs1 ++ bs2 /\ agree bs1 (enc (fst r))).
Proof.
  intros H. unfold finish. eapply wp_bind; [exact H|]. cbv beta. intros s bs [Hs Hb] b W.
  destruct (finish_tail has s b W) as (x & b' & bs2 & E1 & S & Hx & _). rewrite E1.
  exists bs2. split; [exact S|]. cbn [fst snd]. eauto 8.
Qed.

Lemma reads_prefix_intro E {A} (has : A -> bool) (body : M A) (ok_in ok_out : A -> Prop) enc :
  (forall s, ok_in s -> parses body (enc s) s) -> wpa E body ok_out enc -> reads_prefix E (finish has body) has ok_in ok_out enc.
Proof.
  intros C S b W. split.
  - pose proof (wpa_finish E has body ok_out enc S b W) as H. destruct (finish has body b) as [[s x] b'|b'|e].
    + destruct H as (bs & Sb & Hs & Hx & bs1 & bs2 & -> & Ha). destruct (steps_facts _ _ _ W Sb) as (W' & B' & _).
      destruct Sb as [S1 S2]. cbn [fst snd] in *. repeat (split; [assumption|]).
      exists bs1, bs2. rewrite <- app_assoc in S1. rewrite app_length in S2. auto.
    + destruct H as (bs & Sb). eapply steps_facts; eassumption.
    + exact H.
  - intros s rest Hs R. unfold finish. unfold bind at 1. rewrite (C s Hs b rest W R).
    destruct (finish_tail has s (adv b (length (enc s))) (wf_adv_app _ _ _ W R)) as (x & b' & bs & E1 & _ & _ & H1 & H2).
    exists x, b'. split; [exact E1|]. split; [exact H1|]. intros d k Hh Hk Er. apply (H2 d k Hh Hk).
    rewrite (rem_adv_app _ _ _ W R). exact Er.
Qed.

(** * VPS *)
Lemma parses_ordering s : ordering_ok s -> parses read_ordering_info (enc_ordering s) s.
Proof. destruct s. unfold ordering_ok, enc_ordering. cbn. intros H. split_hyps. unfold read_ordering_info. prun. Qed.
Lemma wp_ordering : wp no_err read_ordering_info (fun s bs => ordering_ok s /\ bs = enc_ordering s).
Proof. unfold read_ordering_info. wrun. unfold ordering_ok, enc_ordering. cbn. split; [conjs|reflexivity]. Qed.
#[export] Hint Resolve parses_ordering : parses_db.
#[export] Hint Resolve wp_ordering : wp_db.

Lemma parses_vps_hrd max_sub i s : vps_hrd_ok false max_sub i s -> parses (read_vps_hrd max_sub i) (enc_vps_hrd false i s) s.
Proof. destruct s. unfold vps_hrd_ok, enc_vps_hrd. cbn. intros H. split_hyps. unfold read_vps_hrd. prun.
Qed.
Lemma wp_vps_hrd max_sub i : wp no_err (read_vps_hrd max_sub i) (fun s bs => vps_hrd_ok false max_sub i s /\ bs = enc_vps_hrd false i s).
Proof. unfold read_vps_hrd. wrun. unfold vps_hrd_ok, enc_vps_hrd. cbn. split; [conjs|reflexivity]. Qed.

Lemma parses_bits_max n k v : 0 < n <= 32 -> k < 2 ^ n -> 0 <= v <= k -> parses (ReadBitsMax n k) (enc_u (Z.to_nat n) v) v.
Proof.
  intros Hn Hk Hv. unfold ReadBitsMax. rewrite <- (app_nil_r (enc_u _ _)).
  eapply parses_bind; [apply parses_u_ok; [lia|unfold u_ok; lia]|]. apply parses_guard; [lia|]. apply parses_ret.
Qed.
Lemma wp_bits_max n k : 0 < n -> wp no_err (ReadBitsMax n k) (fun v bs => 0 <= v <= k /\ bs = enc_u (Z.to_nat n) v).
Proof.
  intros Hn. unfold ReadBitsMax. eapply wp_bind_eq; [apply wp_u_ok; lia|]. intros v Hv. apply wp_guard. intros Hg.
  apply wp_ret. rewrite app_nil_r. split; [unfold u_ok in *; lia|reflexivity].
Qed.

Lemma parses_veci_when {A} (c : bool) n (body : Z -> M A) (P : Z -> A -> Prop) (enc : Z -> A -> list bool) l :
  optf c (veci n P) [] l -> (forall i a, 0 <= i < n -> P i a -> parses (body i) (enc i a) a) ->
  parses (when c (collect n body) []) (opt c (enc_from 0 enc l)) l.
Proof.
  intros H1 H2. eapply parses_when_optf; [exact H1|]. intros _ H. eapply parses_veci; eassumption.
Qed.
Lemma wp_veci_when E {A} (c : bool) n (body : Z -> M A) (P : Z -> A -> Prop) (enc : Z -> A -> list bool) :
  (c = true -> forall j, 0 <= j < n -> wp E (body j) (fun a bs => P j a /\ bs = enc j a)) ->
  wp E (when c (collect n body) []) (fun l bs => optf c (veci n P) [] l /\ bs = opt c (enc_from 0 enc l)).
Proof. intros H. apply wp_when. intros Hc. apply wp_veci. apply H, Hc. Qed.

Lemma optf_le c k v d : d = 0 -> 0 <= k -> optf c (ue_le k) d v -> 0 <= v <= k.
Proof. intros -> Hk H. destruct c; unfold optf, ue_le in H; lia. Qed.

Lemma parses_vps s : vps_ok false s -> parses ParseVpsBody (enc_vps false s) s.
Proof.
  destruct s. unfold vps_ok, enc_vps. cbn. intros H. split_hyps. unfold ParseVpsBody. change (u32_max - 1) with (2 ^ 32 - 2).
  do 10 pstep. eapply parses_bind; [apply (parses_bits_max 6 62); lia|]. do 7 pstep.
  eapply parses_bind; [eapply parses_when_optf; [eassumption|]; intros _ ?; apply parses_ue_max; [unfold ue_le in *; lia|assumption]|].
  eapply parses_bind; [eapply parses_veci_when; [eassumption|]; intros; apply parses_vps_hrd; assumption|]. prun.
Qed.
Lemma wp_vps : wp no_err ParseVpsBody (fun s bs => vps_ok false s /\ bs = enc_vps false s).
Proof.
  unfold ParseVpsBody. change (u32_max - 1) with (2 ^ 32 - 2). do 10 wstep.
  eapply wp_bind_eq; [apply (wp_bits_max 6 62); lia|intros ? ?]. do 8 wstep.
  eapply wp_bind_eq; [apply wp_veci_when; intros; apply wp_vps_hrd|intros ? ?]. wrun.
  unfold vps_ok, enc_vps. cbn. split; [conjs|reflexivity].
Qed.

(** * SPS extensions *)
Lemma parses_sps_range_ext s : sps_range_ext_ok s -> parses ParseSpsRangeExtension (enc_sps_range_ext s) s.
Proof. destruct s. unfold sps_range_ext_ok, enc_sps_range_ext. cbn. intros H. split_hyps. unfold ParseSpsRangeExtension. prun. Qed.
Lemma wp_sps_range_ext : wp no_err ParseSpsRangeExtension (fun s bs => sps_range_ext_ok s /\ bs = enc_sps_range_ext s).
Proof. unfold ParseSpsRangeExtension. wrun. unfold sps_range_ext_ok, enc_sps_range_ext. cbn. split; [conjs|reflexivity]. Qed.
Lemma parses_sps_3d_ext s : sps_3d_ext_ok s -> parses ParseSps3dExtension (enc_sps_3d_ext s) s.
Proof. destruct s. unfold sps_3d_ext_ok, enc_sps_3d_ext. cbn. intros H. split_hyps. unfold ParseSps3dExtension. prun. Qed.
Lemma wp_sps_3d_ext : wp no_err ParseSps3dExtension (fun s bs => sps_3d_ext_ok s /\ bs = enc_sps_3d_ext s).
Proof. unfold ParseSps3dExtension. wrun. unfold sps_3d_ext_ok, enc_sps_3d_ext. cbn. split; [conjs|reflexivity]. Qed.

Lemma depth_eq l c comp : 0 <= l <= 8 -> 0 <= c <= 8 ->
  (if comp =? 0 then u32 (8 + l) else u32 (8 + c)) = comp_depth l c comp /\ 8 <= comp_depth l c comp <= 16.
Proof. intros Hl Hc. unfold comp_depth, u32. rewrite !Z.mod_small by lia. destruct (comp =? 0); lia. Qed.

Lemma parses_sps_scc_ext cf l c s : 0 <= l <= 8 -> 0 <= c <= 8 -> sps_scc_ext_ok cf l c s ->
  parses (ParseSpsSccExtension cf l c) (enc_sps_scc_ext l c s) s.
Proof.
  intros Hl Hc. destruct s. unfold sps_scc_ext_ok, enc_sps_scc_ext. cbn. intros H. split_hyps. unfold ParseSpsSccExtension. do 6 pstep.
  eapply parses_bind; [eapply parses_veci_when; [eassumption|]|prun].
  intros comp v _ Hv. cbv beta in *. destruct (depth_eq l c comp ltac:(lia) ltac:(lia)) as [D1 D2]. rewrite D1.
  eapply parses_vec; [exact Hv|]. intros i a Ha. apply parses_u_ok; [lia|exact Ha].
Qed.
Lemma wp_sps_scc_ext cf l c : 0 <= l <= 8 -> 0 <= c <= 8 ->
  wp no_err (ParseSpsSccExtension cf l c) (fun s bs => sps_scc_ext_ok cf l c s /\ bs = enc_sps_scc_ext l c s).
Proof.
  intros Hl Hc. unfold ParseSpsSccExtension. do 6 wstep.
  eapply wp_bind_eq; [apply (wp_veci_when _ _ _ _
     (fun comp => vec (a4 + 1) (u_ok (comp_depth l c comp))) (fun comp => flat_map (enc_u (Z.to_nat (comp_depth l c comp)))))|].
  { intros _ comp _. destruct (depth_eq l c comp ltac:(lia) ltac:(lia)) as [D1 D2]. rewrite D1. apply wp_vec. intros. apply wp_u_ok. lia. }
  intros ? ?. wrun. unfold sps_scc_ext_ok, enc_sps_scc_ext. cbn. split; [conjs|reflexivity].
Qed.
#[export] Hint Resolve parses_sps_range_ext parses_sps_3d_ext parses_sps_scc_ext : parses_db.
#[export] Hint Resolve wp_sps_range_ext wp_sps_3d_ext wp_sps_scc_ext : wp_db.

(** * scaling_list_data *)
Lemma last_app_single {A} (l : list A) x d : last (l ++ [x]) d = x.
Proof. induction l as [|a l IH]; [reflexivity|]. cbn [app last]. destruct (l ++ [x]) eqn:E; [destruct l; discriminate|]. exact IH. Qed.
Lemma scaling_coefs_app n l d :
  scaling_coefs n (l ++ [d]) = scaling_coefs n l ++ [(last (scaling_coefs n l) n + d + 256) mod 256].
Proof.
  revert n. induction l as [|x l IH]; intros n; [reflexivity|]. cbn [app scaling_coefs]. rewrite IH. cbn [app]. f_equal. f_equal.
  f_equal. f_equal. f_equal. f_equal. destruct (scaling_coefs ((n + x + 256) mod 256) l) eqn:E; [reflexivity|].
  cbn [last]. clear IH E. revert z. induction l0 as [|y l0 IH]; intros z; [reflexivity|]. cbn [last] in *. destruct l0; [reflexivity|]. apply (IH y).
Qed.
Lemma scaling_coefs_length n l : length (scaling_coefs n l) = length l.
Proof. revert n. induction l as [|x l IH]; intros n; cbn; [reflexivity|]. rewrite IH. reflexivity. Qed.
Lemma scaling_coefs_range l : forall n, Forall (fun c => 0 <= c < 256) (scaling_coefs n l).
Proof. induction l as [|x l IH]; intros n; cbn; constructor; [apply Z.mod_pos_bound; lia|apply IH]. Qed.

Lemma to_i32_u32 x : - 2 ^ 31 <= x < 2 ^ 31 -> to_i32 (u32 x) = x.
Proof.
  intros H. unfold to_i32, u32. rewrite Z.mod_mod by lia. destruct (Z_le_dec 0 x).
  - rewrite Z.mod_small by lia. destruct (Z.ltb_spec x (2 ^ 31)); lia.
  - replace (x mod 2 ^ 32) with (x + 2 ^ 32).
    + destruct (Z.ltb_spec (x + 2 ^ 32) (2 ^ 31)); lia.
    + symmetry. rewrite <- (Z.mod_add x 1) by lia. rewrite Z.mod_small; lia.
Qed.
Lemma u32_mod256 x : u32 x mod 256 = x mod 256.
Proof.
  unfold u32. change (2 ^ 32) with (256 * 2 ^ 24). rewrite Z.rem_mul_r by lia.
  rewrite Z.mul_comm, Z.mod_add by lia. apply Z.mod_mod. lia.
Qed.
Lemma in_i32_true x : - 2 ^ 31 <= x < 2 ^ 31 -> in_i32 x = true.
Proof. unfold in_i32. lia. Qed.
Lemma wp_chk (E : errs) {B} x (f : Z -> M B) Q : (- 2 ^ 31 <= x < 2 ^ 31 \/ forall l, E SignedOverflow l) ->
  (- 2 ^ 31 <= x < 2 ^ 31 -> wp E (f x) Q) -> wp E (bind (chk_i32 x) f) Q.
Proof.
  intros HE H. unfold chk_i32. destruct (in_i32 x) eqn:C.
  - apply wp_bind_ret, H. unfold in_i32 in C. lia.
  - intros b W. destruct HE as [HE|HE]; [rewrite in_i32_true in C by lia; discriminate|apply HE].
Qed.
Lemma parses_chk {B} x (f : Z -> M B) bs v : - 2 ^ 31 <= x < 2 ^ 31 -> parses (f x) bs v -> parses (bind (chk_i32 x) f) bs v.
Proof. intros Hx H. unfold chk_i32. rewrite in_i32_true by assumption. apply parses_bind_ret, H. Qed.

Definition coef_inv (n0 : Z) (j : Z) (st : Z * list Z * list Z) (bs : list bool) : Prop :=
  let '(next, ds, cs) := st in
  Z.of_nat (length ds) = j /\ Forall se_ok ds /\ rev cs = scaling_coefs n0 (rev ds) /\
  to_i32 next = last (scaling_coefs n0 (rev ds)) n0 /\ agree bs (flat_map enc_se (rev ds)) /\
  (to_i32 next = n0 \/ 0 <= to_i32 next < 256).

Lemma wp_coef_tail (E : errs) n0 j next ds cs bs d bs' : coef_inv n0 j (next, ds, cs) bs -> se_ok d -> agree bs' (enc_se d) ->
  (- 2 ^ 31 <= to_i32 next + d < 2 ^ 31 - 256 \/ forall l, E SignedOverflow l) ->
  wp E (bind (chk_i32 (to_i32 next + d)) (fun s => bind (chk_i32 (s + 256)) (fun s => ret (u32 s mod 256, d :: ds, u32 s mod 256 :: cs))))
    (fun st bs'' => coef_inv n0 (j + 1) st (bs ++ bs' ++ bs'')).
Proof.
  intros (I1 & I2 & I3 & I4 & I5 & I6) Hd Ha HE.
  apply wp_chk; [destruct HE as [HE|HE]; [left; lia|auto]|]. intros R1. apply wp_chk; [destruct HE as [HE|HE]; [left; lia|auto]|]. intros R2. apply wp_ret. rewrite app_nil_r.
  unfold coef_inv. cbn [length rev]. rewrite u32_mod256. rewrite I4.
  assert (Hc : 0 <= (last (scaling_coefs n0 (rev ds)) n0 + d + 256) mod 256 < 256) by (apply Z.mod_pos_bound; lia).
  assert (Et : to_i32 ((last (scaling_coefs n0 (rev ds)) n0 + d + 256) mod 256) = (last (scaling_coefs n0 (rev ds)) n0 + d + 256) mod 256).
  { unfold to_i32, u32. rewrite Z.mod_small by lia. destruct (Z.ltb_spec ((last (scaling_coefs n0 (rev ds)) n0 + d + 256) mod 256) (2 ^ 31)); lia. }
  rewrite scaling_coefs_app, I3, Et. repeat split.
  - lia.
  - constructor; assumption.
  - rewrite last_app_single. reflexivity.
  - rewrite flat_map_app. apply agree_app; [exact I5|]. change (flat_map enc_se [d]) with (enc_se d ++ []). rewrite app_nil_r. exact Ha.
  - right. exact Hc.
Qed.

Lemma wp_read_coefs (E : errs) n0 n : ovf_in E -> (- 2 ^ 24 < n0 < 2 ^ 24 \/ forall l, E SignedOverflow l) -> 0 <= n -> - 2 ^ 31 <= n0 < 2 ^ 31 ->
  wpa E (read_coefs (u32 n0) n)
    (fun p => length (fst p) = Z.to_nat n /\ Forall se_ok (fst p) /\ snd p = scaling_coefs n0 (fst p))
    (fun p => flat_map enc_se (fst p)).
Proof.
  intros HE HS Hn H0. unfold read_coefs. eapply wp_bind.
  - apply (wp_for_loop E coef_step (coef_inv n0) n (u32 n0, [], [])).
    + unfold coef_inv. cbn [length rev scaling_coefs last]. split; [reflexivity|]. split; [apply Forall_nil|]. split; [reflexivity|].
      rewrite to_i32_u32 by assumption. split; [reflexivity|]. split; [apply agree_refl|auto].
    + intros j [[next ds] cs] bs Hj I. unfold coef_step.
      eapply wp_bind_run; [exact HE|apply wpa_se, HE|]. cbv beta. intros d bs' [Hd Ha].
      destruct HS as [HS|HS]; [|left; apply wp_coef_tail; auto].
      destruct (agree_se_zrun _ _ Ha) as [Sm|Zr].
      * left. apply wp_coef_tail; auto. left. destruct I as (_ & _ & _ & _ & _ & [I|I]); lia.
      * right. split; [exact Zr|]. apply wp_coef_tail; auto. right. reflexivity.
  - cbv beta. intros [[next ds] cs] bs (I1 & I2 & I3 & I4 & I5 & _). apply wp_ret. rewrite app_nil_r. cbn [fst snd].
    repeat split.
    + rewrite rev_length. lia.
    + apply Forall_rev, I2.
    + exact I3.
    + exact I5.
Qed.

Lemma parses_coef_loop l : forall i next n0 ds cs, Forall sl_range l -> to_i32 next = n0 -> - 2 ^ 29 < n0 < 2 ^ 29 + 8 ->
  exists next', parses (for_nat (length l) i coef_step (next, ds, cs)) (flat_map enc_se l)
    (next', rev l ++ ds, rev (scaling_coefs n0 l) ++ cs).
Proof.
  induction l as [|d l IH]; intros i next n0 ds cs F En Hn.
  - exists next. apply parses_ret.
  - inversion F as [|? ? Hd F']; subst. unfold sl_range in Hd.
    set (c := u32 (to_i32 next + d + 256) mod 256).
    assert (Hc : 0 <= c < 256) by (apply Z.mod_pos_bound; lia).
    assert (Ec : to_i32 c = c) by (unfold to_i32, u32; rewrite Z.mod_small by lia; destruct (Z.ltb_spec c (2 ^ 31)); lia).
    destruct (IH (i + 1) c c (d :: ds) (c :: cs) F' Ec ltac:(lia)) as (next' & P).
    exists next'. cbn [length for_nat]. change (flat_map enc_se (d :: l)) with (enc_se d ++ flat_map enc_se l).
    eapply parses_bind.
    + unfold coef_step. apply parses_app_nil. eapply parses_bind; [apply parses_se; unfold se_ok; lia|].
      apply parses_chk; [lia|]. apply parses_chk; [lia|]. apply parses_ret.
    + cbn [rev scaling_coefs]. rewrite <- !app_assoc. cbn [app]. fold c.
      unfold c in *. rewrite u32_mod256 in *. exact P.
Qed.
Lemma parses_read_coefs n0 n l : length l = Z.to_nat n -> Forall sl_range l -> - 2 ^ 29 < n0 < 2 ^ 29 + 8 ->
  parses (read_coefs (u32 n0) n) (flat_map enc_se l) (l, scaling_coefs n0 l).
Proof.
  intros L F H. unfold read_coefs.
  destruct (parses_coef_loop l 0 (u32 n0) n0 [] [] F ltac:(apply to_i32_u32; lia) H) as (next' & P).
  apply parses_app_nil. eapply parses_bind.
  - eapply parses_ext; [intros b; apply for_loop_nat|]. rewrite <- L. exact P.
  - cbn [fst snd]. rewrite !app_nil_r, !rev_involutive. apply parses_ret.
Qed.

Lemma coef_num_eq sizeId : 0 <= sizeId <= 3 -> Z.min 64 (Z.shiftl 1 (4 + Z.shiftl sizeId 1)) = coef_num sizeId.
Proof.
  intros H. assert (sizeId = 0 \/ sizeId = 1 \/ sizeId = 2 \/ sizeId = 3) as [->|[->|[->| ->]]] by lia; reflexivity.
Qed.

Lemma parses_scaling_list sizeId s : 0 <= sizeId <= 3 -> scaling_list_ok sl_range sizeId s ->
  parses (read_scaling_list sizeId) (enc_scaling_list sizeId s) s.
Proof.
  intros Hz. destruct s as [mode delta dc ds cs]. unfold scaling_list_ok, enc_scaling_list. cbn. intros (H1 & H2 & H3 & H4 & ->).
  unfold read_scaling_list. do 2 pstep. cbv zeta. rewrite coef_num_eq by assumption.
  assert (Hdc : - 2 ^ 29 < dc < 2 ^ 29) by (unfold optf, sl_range in H3; destruct (_ && _); lia).
  eapply parses_bind; [eapply parses_when_optf; [exact H3|]; intros _ Hd; apply parses_se; unfold se_ok, sl_range in *; lia|].
  assert (Hst : parses (when (nz mode && (1 <? sizeId)) (bind (chk_i32 (dc + 8)) (fun s => ret (u32 s))) 8) []
      (u32 (if (nz mode && (1 <? sizeId)) then dc + 8 else 8))).
  { destruct (nz mode && _); cbn.
    - apply parses_chk; [lia|]. apply parses_ret.
    - apply parses_ret. }
  eapply parses_bind_nil; [exact Hst|]. rewrite app_nil_r. apply parses_app_nil. eapply parses_bind.
  - instantiate (1 := (ds, scaling_coefs (if 1 <? sizeId then dc + 8 else 8) ds)). unfold optf in H4. destruct (nz mode); cbn [andb opt when].
    + apply parses_read_coefs; try tauto. destruct (1 <? sizeId); lia.
    + subst ds. apply parses_ret.
  - apply parses_ret.
Qed.

Lemma wp_scaling_list_tail (E : errs) sizeId mode delta dc bs0 : ovf_in E -> 0 <= sizeId <= 3 -> u_ok 1 mode ->
  optf (negb (nz mode)) ue_ok 0 delta -> optf (nz mode && (1 <? sizeId)) se_ok 0 dc ->
  agree bs0 (enc_u 1 mode ++ opt (negb (nz mode)) (enc_ue delta) ++ opt (nz mode && (1 <? sizeId)) (enc_se dc)) ->
  (- 2 ^ 23 < dc < 2 ^ 23 \/ forall l, E SignedOverflow l) ->
  wp E (bind (when (nz mode && (1 <? sizeId)) (bind (chk_i32 (dc + 8)) (fun s => ret (u32 s))) 8) (fun start =>
        bind (when (nz mode) (read_coefs start (coef_num sizeId)) ([], [])) (fun coefs => ret (mkSL mode delta dc (fst coefs) (snd coefs)))))
    (fun s bs => scaling_list_ok se_ok sizeId s /\ agree (bs0 ++ bs) (enc_scaling_list sizeId s)).
Proof.
  intros HE Hz Hm Hdel Hdc Ha0 HS.
  eapply wp_bind with (Q1 := fun v bs => v = u32 (if (nz mode && (1 <? sizeId)) then dc + 8 else 8) /\
     - 2 ^ 31 <= (if (nz mode && (1 <? sizeId)) then dc + 8 else 8) < 2 ^ 31 /\ bs = []).
  { unfold when. destruct (nz mode && (1 <? sizeId)).
    - apply wp_chk; [destruct HS as [HS|HS]; [left; lia|auto]|]. intros R. apply wp_ret. auto.
    - apply wp_ret. repeat split; lia. }
  intros v bs' (-> & R & ->). cbn [app]. eapply wpa_bind.
  - apply wpa_when. intros _. apply wp_read_coefs; [exact HE| | |exact R].
    + destruct HS as [HS|HS]; [left; destruct (_ && _); lia|auto].
    + unfold coef_num. destruct (sizeId =? 0); lia.
  - intros [ds cs] bs' Hc Ha. apply wp_ret. unfold scaling_list_ok, enc_scaling_list. cbn. cbn [fst snd] in *. split.
    + conjs.
      * unfold optf in *. destruct (nz mode); [tauto|]. congruence.
      * unfold optf in Hc. destruct (nz mode) eqn:Em; cbn [andb] in *.
        -- tauto.
        -- assert (ds = [] /\ cs = []) as [-> ->] by (split; congruence). reflexivity.
    + rewrite !app_assoc. rewrite !app_assoc in Ha0. rewrite !app_nil_r. apply agree_app; assumption.
Qed.
Lemma wpa_scaling_list (E : errs) sizeId : ovf_in E -> 0 <= sizeId <= 3 ->
  wpa E (read_scaling_list sizeId) (scaling_list_ok se_ok sizeId) (enc_scaling_list sizeId).
Proof.
  intros HE Hz. unfold read_scaling_list, wpa. astep. astep. cbv zeta. rewrite coef_num_eq by assumption.
  eapply wp_bind_run; [exact HE|apply wpa_when; intros _; apply wpa_se, HE|]. cbv beta. intros dc bs' [Hd Ha].
  assert (C : - 2 ^ 23 < dc < 2 ^ 23 \/ zrun 24 bs').
  { unfold optf, opt in *. destruct (_ && _); [apply (agree_se_zrun _ _ Ha)|left; lia]. }
  assert (Q : forall E', ovf_in E' -> (- 2 ^ 23 < dc < 2 ^ 23 \/ forall l, E' SignedOverflow l) -> wp E'
   (bind (when (nz a && (1 <? sizeId)) (bind (chk_i32 (dc + 8)) (fun s => ret (u32 s))) 8) (fun start =>
        bind (when (nz a) (read_coefs start (coef_num sizeId)) ([], [])) (fun coefs => ret (mkSL a a0 dc (fst coefs) (snd coefs)))))
     (fun s bs'' => scaling_list_ok se_ok sizeId s /\ agree (bs ++ bs0 ++ bs' ++ bs'') (enc_scaling_list sizeId s))).
  { intros E' HE' HS. eapply wp_weaken; [apply (wp_scaling_list_tail E' sizeId a a0 dc (bs ++ bs0 ++ bs')); auto|].
    - repeat apply agree_app; assumption.
    - cbv beta. intros s bs'' K. rewrite <- !app_assoc in K. exact K. }
  destruct C as [C|C]; [left|right; split; [exact C|]]; (eapply wp_weaken; [apply Q; auto using ovf_in_any; right; reflexivity|]); cbv beta; intros s bs'' K; exact K.
Qed.

Lemma parses_scaling_list_data s : scaling_list_data_ok sl_range s -> parses ParseScalingListData (enc_scaling_list_data s) s.
Proof.
  intros H. unfold ParseScalingListData. eapply parses_veci; [exact H|]. intros i l Hi Hl. cbv beta in *.
  eapply parses_vec; [exact Hl|]. intros j a Ha. apply parses_scaling_list; [lia|exact Ha].
Qed.
Lemma wpa_scaling_list_data (E : errs) : ovf_in E ->
  wpa E ParseScalingListData (scaling_list_data_ok se_ok) enc_scaling_list_data.
Proof.
  intros HE. unfold ParseScalingListData. apply wpa_veci. intros i Hi. apply wpa_vec. intros j Hj. apply wpa_scaling_list; [exact HE|lia].
Qed.
#[export] Hint Resolve parses_scaling_list_data : parses_db.
#[export] Hint Resolve wpa_scaling_list_data : wpa_db.
