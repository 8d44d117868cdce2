(** C91, continued: the configuration box, the RTP packets and the streams. *)
From Coq Require Import ZArith List Bool Lia ZifyBool ZifyNat.
From Verif Require Import MBase MBitBuffer Spec BitsFacts Reader ReaderFacts Rules Syntax SyntaxSe MCommon CommonFacts PropsCommon MFraming MSyntaxA MSyntaxB MSps MPps MSlice MSei MNal MRtp
  FactsSei Api PropsBits FactsLocal FactsGrow FramingFacts PropsFraming PropsWide FactsNal FactsRtp SpecTime FactsTime.
Import ListNotations.
Open Scope Z_scope.
Open Scope monad_scope.

(** As [timed], for a function that returns null instead of failing; [e] bits are consumed at least by a result. *)
Definition stimed (e a c : Z) {A} (m : M (option A * state)) : Prop := 0 <= a /\ 0 <= c /\ forall b, wf b -> exists k, takes m b k /\ 0 <= k /\
  match m b with
  | Ok (Some _, _) b' => wf b' /\ left b' <= left b - e /\ k <= a * (left b - left b') + c
  | Ok (None, _) b' | Fail b' => wf b' /\ left b' <= left b /\ k <= a * left b + c
  | Err _ => k <= a * left b + c
  end.
Lemma stimed_mono {A} e a c e' a' c' (m : M (option A * state)) : stimed e a c m -> 0 <= e -> e' <= e -> a <= a' -> c <= c' -> stimed e' a' c' m.
Proof.
  intros (Ha & Hc & H) He Le La Lc. split; [lia|]. split; [lia|]. intros b W. destruct (H b W) as (k & T & K & R). exists k. split; [exact T|]. split; [exact K|].
  pose proof (left_nonneg b). destruct (m b) as [[[x|] s] b'|b'|er]; [destruct R as (W' & L & B)..|]; [| | |nia]; pose proof (left_nonneg b'); (split; [exact W'|]); (split; [lia|nia]).
Qed.
Lemma stimed_sret {A} (x : A) st : stimed 0 0 0 (sret x st).
Proof. split; [lia|]. split; [lia|]. intros b W. exists 0. split; [apply T_ret|]. split; [lia|]. cbn. split; [exact W|lia]. Qed.
Lemma sbind_run {A B} (m : SM A) (f : A -> SM B) st b : sbind m f st b =
  match m st b with Ok (Some x, s) b1 => f x s b1 | Ok (None, s) b1 => Ok (None, s) b1 | Fail b1 => Fail b1 | Err e => Err e end.
Proof. unfold sbind, bind, ret. destruct (m st b) as [[[x|] s] b1|b1|e]; reflexivity. Qed.
Lemma takes_some {A B} (m : SM A) (f : A -> SM B) st b x s b1 k k2 : m st b = Ok (Some x, s) b1 -> takes (m st) b k -> takes (f x s) b1 k2 -> takes (sbind m f st) b (k + k2 + 1).
Proof. intros E T T2. unfold sbind. eapply T_bind; [exact E|exact T|exact T2]. Qed.
Lemma takes_none {A B} (m : SM A) (f : A -> SM B) st b s b1 k : m st b = Ok (None, s) b1 -> takes (m st) b k -> takes (sbind m f st) b (k + 1).
Proof. intros E T. unfold sbind. replace (k + 1) with (k + 0 + 1) by lia. eapply T_bind; [exact E|exact T|apply T_ret]. Qed.
Lemma takes_sfail {A B} (m : SM A) (f : A -> SM B) st b b1 k : m st b = Fail b1 -> takes (m st) b k -> takes (sbind m f st) b (k + 1).
Proof. intros E T. unfold sbind. eapply T_bind_fail; [exact E|exact T]. Qed.
Lemma takes_serr {A B} (m : SM A) (f : A -> SM B) st b e k : m st b = Err e -> takes (m st) b k -> takes (sbind m f st) b (k + 1).
Proof. intros E T. unfold sbind. eapply T_bind_err; [exact E|exact T]. Qed.
Lemma lift_run {A} (m : M A) st b : lift m st b = match m b with Ok x b1 => Ok (Some x, st) b1 | Fail b1 => Ok (None, st) b1 | Err e => Err e end.
Proof. unfold lift, bind, attempt, ret. destruct (m b); reflexivity. Qed.
Lemma takes_lift {A} (m : M A) st b k : takes m b k -> exists k', takes (lift m st) b k' /\ k <= k' <= k + 2.
Proof.
  intros T. unfold lift. destruct (m b) as [x b1|b1|e] eqn:E.
  - exists (k + 1 + 0 + 1). split; [eapply T_bind; [unfold attempt; rewrite E; reflexivity|apply T_attempt, T|apply T_ret]|lia].
  - exists (k + 1 + 0 + 1). split; [eapply T_bind; [unfold attempt; rewrite E; reflexivity|apply T_attempt, T|apply T_ret]|lia].
  - exists (k + 1 + 1). split; [eapply T_bind_err; [unfold attempt; rewrite E; reflexivity|apply T_attempt, T]|lia].
Qed.
Lemma stimed_lift {A} e a c (m : M A) st : timed a c m -> eats e m -> stimed e a (c + 2) (lift m st).
Proof.
  intros (Ha & Hc & H) En. split; [lia|]. split; [lia|]. intros b W. destruct (H b W) as (k & T & K & R). destruct (takes_lift m st b k T) as (k' & T' & K'). exists k'. split; [exact T'|]. split; [lia|].
  pose proof (left_nonneg b). rewrite lift_run. destruct (m b) as [x b'|b'|er] eqn:E; [|destruct R as (W' & L & B); split; [exact W'|]; split; [lia|nia]|nia].
  pose proof (En b x b' W E). destruct R as (W' & L & B). split; [exact W'|]. split; [lia|]. nia.
Qed.
Lemma stimed_sbind {A B} e1 a1 c1 e2 a2 c2 (m : SM A) (f : A -> SM B) st : stimed e1 a1 c1 (m st) -> 0 <= e1 -> 0 <= e2 -> 0 <= a2 -> 0 <= c2 -> (forall x st', stimed e2 a2 c2 (f x st')) ->
  stimed (e1 + e2) (Z.max a1 a2) (c1 + c2 + 1) (sbind m f st).
Proof.
  intros (Ha & Hc & H) He1 He2 Ha2 Hc2 Hf. split; [lia|]. split; [lia|]. intros b W. destruct (H b W) as (k & T & K & R). pose proof (left_nonneg b). rewrite sbind_run.
  destruct (m st b) as [[[x|] s] b1|b1|er] eqn:E.
  - destruct R as (W1 & L1 & B1). destruct (Hf x s) as (_ & _ & H2). destruct (H2 b1 W1) as (k2 & T2 & K2 & R2). pose proof (left_nonneg b1). exists (k + k2 + 1).
    split; [eapply takes_some; [exact E|exact T|exact T2]|]. split; [lia|].
    destruct (f x s b1) as [[[y|] s2] b2|b2|er2]; [destruct R2 as (W2 & L2 & B2)..|]; [| | |nia]; pose proof (left_nonneg b2); (split; [exact W2|]); (split; [lia|nia]).
  - destruct R as (W1 & L1 & B1). exists (k + 1). split; [eapply takes_none; [exact E|exact T]|]. split; [lia|]. split; [exact W1|]. split; [exact L1|nia].
  - destruct R as (W1 & L1 & B1). exists (k + 1). split; [eapply takes_sfail; [exact E|exact T]|]. split; [lia|]. split; [exact W1|]. split; [exact L1|nia].
  - exists (k + 1). split; [eapply takes_serr; [exact E|exact T]|]. split; [lia|]. nia.
Qed.
(** A loop whose rounds consume [e] bits each: they pay for the constant part of its cost. *)
Lemma stimed_scollect {A} e a c x (body : SM A) : 0 < e -> 0 <= a -> 0 <= c -> c + 2 <= e * x -> (forall st, stimed e a c (body st)) -> forall n st, stimed 0 (a + x) (c + 2) (scollect n body st).
Proof.
  intros He Ha Hc Hx H n st. assert (0 <= x) by nia. split; [lia|]. split; [lia|]. intros b W.
  enough (Q : exists k, takes (scollect n body st) b k /\ 0 <= k /\ match scollect n body st b with
    | Ok (Some _, _) b' => wf b' /\ left b' <= left b /\ k <= (a + x) * (left b - left b')
    | Ok (None, _) b' | Fail b' => wf b' /\ left b' <= left b /\ k <= (a + x) * left b + (c + 2)
    | Err _ => k <= (a + x) * left b + (c + 2) end).
  { destruct Q as (k & T & K & R). exists k. split; [exact T|]. split; [exact K|]. destruct (scollect n body st b) as [[[l|] s] b'|b'|er]; [|exact R..]. destruct R as (W' & L & B). split; [exact W'|]. split; lia. }
  revert st b W. induction n as [|n IH]; intros st b W; cbn [scollect].
  - exists 0. split; [apply T_ret|]. split; [lia|]. cbn. split; [exact W|]. lia.
  - destruct (H st) as (_ & _ & Hb). destruct (Hb b W) as (k & T & K & R). pose proof (left_nonneg b) as L0. rewrite sbind_run.
    destruct (body st b) as [[[y|] s] b1|b1|er] eqn:E.
    + destruct R as (W1 & L1 & B1). pose proof (left_nonneg b1) as L01. destruct (IH s b1 W1) as (k2 & T2 & K2 & R2). rewrite sbind_run.
      destruct (scollect n body s b1) as [[[l|] s2] b2|b2|er2] eqn:E2.
      * destruct R2 as (W2 & L2 & B2). pose proof (left_nonneg b2). exists (k + (k2 + 0 + 1) + 1). split; [eapply takes_some; [exact E|exact T|]; eapply takes_some; [exact E2|exact T2|apply T_ret]|]. split; [lia|].
        unfold sret, ret. split; [exact W2|]. split; [lia|]. nia.
      * destruct R2 as (W2 & L2 & B2). exists (k + (k2 + 1) + 1). split; [eapply takes_some; [exact E|exact T|]; eapply takes_none; [exact E2|exact T2]|]. split; [lia|]. split; [exact W2|]. split; [lia|]. nia.
      * destruct R2 as (W2 & L2 & B2). exists (k + (k2 + 1) + 1). split; [eapply takes_some; [exact E|exact T|]; eapply takes_sfail; [exact E2|exact T2]|]. split; [lia|]. split; [exact W2|]. split; [lia|]. nia.
      * exists (k + (k2 + 1) + 1). split; [eapply takes_some; [exact E|exact T|]; eapply takes_serr; [exact E2|exact T2]|]. split; [lia|]. nia.
    + destruct R as (W1 & L1 & B1). exists (k + 1). split; [eapply takes_none; [exact E|exact T]|]. split; [lia|]. split; [exact W1|]. split; [exact L1|]. nia.
    + destruct R as (W1 & L1 & B1). exists (k + 1). split; [eapply takes_sfail; [exact E|exact T]|]. split; [lia|]. split; [exact W1|]. split; [exact L1|]. nia.
    + exists (k + 1). split; [eapply takes_serr; [exact E|exact T]|]. split; [lia|]. nia.
Qed.

(** * A unit with a buffer of its own *)
Lemma unesc_short bytes rbsp : UnescapeRbsp bytes = Done rbsp -> (length rbsp <= length bytes)%nat.
Proof. intros E. destruct (C10_unescape_only_removes bytes) as (o & E' & _ & H & _). rewrite E in E'. injection E' as <-. lia. Qed.
Lemma left_mk bytes : left (mk_bb bytes) = 8 * Z.of_nat (length bytes).
Proof. unfold left. change (rem (mk_bb bytes)) with (bits_of bytes). rewrite length_bits_of. lia. Qed.
Lemma left_small b : wf b -> left b < 8 * 2 ^ 32.
Proof. intros W. unfold left. rewrite length_rem by exact W. destruct W as (_ & _ & H & H1 & H2 & _). unfold pos. lia. Qed.
Lemma unit_takes opts bytes st : byte_string bytes -> exists rbsp k, UnescapeRbsp bytes = Done rbsp /\ byte_string rbsp /\ takes (ParseNalUnitBuffer opts st) (mk_bb rbsp) k /\
  0 <= k <= 830 * (8 * Z.of_nat (length bytes)) + 3600.
Proof.
  intros D. destruct (Unescape_byte_string bytes D) as (rbsp & E & [F L]). destruct (lin_nal opts st) as (_ & _ & H). destruct (H (mk_bb rbsp) (wf_mk _ F L)) as (k & T & K & _).
  exists rbsp, k. split; [exact E|]. split; [split; assumption|]. split; [exact T|]. rewrite left_mk in K. pose proof (unesc_short _ _ E). nia.
Qed.
Lemma stimed_nalu opts st : stimed 16 837 3640 (ParseHvccNalu opts st).
Proof.
  unfold ParseHvccNalu. eapply stimed_mono with (e := 16 + 0); [eapply (stimed_sbind 16 0 6 0 837 3630)|lia|lia|lia|lia]; [apply (stimed_lift 16 0 4); [apply timed_bits|]|lia|lia|lia|lia|].
  { intros b v b' W E. rewrite (ReadBits_spec 16 b W ltac:(lia)) in E. destruct (_ && _) eqn:C; [|discriminate E]. injection E as <- <-. rewrite left_adv; [lia|exact W|lia]. }
  clear st. intros len st. split; [lia|]. split; [lia|]. intros b W. destruct (timed_collect 0 4 len (fun _ => ReadUInt8)) as (_ & _ & TB); [lia|lia|intro; apply timed_bits|intro; apply eat_eats, eat_bits|].
  fold (ReadBytes len) in TB. destruct (TB b W) as (k & T & K & R). pose proof (wp_bytes len b W) as Q. fold (ReadBytes len) in Q. pose proof (left_nonneg b) as L0.
  destruct (takes_lift _ st b k T) as (k' & T' & K'). rewrite sbind_run. pose proof (lift_run (ReadBytes len) st b) as EL. rewrite EL. destruct (ReadBytes len b) as [bytes b1|b1|er] eqn:E.
  - destruct Q as (bs & S & (V1 & V2) & ->). destruct R as (W1 & L1 & B1). pose proof (left_nonneg b1) as L01. pose proof (left_steps _ _ _ S) as LS.
    assert (LB : Z.of_nat (length (flat_map (enc_u 8) bytes)) = 8 * Z.of_nat (length bytes)).
    { clear. induction bytes as [|x l IH]; [reflexivity|]. change (flat_map (enc_u 8) (x :: l)) with (enc_u 8 x ++ flat_map (enc_u 8) l). rewrite app_length, length_enc_u. cbn [length]. lia. }
    assert (D : byte_string bytes).
    { split; [eapply Forall_impl; [|exact V2]; intros x Hx; unfold u_ok in Hx; unfold is_byte; lia|]. pose proof (left_small b W). lia. }
    destruct (unit_takes opts bytes st D) as (rbsp & k2 & EU & DR & T2 & K2).
    pose proof (T_unit opts bytes rbsp st b1 k2 EU T2) as TU. rewrite sbind_run.
    destruct (scall (ParseNalUnit opts bytes) st b1) as [[[u|] s] b2|b2|er] eqn:ES.
    + exists (k' + (Z.of_nat (length bytes) + k2 + 1 + 0 + 1) + 1). split; [eapply takes_some; [exact EL|exact T'|eapply takes_some; [exact ES|exact TU|apply T_ret]]|]. split; [lia|].
      unfold scall in ES. destruct (ParseNalUnit opts bytes st) as [[o s']|er]; [injection ES as <- <- <-|discriminate ES]. unfold sret, ret. split; [exact W1|]. split; [lia|]. nia.
    + exfalso. unfold scall in ES. destruct (ParseNalUnit opts bytes st) as [[o s']|er]; discriminate ES.
    + exfalso. unfold scall in ES. destruct (ParseNalUnit opts bytes st) as [[o s']|er]; discriminate ES.
    + exists (k' + (Z.of_nat (length bytes) + k2 + 1 + 1) + 1). split; [eapply takes_some; [exact EL|exact T'|eapply takes_serr; [exact ES|exact TU]]|]. split; [lia|nia].
  - destruct R as (W1 & L1 & B1). exists (k' + 1). split; [eapply takes_none; [exact EL|exact T']|]. split; [lia|]. split; [exact W1|]. split; [exact L1|]. nia.
  - destruct Q.
Qed.

(** * The configuration box *)
Lemma eats_bits n : 0 < n -> eats n (ReadBits n).
Proof. intros Hn b v b' W E. rewrite (ReadBits_spec n b W Hn) in E. destruct (_ && _) eqn:C; [|discriminate E]. injection E as <- <-. rewrite left_adv; [lia|exact W|lia]. Qed.
Lemma timed_fixed n v : timed 0 5 (ReadFixed n v).
Proof. unfold ReadFixed. eapply timed_mono; [apply (timed_bind 0 4 0 0); [apply timed_bits|lia|lia|intros; apply timed_guard]|lia|lia]. Qed.
Ltac sb e1 a1 c1 e2 a2 c2 := eapply stimed_mono with (e := e1 + e2); [eapply (stimed_sbind e1 a1 c1 e2 a2 c2)|lia|lia|lia|lia]; [|lia|lia|lia|lia|].
Lemma stimed_array opts st : stimed 16 1070 3700 (ParseHvccArray opts st).
Proof.
  unfold ParseHvccArray. sb 0 0 6 16 1070 3690; [apply (stimed_lift 0 0 4); [apply timed_bits|eapply eats_0, timed_bits]|]. intros c st1.
  sb 0 0 7 16 1070 3680; [apply (stimed_lift 0 0 5); [apply timed_fixed|eapply eats_0, timed_fixed]|]. intros [] st2.
  sb 0 0 6 16 1070 3670; [apply (stimed_lift 0 0 4); [apply timed_bits|eapply eats_0, timed_bits]|]. intros t st3.
  sb 16 0 6 0 1070 3660; [apply (stimed_lift 16 0 4); [apply timed_bits|apply eats_bits; lia]|]. intros n st4.
  sb 0 1065 3642 0 0 0; [exact (stimed_scollect 16 837 3640 228 _ ltac:(lia) ltac:(lia) ltac:(lia) ltac:(lia) (stimed_nalu opts) _ _)|]. intros l st5. apply stimed_sret.
Qed.
Lemma stimed_box opts st : stimed 0 1310 4110 (ParseConfigurationBoxBuffer opts st).
Proof.
  unfold ParseConfigurationBoxBuffer. sb 0 0 402 0 1310 3704; [apply (stimed_lift 0 0 400); [apply timed_hvcc_header|eapply eats_0, timed_hvcc_header]|]. intros h st1.
  sb 0 1302 3702 0 0 0; [exact (stimed_scollect 16 1070 3700 232 _ ltac:(lia) ltac:(lia) ltac:(lia) ltac:(lia) (stimed_array opts) _ _)|]. intros l st2. apply stimed_sret.
Qed.

(** * RTP *)
Lemma lin_single st : lin 821 3530 (ParseRtpSingleBuffer st).
Proof.
  unfold ParseRtpSingleBuffer. eapply lin_mono; [eapply (lin_sbind 0 22 821 3500)|lia|lia]; [apply (lin_lift 0 20), lin_timed, timed_nal_header|lia|lia|]. intros h st1.
  eapply lin_mono; [eapply (lin_sbind 821 3480 0 0)|lia|lia]; [apply lin_nal_payload|lia|lia|]. intros p st2. apply lin_ret.
Qed.
Lemma lin_fu st : lin 821 3560 (ParseRtpFuBuffer st).
Proof.
  unfold ParseRtpFuBuffer. eapply lin_mono; [eapply (lin_sbind 0 22 821 3530)|lia|lia]; [apply (lin_lift 0 20), lin_timed, timed_nal_header|lia|lia|]. intros h st1.
  eapply lin_mono; [eapply (lin_sbind 0 6 821 3510)|lia|lia]; [apply (lin_lift 0 4), lin_timed, timed_bits|lia|lia|]. intros s st2.
  eapply lin_mono; [eapply (lin_sbind 0 6 821 3500)|lia|lia]; [apply (lin_lift 0 4), lin_timed, timed_bits|lia|lia|]. intros e st3.
  eapply lin_mono; [eapply (lin_sbind 0 6 821 3490)|lia|lia]; [apply (lin_lift 0 4), lin_timed, timed_bits|lia|lia|]. intros t st4.
  destruct (s =? 0); [eapply lin_mono; [apply lin_ret|lia|lia]|].
  eapply lin_mono; [eapply (lin_sbind 821 3480 0 0)|lia|lia]; [apply lin_nal_payload|lia|lia|]. intros p st5. apply lin_ret.
Qed.

(** [m] takes at most [K] steps on the buffer [b]. *)
Definition bnd (K : Z) {A} (m : M A) (b : bb) : Prop := exists k, takes m b k /\ 0 <= k <= K /\
  match m b with Ok _ b' | Fail b' => wf b' /\ left b' <= left b | Err _ => True end.
Lemma bnd_mono {A} K K' (m : M A) b : bnd K m b -> K <= K' -> bnd K' m b.
Proof. intros (k & T & H & R) L. exists k. split; [exact T|]. split; [lia|exact R]. Qed.
Lemma bnd_lin {A} a c (m : M A) b : lin a c m -> wf b -> bnd (a * left b + c) m b.
Proof. intros (_ & _ & H) W. destruct (H b W) as (k & T & K & R). exists k. split; [exact T|]. split; [exact K|exact R]. Qed.
Lemma bnd_sbind {A B} K K2 e (m : SM A) (f : A -> SM B) st b : bnd K (m st) b -> 0 <= K2 -> (forall x s b1, m st b = Ok (Some x, s) b1 -> left b1 <= left b - e) -> 0 <= e ->
  (forall x s b1, wf b1 -> left b1 <= left b - e -> bnd K2 (f x s) b1) -> bnd (K + K2 + 1) (sbind m f st) b.
Proof.
  intros (k & T & H & R) HK2 He E0 Hf. unfold bnd. rewrite sbind_run. destruct (m st b) as [[[x|] s] b1|b1|er] eqn:E.
  - destruct R as (W1 & L1). pose proof (He x s b1 eq_refl) as L1'. destruct (Hf x s b1 W1 L1') as (k2 & T2 & H2 & R2). exists (k + k2 + 1). split; [eapply takes_some; [exact E|exact T|exact T2]|]. split; [lia|].
    destruct (f x s b1) as [y b2|b2|er2]; [| |exact I]; (split; [apply R2|lia]).
  - exists (k + 1). split; [eapply takes_none; [exact E|exact T]|]. split; [lia|exact R].
  - exists (k + 1). split; [eapply takes_sfail; [exact E|exact T]|]. split; [lia|exact R].
  - exists (k + 1). split; [eapply takes_serr; [exact E|exact T]|]. split; [lia|exact I].
Qed.
Lemma bnd_lift {A} a c (m : M A) st b : lin a c m -> wf b -> bnd (a * left b + (c + 2)) (lift m st) b.
Proof. intros H W. apply bnd_lin; [apply lin_lift, H|exact W]. Qed.
Lemma lift_eats {A} e (m : M A) st b x s b1 : eats e m -> wf b -> lift m st b = Ok (Some x, s) b1 -> left b1 <= left b - e.
Proof. intros H W E. rewrite lift_run in E. destruct (m b) as [y b2|b2|er] eqn:Em; [|discriminate E|discriminate E]. injection E as <- <- <-. eapply H; eassumption. Qed.
Lemma eats_header : eats 16 ParseNalUnitHeader.
Proof.
  intros b h b1 W E. destruct (le_lt_dec 16 (length (rem b))) as [L|L].
  - destruct (header_at b W L) as (h' & _ & _ & E' & _). rewrite E in E'. injection E' as _ ->. rewrite left_adv; [lia|exact W|exact L].
  - destruct (header_short b W L) as (b' & bs & E' & _). rewrite E in E'. discriminate E'.
Qed.
(** Every unit of an aggregation packet takes at least 32 bits, and reads at most all of what is left. *)
Definition quad (L : Z) : Z := 411 * L * L + 26300 * L + 114000.
Lemma bnd_ap f : forall st b, wf b -> left b < Z.of_nat f -> exists K, bnd K (ap_loop f st) b /\ 32 * K <= quad (left b).
Proof.
  unfold quad. induction f as [|f IH]; intros st b W L; [pose proof (left_nonneg b); lia|]. pose proof (left_nonneg b) as L0. destruct (0 <? remaining b) eqn:C.
  2:{ exists 1. split; [|nia]. exists 1. split; [apply T_ap_stop, C|]. split; [lia|]. cbn [ap_loop]. rewrite C. cbn. split; [exact W|lia]. }
  set (body := (sbind (lift (ReadBits 16)) (fun size => sbind (lift (fun b => Ok (remaining b) b)) (fun rem => if rem <? u32 (size * 8) then sfail else
         sbind (lift ParseNalUnitHeader) (fun h => sbind (ParseNalUnitPayload (nal_unit_type h)) (fun p => sbind (ap_loop f) (fun us => sret (mkAU size h p :: us)))))))).
  set (K2 := if 32 <=? left b then (quad (left b - 32)) / 32 else 0). 
  assert (HK2 : 0 <= K2 /\ (32 <= left b -> 32 * K2 <= quad (left b - 32)) /\ forall l, 0 <= l <= left b - 32 -> quad l / 32 <= K2).
  { unfold K2. destruct (32 <=? left b) eqn:C32.
    - split; [apply Z.div_pos; [unfold quad; nia|lia]|]. split; [intros _; apply Z.mul_div_le; lia|]. intros l Hl. apply Z.div_le_mono; [lia|]. unfold quad. nia.
    - split; [lia|]. split; [lia|]. intros l Hl. lia. }
  destruct HK2 as (HK2a & HK2b & HK2c).
  exists (821 * left b + 3560 + K2). split.
  2:{ destruct (Z.leb_spec 32 (left b)) as [C32|C32]; [specialize (HK2b C32); unfold quad in HK2b; clear - HK2b C32; nia|]. replace K2 with 0 by (unfold K2; replace (32 <=? left b) with false by lia; reflexivity). clear - C32 L0. nia. }
  enough (Q : bnd (821 * left b + 3550 + K2) (body st) b).
  { destruct Q as (k & T & H & R). exists (k + 1). split; [apply T_ap_go; [exact C|exact T]|]. split; [lia|]. cbn [ap_loop]. rewrite C. exact R. }
  unfold body. eapply bnd_mono; [apply (bnd_sbind (0 * left b + 6) (821 * left b + 3540 + K2) 16)|lia].
  - apply (bnd_lift 0 4); [apply lin_timed, timed_bits|exact W].
  - lia.
  - intros x s b1 E. eapply lift_eats; [apply eats_bits; lia|exact W|exact E].
  - lia.
  - intros size s1 b1 W1 L1. pose proof (left_nonneg b1). eapply bnd_mono; [apply (bnd_sbind (0 * left b1 + 3) (821 * left b + 3530 + K2) 0)|lia].
    + apply (bnd_lift 0 1); [apply lin_remaining|exact W1].
    + lia.
    + intros x s b2 E. unfold lift, bind, attempt, ret in E. injection E as <- <- <-. lia.
    + lia.
    + intros rm s2 b2 W2 L2. pose proof (left_nonneg b2). destruct (rm <? u32 (size * 8)).
      { exists 0. split; [apply T_ret|]. split; [lia|]. cbn. split; [exact W2|lia]. }
      eapply bnd_mono; [apply (bnd_sbind (0 * left b2 + 22) (821 * left b + 3500 + K2) 16)|lia].
      * apply (bnd_lift 0 20); [apply lin_timed, timed_nal_header|exact W2].
      * lia.
      * intros x s b3 E. eapply lift_eats; [apply eats_header|exact W2|exact E].
      * lia.
      * intros h s3 b3 W3 L3. pose proof (left_nonneg b3). eapply bnd_mono; [apply (bnd_sbind (821 * left b3 + 3480) (K2 + 1) 0)|nia].
        -- apply bnd_lin; [apply lin_nal_payload|exact W3].
        -- lia.
        -- intros x s b4 E. destruct (lin_nal_payload (nal_unit_type h) s3) as (_ & _ & LP). destruct (LP b3 W3) as (k & _ & _ & R). rewrite E in R. lia.
        -- lia.
        -- intros p s4 b4 W4 L4. pose proof (left_nonneg b4). destruct (IH s4 b4 W4 ltac:(lia)) as (K & BK & HK). fold (quad (left b4)) in HK.
           eapply bnd_mono; [apply (bnd_sbind K 0 0)|].
           ++ exact BK.
           ++ lia.
           ++ intros x s b5 E. destruct BK as (k & _ & _ & R). rewrite E in R. lia.
           ++ lia.
           ++ intros us s5 b5 W5 L5. exists 0. split; [apply T_ret|]. split; [lia|]. cbn. split; [exact W5|lia].
           ++ assert (K <= quad (left b4) / 32) by (apply Z.div_le_lower_bound; lia). specialize (HK2c (left b4) ltac:(lia)). lia.
Qed.
Lemma bnd_ap_packet st b : wf b -> bnd (13 * left b * left b + 825 * left b + 3600) (ParseRtpApBuffer st) b.
Proof.
  intros W. pose proof (left_nonneg b) as L0. unfold ParseRtpApBuffer. eapply bnd_mono; [apply (bnd_sbind (0 * left b + 22) (13 * left b * left b + 825 * left b + 3570) 0)|lia].
  - apply (bnd_lift 0 20); [apply lin_timed, timed_nal_header|exact W].
  - nia.
  - intros x s b1 E. eapply lift_eats; [eapply eats_0, timed_nal_header|exact W|exact E].
  - lia.
  - intros h s b1 W1 L1. pose proof (left_nonneg b1) as L01.
    destruct (bnd_ap (S (Z.to_nat (remaining b1))) s b1 W1) as (K & BK & HK); [rewrite remaining_spec by exact W1; unfold left; lia|].
    assert (BA : bnd (K + 1) ((fun st b => ap_loop (S (Z.to_nat (remaining b))) st b) s) b1).
    { destruct BK as (k & T & H & R). exists (k + 1). split; [apply T_ap, T|]. split; [lia|exact R]. }
    eapply bnd_mono; [apply (bnd_sbind (K + 1) 0 0)|].
    + exact BA.
    + lia.
    + intros x s2 b2 E. destruct BA as (k & _ & _ & R). rewrite E in R. lia.
    + lia.
    + intros us s2 b2 W2 L2. exists 0. split; [apply T_ret|]. split; [lia|]. cbn. split; [exact W2|lia].
    + unfold quad in HK. nia.
Qed.
Lemma bnd_rtp st bytes : byte_string bytes -> let L := 8 * Z.of_nat (length bytes) in bnd (13 * L * L + 825 * L + 3700) (ParseRtpBuffer st) (mk_bb bytes).
Proof.
  intros [F H32] L. pose proof (wf_mk _ F H32) as W. pose proof (left_mk bytes) as EL. fold L in EL. assert (L0 : 0 <= L) by (unfold L; lia).
  destruct (bnd_lift 0 20 ParseNalUnitHeader st (mk_bb bytes) (lin_timed _ _ _ timed_nal_header) W) as (k & T & K & R). unfold ParseRtpBuffer. unfold bnd. rewrite sbind_run.
  destruct (lift ParseNalUnitHeader st (mk_bb bytes)) as [[[h|] s] b1|b1|er] eqn:E.
  - assert (E1 : b1 = adv (mk_bb bytes) 16 /\ s = st).
    { rewrite lift_run in E. destruct (ParseNalUnitHeader (mk_bb bytes)) as [h' b'|b'|er] eqn:E'; [|discriminate E..]. injection E as -> <- <-. split; [|reflexivity].
      destruct (le_lt_dec 16 (length (rem (mk_bb bytes)))) as [Q|Q].
      - destruct (header_at _ W Q) as (h2 & _ & _ & E2 & _). rewrite E' in E2. injection E2 as _ ->. reflexivity.
      - destruct (header_short _ W Q) as (b2 & bs & E2 & _). rewrite E' in E2. discriminate E2. }
    destruct E1 as [-> ->]. set (b1 := adv (mk_bb bytes) 16) in *.
    assert (ES : Seek 0 0 b1 = Ok tt (mk_bb bytes)).
    { unfold b1, Seek. cbn [adv mk_bb bb_count bb_bytes]. replace (Z.of_nat (length bytes) <? 0) with false by lia. cbn. rewrite andb_false_r. reflexivity. }
    assert (EL2 : lift (attempt (Seek 0 0)) st b1 = Ok (Some (Some tt), st) (mk_bb bytes)) by (rewrite lift_run; unfold attempt; rewrite ES; reflexivity).
    destruct (takes_lift (attempt (Seek 0 0)) st b1 (1 + 1) (T_attempt _ _ _ _ (T_seek 0 0 b1))) as (k1 & T1 & K1). rewrite sbind_run, EL2.
    enough (Q : bnd (13 * L * L + 825 * L + 3610) ((if nal_unit_type h <=? 47 then sbind ParseRtpSingleBuffer (fun s => sret (mkRtp h (Some s) None None))
        else if nal_unit_type h =? AP then sbind ParseRtpApBuffer (fun a => sret (mkRtp h None (Some a) None))
        else if nal_unit_type h =? FU then sbind ParseRtpFuBuffer (fun f => sret (mkRtp h None None (Some f))) else sret (mkRtp h None None None)) st) (mk_bb bytes)).
    { destruct Q as (k2 & T2 & K2 & R2). exists (k + (k1 + k2 + 1) + 1). split; [eapply takes_some; [exact E|exact T|eapply takes_some; [exact EL2|exact T1|exact T2]]|]. split; [lia|exact R2]. }
    assert (FIN : forall A (m : SM A) (f : A -> rtp) K0, bnd K0 (m st) (mk_bb bytes) -> bnd (K0 + 0 + 1) (sbind m (fun x => sret (f x)) st) (mk_bb bytes)).
    { intros A m f K0 B. apply (bnd_sbind K0 0 0); [exact B|lia| |lia|].
      - intros x s2 b2 E2. destruct B as (k2 & _ & _ & R2). rewrite E2 in R2. lia.
      - intros x s2 b2 W2 L2. exists 0. split; [apply T_ret|]. split; [lia|]. cbn. split; [exact W2|lia]. }
    destruct (nal_unit_type h <=? 47); [|destruct (nal_unit_type h =? AP); [|destruct (nal_unit_type h =? FU)]].
    + eapply bnd_mono; [apply FIN, bnd_lin; [apply lin_single|exact W]|]. rewrite EL. nia.
    + eapply bnd_mono; [apply FIN, bnd_ap_packet, W|]. rewrite EL. nia.
    + eapply bnd_mono; [apply FIN, bnd_lin; [apply lin_fu|exact W]|]. rewrite EL. nia.
    + exists 0. split; [apply T_ret|]. split; [nia|]. cbn. split; [exact W|lia].
  - exists (k + 1). split; [eapply takes_none; [exact E|exact T]|]. split; [nia|exact R].
  - exists (k + 1). split; [eapply takes_sfail; [exact E|exact T]|]. split; [nia|exact R].
  - exists (k + 1). split; [eapply takes_serr; [exact E|exact T]|]. split; [nia|exact I].
Qed.

(** * Streams *)
Definition total (l : list (Z * Z)) : Z := fold_right (fun r a => snd r + a) 0 l.
Lemma units_bound opts data : byte_string data -> forall l, Forall (fun r => 0 <= fst r /\ 0 <= snd r /\ fst r + snd r <= Z.of_nat (length data)) l -> forall st, exists k, units_take opts data l st k /\
  0 <= k <= 6641 * total l + 3601 * Z.of_nat (length l).
Proof.
  intros [F H32]. induction l as [|[off len] r IH]; intros B st.
  - exists 0. split; [constructor|]. cbn. lia.
  - inversion B as [|? ? (B1 & B2 & B3) B']; subst. cbn [fst snd] in *. set (bytes := firstn (Z.to_nat len) (skipn (Z.to_nat off) data)).
    assert (ES : sub data off len = Done bytes) by (unfold sub; replace ((off <? 0) || (len <? 0) || (Z.of_nat (length data) <? off + len)) with false by lia; reflexivity).
    assert (LB : Z.of_nat (length bytes) = len) by (unfold bytes; rewrite firstn_length_le; [lia|rewrite skipn_length; lia]).
    assert (D : byte_string bytes) by (split; [apply Forall_firstn, Forall_skipn, F|lia]).
    destruct (unit_takes opts bytes st D) as (rbsp & k & EU & _ & T & K).
    assert (T0 : 0 <= total r). { clear - B'. induction B' as [|x r0 Hx F0 IH0]; cbn; [lia|]. unfold total in IH0. lia. }
    destruct (ParseNalUnit opts bytes st) as [[o st']|e] eqn:EP.
    + destruct (IH B' st') as (k' & U & K'). exists (Z.of_nat (length bytes) + k + 1 + k'). split; [eapply T_next_unit; eassumption|]. cbn [total fold_right snd length]. fold (total r). lia.
    + exists (Z.of_nat (length bytes) + k + 1). split; [eapply T_bad_unit; eassumption|]. cbn [total fold_right snd length]. fold (total r). lia.
Qed.
Lemma chained_total stop l : chained stop l -> total (map (fun ix => (payload_start_offset ix, MFraming.payload_size ix)) l) + 3 * Z.of_nat (length l) <=
  match l with [] => 0 | ix :: _ => stop - start_offset ix end.
Proof.
  induction l as [|ix l IH]; [cbn; lia|]. intros (H1 & H2 & H3 & H4 & H5). specialize (IH H5). cbn [map total fold_right snd length]. fold (total (map (fun ix => (payload_start_offset ix, MFraming.payload_size ix)) l)).
  destruct l as [|nx l]; [cbn in *; lia|]. lia.
Qed.
Lemma framed_total n off nals : total (framed_ranges n off nals) + Z.of_nat n * Z.of_nat (length nals) = Z.of_nat (length (concat nals)) + Z.of_nat n * Z.of_nat (length nals) .
Proof. revert off. induction nals as [|x r IH]; intros off; [reflexivity|]. cbn [framed_ranges total fold_right snd concat]. rewrite app_length. fold (total (framed_ranges n (off + Z.of_nat n + Z.of_nat (length x)) r)). specialize (IH (off + Z.of_nat n + Z.of_nat (length x))). lia. Qed.
