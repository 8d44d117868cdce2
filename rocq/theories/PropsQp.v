(** C46: slice QP; and the rest of C43-C45: safety of the RTP parsers, what aggregation packets do not give. *)
From Coq Require Import ZArith List Bool Lia ZifyBool ZifyNat.
From Verif Require Import MBase MBitBuffer Spec BitsFacts Reader ReaderFacts Rules Syntax SyntaxSe MCommon CommonFacts PropsBits PropsCommon
  MFraming FramingFacts PropsFraming MSyntaxA SpecA FactsA Api PropsA MSyntaxB SpecB FactsB FactsRps PropsB MSps SpecSps FactsSps PropsSps
  MPps SpecPps FactsPps PropsPps MSlice SpecSlice FactsSlice PropsSlice MSei SpecSei FactsSei PropsSei MNal FactsNal PropsNal MRtp FactsRtp PropsRtp.
Import ListNotations.
Open Scope Z_scope.
Ltac Zify.zify_post_hook ::= Z.div_mod_to_equations.

(** * Specification (equation 7-54): with the PPS table [pps_of] *)
Definition slice_qp (pps_of : Z -> option (pps * Z)) (h : slice_header) : list Z :=
  match pps_of (slice_pic_parameter_set_id h) with Some (p, _) => [26 + init_qp_minus26 p + slice_qp_delta h] | None => [] end.
Definition unit_qp (pps_of : Z -> option (pps * Z)) (u : nal_unit) : list Z :=
  match np_slice (nu_payload u) with Some h => slice_qp pps_of h | None => [] end.
(** The PPS table after a unit. *)
Definition next_pps (pps_of : Z -> option (pps * Z)) (u : nal_unit) : Z -> option (pps * Z) := fun k =>
  match np_pps (nu_payload u) with Some v => if k =? pps_pic_parameter_set_id (fst v) then Some v else pps_of k | None => pps_of k end.
(** The standard's value for every slice: the PPS is the last one with its id in front of the slice. *)
Fixpoint own_qps (pps_of : Z -> option (pps * Z)) (us : list nal_unit) : list Z :=
  match us with
  | [] => []
  | u :: r => unit_qp pps_of u ++ own_qps (next_pps pps_of u) r
  end.

(** Only units of slice types have a slice header. *)
Lemma slice_unit_type opts data st u st' h : byte_string data -> state_ok st -> ParseNalUnit opts data st = Done (Some u, st') ->
  np_slice (nu_payload u) = Some h -> slice_nut (nal_unit_type (nu_header u)) = true.
Proof.
  intros D S E Hh. destruct (Unescape_byte_string data D) as (rbsp & Er & D'). rewrite (nal_unit_unesc _ _ _ _ Er) in E.
  destruct (le_lt_dec 2 (length rbsp)) as [L|L]; [|rewrite nal_unit_short in E by assumption; discriminate].
  destruct (nal_unit_long opts rbsp st D' S L) as (hd & _ & _ & W & E2). rewrite E2 in E. destruct (payload_fault (nal_unit_type hd) st (adv (mk_bb rbsp) 16)); [discriminate|].
  injection E as <- <-. unfold unit_of in *. cbn [nu_payload nu_header] in *. unfold payload_of in Hh. cbn [np_slice] in Hh. destruct (slice_nut (nal_unit_type hd)); [reflexivity|discriminate].
Qed.
Lemma IsSliceSegment_nut ty : IsSliceSegment ty = slice_nut ty.
Proof. rewrite <- case_slice. unfold IsSliceSegment, case_of. rewrite <- existsb_app. reflexivity. Qed.

(** One unit. *)
Definition qp_ok (pps_of : Z -> option (pps * Z)) (h : slice_header) : Prop :=
  forall p x, pps_of (slice_pic_parameter_set_id h) = Some (p, x) ->
    - 2 ^ 31 <= 26 + init_qp_minus26 p < 2 ^ 31 /\ - 2 ^ 31 <= 26 + init_qp_minus26 p + slice_qp_delta h < 2 ^ 31.
Lemma in_i32_range x : in_i32 x = true <-> - 2 ^ 31 <= x < 2 ^ 31.
Proof. unfold in_i32. lia. Qed.
Lemma internal_spec ty p st : (forall h, np_slice p = Some h -> slice_nut ty = true) ->
  match GetSliceQpYInternal ty p st with
  | Done o => (match o with Some q => [q] | None => [] end) = (match np_slice p with Some h => slice_qp (st_pps st) h | None => [] end) /\
              (forall h, np_slice p = Some h -> qp_ok (st_pps st) h)
  | Bad e => e = SignedOverflow /\ exists h, np_slice p = Some h /\ ~ qp_ok (st_pps st) h
  end.
Proof.
  intros H. unfold GetSliceQpYInternal. rewrite IsSliceSegment_nut. destruct (np_slice p) as [h|] eqn:Eh.
  2:{ destruct (negb (slice_nut ty)); split; (reflexivity || discriminate). }
  rewrite (H h eq_refl). cbn [negb]. unfold slice_qp, qp_ok. destruct (st_pps st (slice_pic_parameter_set_id h)) as [[q x]|] eqn:Ep.
  2:{ split; [reflexivity|]. intros h' E. injection E as <-. intros p' x'. rewrite Ep. discriminate. }
  unfold add_i32. destruct (in_i32 (26 + init_qp_minus26 q)) eqn:E1.
  2:{ split; [reflexivity|]. exists h. split; [reflexivity|]. intros C. destruct (C _ _ Ep) as [C1 _]. apply in_i32_range in C1. congruence. }
  destruct (in_i32 (26 + init_qp_minus26 q + slice_qp_delta h)) eqn:E2.
  2:{ split; [reflexivity|]. exists h. split; [reflexivity|]. intros C. destruct (C _ _ Ep) as [_ C1]. apply in_i32_range in C1. congruence. }
  split; [reflexivity|]. intros h' E. injection E as <-. intros p' x' E. rewrite Ep in E. injection E as <- <-. split; apply in_i32_range; assumption.
Qed.
Lemma qp_loop_spec st : forall us, (forall u h, In u us -> np_slice (nu_payload u) = Some h -> slice_nut (nal_unit_type (nu_header u)) = true) ->
  match qp_loop us st with
  | Done l => l = flat_map (unit_qp (st_pps st)) us /\ (forall u h, In u us -> np_slice (nu_payload u) = Some h -> qp_ok (st_pps st) h)
  | Bad e => e = SignedOverflow /\ exists u h, In u us /\ np_slice (nu_payload u) = Some h /\ ~ qp_ok (st_pps st) h
  end.
Proof.
  induction us as [|u us IH]; intros H; cbn [qp_loop flat_map]; [split; [reflexivity|contradiction]|].
  pose proof (internal_spec (nal_unit_type (nu_header u)) (nu_payload u) st (fun h => H u h (or_introl eq_refl))) as H1.
  destruct (GetSliceQpYInternal (nal_unit_type (nu_header u)) (nu_payload u) st) as [o|e].
  2:{ destruct H1 as [-> (h & H1 & H2)]. split; [reflexivity|]. exists u, h. split; [left; reflexivity|auto]. }
  specialize (IH (fun u' h' I => H u' h' (or_intror I))). destruct (qp_loop us st) as [l|e].
  2:{ destruct IH as [-> (u' & h & I1 & I2)]. split; [reflexivity|]. exists u', h. split; [right; exact I1|exact I2]. }
  destruct IH as [-> I2]. destruct H1 as [H1 H2]. split.
  - change (flat_map (unit_qp (st_pps st)) (u :: us)) with (unit_qp (st_pps st) u ++ flat_map (unit_qp (st_pps st)) us).
    replace (unit_qp (st_pps st) u) with (match o with Some q => [q] | None => [] end) by exact H1. destruct o; reflexivity.
  - intros u' h' [<-|I] E; [apply H2, E|exact (I2 _ _ I E)].
Qed.

(** The units of a bitstream and the states between them. *)
Inductive history (opts : options) : state -> list nal_unit -> state -> Prop :=
| hist_nil st : history opts st [] st
| hist_skip st1 st2 us st3 : same_state st1 st2 -> history opts st2 us st3 -> history opts st1 us st3
| hist_cons st1 data u off len st2 us st3 : byte_string data -> store_ok st1 -> ParseNalUnit opts data st1 = Done (Some u, st2) -> store_ok st2 -> history opts st2 us st3 ->
    history opts st1 (set_range off len u :: us) st3.
Lemma sub_bytes data ix : byte_string data -> in_bounds data ix -> byte_string (payload data ix).
Proof.
  intros [F L] (H1 & H2 & H3). unfold payload. split.
  - apply Forall_forall. intros x I. rewrite Forall_forall in F. apply F. rewrite <- (firstn_skipn (Z.to_nat (payload_start_offset ix)) data). apply in_or_app. right.
    rewrite <- (firstn_skipn (Z.to_nat (MFraming.payload_size ix)) (skipn _ _)). apply in_or_app. left. exact I.
  - rewrite firstn_length. lia.
Qed.
Lemma placed_history opts data ixs : byte_string data -> Forall (in_bounds data) ixs -> forall st us st', store_ok st ->
  parse_all opts (map (payload data) ixs) st = Done (us, st') -> history opts st (placed ixs us) st'.
Proof.
  intros D. induction 1 as [|ix ixs B F IH]; intros st us st' S E; cbn [map parse_all] in E.
  - injection E as <- <-. constructor.
  - destruct (ParseNalUnit opts (payload data ix) st) as [[o st1]|e] eqn:E1; [|discriminate].
    destruct (parse_all opts (map (payload data) ixs) st1) as [[us1 st2]|e] eqn:E2; [|discriminate]. injection E as <- <-. cbn [placed].
    assert (S1 : store_ok st1) by (eapply C22_invariant; [apply (sub_bytes data ix D B)|exact S|exact E1]).
    specialize (IH st1 us1 st2 S1 E2). destruct o as [u|]; cbn [place app].
    + eapply hist_cons; [apply (sub_bytes data ix D B)|exact S|exact E1|exact S1|exact IH].
    + eapply hist_skip; [|exact IH]. pose proof (C22_store opts _ st None st1 (sub_bytes data ix D B) (store_state_ok _ S) E1) as H. cbn in H.
      split; [|split]; intros k; specialize (H k); destruct H as (h1 & h2 & h3); congruence.
Qed.
Lemma history_slice_type opts st us st' : history opts st us st' -> forall u h, In u us -> np_slice (nu_payload u) = Some h -> slice_nut (nal_unit_type (nu_header u)) = true.
Proof.
  induction 1 as [|st1 st2 us st3 _ _ IH|st1 data u off len st2 us st3 D S E S2 _ IH]; intros v h I Hh; [destruct I|exact (IH v h I Hh)|].
  destruct I as [<-|I]; [|exact (IH v h I Hh)]. exact (slice_unit_type opts data st1 u st2 h D (store_state_ok _ S) E Hh).
Qed.
Lemma hist_pps opts data st1 u st2 : byte_string data -> store_ok st1 -> ParseNalUnit opts data st1 = Done (Some u, st2) -> forall k, st_pps st2 k = next_pps (st_pps st1) u k.
Proof. intros D S E k. pose proof (C22_store opts data st1 (Some u) st2 D (store_state_ok _ S) E k) as (_ & _ & H). exact H. Qed.
(** Stored PPSs are never removed. *)
Lemma history_keeps opts st us st' : history opts st us st' -> forall k, st_pps st k <> None -> st_pps st' k <> None.
Proof.
  induction 1 as [|st1 st2 us st3 (_ & _ & E) _ IH|st1 data u off len st2 us st3 D S E S2 _ IH]; intros k Hk; [exact Hk|apply IH; rewrite <- E; exact Hk|].
  apply IH. rewrite (hist_pps _ _ _ _ _ D S E). unfold next_pps. destruct (np_pps (nu_payload u)); [|exact Hk]. destruct (k =? _); [discriminate|exact Hk].
Qed.
Lemma history_one opts st us st' : history opts st us st' -> forall u h, In u us -> np_slice (nu_payload u) = Some h -> st_pps st' (slice_pic_parameter_set_id h) <> None.
Proof.
  induction 1 as [|st1 st2 us st3 _ _ IH|st1 data u off len st2 us st3 D S E S2 Hi IH]; intros v h I Hh; [destruct I|exact (IH v h I Hh)|].
  destruct I as [<-|I]; [|exact (IH v h I Hh)]. apply (history_keeps _ _ _ _ Hi). change (nu_payload (set_range off len u)) with (nu_payload u) in Hh.
  destruct (C23_needs_parameter_sets opts data st1 u st2 h D (store_state_ok _ S) E Hh) as (p & x & _ & _ & Ep & _).
  rewrite (hist_pps _ _ _ _ _ D S E). unfold next_pps. destruct (np_pps (nu_payload u)); [destruct (_ =? _); [discriminate|]|]; rewrite Ep; discriminate.
Qed.
Lemma history_final opts st us st' : history opts st us st' -> forall k, st_pps st' k = fold_left next_pps us (st_pps st) k.
Proof.
  assert (X : forall l f g, (forall k, f k = g k) -> forall k, fold_left next_pps l f k = fold_left next_pps l g k).
  { clear. induction l as [|u l IH]; intros f g E k; [apply E|]. cbn [fold_left]. apply IH. intros k'. unfold next_pps. destruct (np_pps (nu_payload u)); [destruct (_ =? _); [reflexivity|]|]; apply E. }
  induction 1 as [|st1 st2 us st3 (_ & _ & E) _ IH|st1 data u off len st2 us st3 D S E S2 _ IH]; intros k; [reflexivity|rewrite IH; apply X; intros; symmetry; apply E|].
  rewrite IH. cbn [fold_left]. apply X. intros k'. rewrite (hist_pps _ _ _ _ _ D S E). reflexivity.
Qed.

(** * C46 *)
(** One value per slice, in stream order, 26 + init_qp_minus26 + slice_qp_delta with the PPS that has the slice's PPS id AT THE END of the
    stream; if the sum of some slice leaves the range of int32_t: undefined behaviour.  It is not the PPS in force at the slice (C46_own_pps_refuted). *)
Theorem C46_values : forall data st bs st', byte_string data -> store_ok st -> ParseBitstream qp_options data st = Done (bs, st') ->
  match GetSliceQpY data st with
  | Done (l, st'') => st'' = st' /\ l = flat_map (unit_qp (st_pps st')) (bs_units bs) /\
      length l = length (filter (fun u => match np_slice (nu_payload u) with Some _ => true | None => false end) (bs_units bs))
  | Bad e => e = SignedOverflow /\ exists u h, In u (bs_units bs) /\ np_slice (nu_payload u) = Some h /\ ~ qp_ok (st_pps st') h
  end.
Proof.
  intros data st bs st' D S E. unfold GetSliceQpY. rewrite E. pose proof D as [F L]. rewrite ParseBitstream_spec in E by lia.
  destruct (parse_all qp_options (map (payload data) (annexb_units data)) st) as [[us st1]|e] eqn:E1; [|discriminate]. injection E as <- <-. cbn [bs_units].
  pose proof (placed_history _ _ _ D (annexb_in_bounds data ltac:(lia)) _ _ _ S E1) as Hi.
  pose proof (qp_loop_spec st1 _ (history_slice_type _ _ _ _ Hi)) as Q. destruct (qp_loop (placed (annexb_units data) us) st1) as [l|e]; [|exact Q].
  destruct Q as [-> _]. split; [reflexivity|]. split; [reflexivity|]. pose proof (history_one _ _ _ _ Hi) as O. clear - O.
  induction (placed (annexb_units data) us) as [|u l IH]; [reflexivity|]. change (flat_map (unit_qp (st_pps st1)) (u :: l)) with (unit_qp (st_pps st1) u ++ flat_map (unit_qp (st_pps st1)) l). cbn [filter]. rewrite app_length, IH by (intros v h I; apply O; right; exact I).
  specialize (O u). unfold unit_qp, slice_qp. destruct (np_slice (nu_payload u)) as [h|]; [|reflexivity]. specialize (O h (or_introl eq_refl) eq_refl).
  destruct (st_pps st1 (slice_pic_parameter_set_id h)) as [[p x]|]; [|contradiction (O eq_refl)]. reflexivity.
Qed.
(** With the PPS in force at each slice, for streams in which no PPS behind a slice changes the init_qp_minus26 of the slice's PPS. *)
Definition keeps_init_qp (pps_of : Z -> option (pps * Z)) (us : list nal_unit) : Prop :=
  forall us1 u us2 h p x, us = us1 ++ u :: us2 -> np_slice (nu_payload u) = Some h -> fold_left next_pps us1 pps_of (slice_pic_parameter_set_id h) = Some (p, x) ->
  forall u' p' x', In u' us2 -> np_pps (nu_payload u') = Some (p', x') -> pps_pic_parameter_set_id p' = slice_pic_parameter_set_id h -> init_qp_minus26 p' = init_qp_minus26 p.
Lemma fold_pps_init k q : forall us pps_of p x, pps_of k = Some (p, x) -> init_qp_minus26 p = q ->
  (forall u' p' x', In u' us -> np_pps (nu_payload u') = Some (p', x') -> pps_pic_parameter_set_id p' = k -> init_qp_minus26 p' = q) ->
  exists p' x', fold_left next_pps us pps_of k = Some (p', x') /\ init_qp_minus26 p' = q.
Proof.
  induction us as [|u us IH]; intros pps_of p x E Eq H; [cbn; eauto|]. cbn [fold_left].
  destruct (np_pps (nu_payload u)) as [[p1 x1]|] eqn:E1.
  - destruct (Z.eqb_spec k (pps_pic_parameter_set_id p1)) as [Ek|Nk].
    + apply (IH _ p1 x1); [unfold next_pps; rewrite E1; cbn [fst]; rewrite <- Ek, Z.eqb_refl; reflexivity|apply (H u p1 x1); [left; reflexivity|exact E1|auto]|].
      intros u' p' x' I. apply H. right. exact I.
    + apply (IH _ p x); [unfold next_pps; rewrite E1; cbn [fst]; replace (k =? pps_pic_parameter_set_id p1) with false by lia; exact E|exact Eq|].
      intros u' p' x' I. apply H. right. exact I.
  - apply (IH _ p x); [unfold next_pps; rewrite E1; exact E|exact Eq|]. intros u' p' x' I. apply H. right. exact I.
Qed.
Lemma own_final : forall us pps_of, keeps_init_qp pps_of us -> (forall us1 u us2 h, us = us1 ++ u :: us2 -> np_slice (nu_payload u) = Some h -> fold_left next_pps us1 pps_of (slice_pic_parameter_set_id h) <> None) ->
  (forall u, In u us -> np_slice (nu_payload u) = None \/ np_pps (nu_payload u) = None) ->
  flat_map (unit_qp (fold_left next_pps us pps_of)) us = own_qps pps_of us.
Proof.
  induction us as [|u us IH]; intros pps_of K N X; [reflexivity|].
  change (flat_map (unit_qp (fold_left next_pps (u :: us) pps_of)) (u :: us)) with (unit_qp (fold_left next_pps (u :: us) pps_of) u ++ flat_map (unit_qp (fold_left next_pps us (next_pps pps_of u))) us).
  cbn [own_qps]. rewrite <- IH.
  - f_equal. unfold unit_qp, slice_qp. destruct (np_slice (nu_payload u)) as [h|] eqn:Eh; [|reflexivity].
    specialize (N [] u us h eq_refl Eh). cbn [fold_left] in N. destruct (pps_of (slice_pic_parameter_set_id h)) as [[p x]|] eqn:Ep; [|contradiction (N eq_refl)].
    destruct (fold_pps_init (slice_pic_parameter_set_id h) (init_qp_minus26 p) (u :: us) pps_of p x Ep eq_refl) as (p' & x' & E' & I').
    + intros u' p' x' [<-|I] E1 E2; [|exact (K [] u us h p x eq_refl Eh Ep u' p' x' I E1 E2)].
      destruct (X u (or_introl eq_refl)) as [C|C]; congruence.
    + rewrite E', I'. reflexivity.
  - intros us1 v us2 h p x E Eh Ep. apply (K (u :: us1) v us2 h p x); [rewrite E; reflexivity|exact Eh|exact Ep].
  - intros us1 v us2 h E Eh. apply (N (u :: us1) v us2 h); [rewrite E; reflexivity|exact Eh].
  - intros v I. apply X. right. exact I.
Qed.
Lemma history_no_both opts st us st' : history opts st us st' -> forall u, In u us -> np_slice (nu_payload u) = None \/ np_pps (nu_payload u) = None.
Proof.
  induction 1 as [|st1 st2 us st3 _ _ IH|st1 data u off len st2 us st3 D S E S2 _ IH]; intros v I; [destruct I|exact (IH v I)|].
  destruct I as [<-|I]; [|exact (IH v I)]. change (nu_payload (set_range off len u)) with (nu_payload u).
  destruct (Unescape_byte_string data D) as (rbsp & Er & D'). rewrite (nal_unit_unesc _ _ _ _ Er) in E.
  destruct (le_lt_dec 2 (length rbsp)) as [L|L]; [|rewrite nal_unit_short in E by assumption; discriminate].
  destruct (nal_unit_long opts rbsp st1 D' (store_state_ok _ S) L) as (hd & _ & _ & W & E2). rewrite E2 in E. destruct (payload_fault (nal_unit_type hd) st1 (adv (mk_bb rbsp) 16)); [discriminate|].
  injection E as <- <-. unfold unit_of, payload_of. cbn [nu_payload np_slice np_pps]. destruct (slice_nut (nal_unit_type hd)) eqn:Es; [right|left; reflexivity].
  unfold slice_nut in Es. replace (nal_unit_type hd =? 34) with false by lia. reflexivity.
Qed.
Lemma history_present opts st us st' : history opts st us st' -> forall pps_of, (forall k, st_pps st k = pps_of k) -> forall us1 u us2 h, us = us1 ++ u :: us2 -> np_slice (nu_payload u) = Some h ->
  fold_left next_pps us1 pps_of (slice_pic_parameter_set_id h) <> None.
Proof.
  induction 1 as [|st1 st2 us st3 (_ & _ & E) _ IH|st1 data u off len st2 us st3 D S E S2 _ IH]; intros f Ef us1 v us2 h Eu Eh.
  - destruct us1; discriminate.
  - apply (IH f) with (u := v) (us2 := us2); [intros k; rewrite <- Ef; symmetry; apply E|exact Eu|exact Eh].
  - destruct us1 as [|w us1]; cbn [app fold_left] in *.
    + injection Eu as <- <-. change (nu_payload (set_range off len u)) with (nu_payload u) in Eh.
      destruct (C23_needs_parameter_sets opts data st1 u st2 h D (store_state_ok _ S) E Eh) as (p & x & _ & _ & Ep & _). rewrite <- Ef, Ep. discriminate.
    + injection Eu as <- Eu. apply (IH (next_pps f (set_range off len u))) with (u := v) (us2 := us2); [|exact Eu|exact Eh].
      intros k. rewrite (hist_pps _ _ _ _ _ D S E). unfold next_pps. cbn [set_range nu_payload]. destruct (np_pps (nu_payload u)); [destruct (_ =? _); [reflexivity|]|]; apply Ef.
Qed.
Theorem C46_own_pps : forall data st bs st' l st'', byte_string data -> store_ok st -> ParseBitstream qp_options data st = Done (bs, st') ->
  keeps_init_qp (st_pps st) (bs_units bs) -> GetSliceQpY data st = Done (l, st'') -> l = own_qps (st_pps st) (bs_units bs) /\ st'' = st'.
Proof.
  intros data st bs st' l st'' D S E K G. pose proof (C46_values data st bs st' D S E) as V. rewrite G in V. destruct V as (-> & -> & _). split; [|reflexivity].
  pose proof D as [F L]. rewrite ParseBitstream_spec in E by lia.
  destruct (parse_all qp_options (map (payload data) (annexb_units data)) st) as [[us st1]|e] eqn:E1; [|discriminate]. injection E as <- <-. cbn [bs_units] in *.
  pose proof (placed_history _ _ _ D (annexb_in_bounds data ltac:(lia)) _ _ _ S E1) as Hi.
  rewrite <- (own_final _ (st_pps st) K (history_present _ _ _ _ Hi _ (fun k => eq_refl)) (history_no_both _ _ _ _ Hi)).
  pose proof (history_final _ _ _ _ Hi) as Fi. apply flat_map_ext. intros u. unfold unit_qp, slice_qp. destruct (np_slice (nu_payload u)); [|reflexivity]. rewrite Fi. reflexivity.
Qed.
(** No undefined behaviour if every init_qp_minus26 and slice_qp_delta is in the ranges of the standard (or much wider ones). *)
Theorem C46_safe : forall data st bs st', byte_string data -> store_ok st -> ParseBitstream qp_options data st = Done (bs, st') ->
  (forall u h p x, In u (bs_units bs) -> np_slice (nu_payload u) = Some h -> st_pps st' (slice_pic_parameter_set_id h) = Some (p, x) ->
     - 2 ^ 29 <= init_qp_minus26 p <= 2 ^ 29 /\ - 2 ^ 29 <= slice_qp_delta h <= 2 ^ 29) ->
  GetSliceQpY data st = Done (flat_map (unit_qp (st_pps st')) (bs_units bs), st').
Proof.
  intros data st bs st' D S E H. pose proof (C46_values data st bs st' D S E) as V. destruct (GetSliceQpY data st) as [[l s]|e].
  - destruct V as (-> & -> & _). reflexivity.
  - destruct V as [_ (u & h & I & Eh & C)]. exfalso. apply C. intros p x Ep. specialize (H _ _ _ _ I Eh Ep). lia.
Qed.
(** Refuted: the stream of C24_case has the slice, then a second PPS with the same id and another init_qp_minus26.  The slice's own PPS gives 10; the value
    returned is 21. *)
Theorem C46_own_pps_refuted : exists bs st, ParseBitstream qp_options (annexb_stream C24_nals) empty_state = Done (bs, st) /\
  own_qps (st_pps empty_state) (bs_units bs) = [10] /\
  match GetSliceQpY (annexb_stream C24_nals) empty_state with Done (l, _) => l = [21] | Bad _ => False end.
Proof. eexists _, _. split; [vm_compute; reflexivity|]. split; vm_compute; reflexivity. Qed.
(** Refuted: the sum of the largest values the parsers return is not an int32_t. *)
Definition C46_pps (init : Z) : pps :=
  mkPPS 3 0 0 0 0 0 0 0 0 init 0 0 0 0 0 0 0 0 0 0 0 0 0 0 0 [] [] 0 0 0 0 0 0 0 0 None 0 0 0 0 0 0 0 0 0 None None.
Definition C46_header (delta : Z) : slice_header :=
  mkSH 1 0 3 0 0 [] 2 0 0 200 1 None 0 0 0 [] 0 0 0 0 0 0 0 0 1 0 None 0 0 delta 0 0 0 0 0 0 0 0 0 0 0 0 [] 0 [] 0 0.
Definition C46_stream (init delta : Z) : list Z := annexb_stream
  [(true, C24_nal 33 (enc_sps false C31_sps)); (false, C24_nal 34 (enc_pps false (C46_pps init)));
   (false, C24_nal 1 (enc_slice false 1 C31_sps (C46_pps init) (C46_header delta)))].
Theorem C46_overflow_refuted : exists bs st, ParseBitstream qp_options (C46_stream (2 ^ 30 - 1) (2 ^ 30 - 1)) empty_state = Done (bs, st) /\
  own_qps (st_pps empty_state) (bs_units bs) = [2 ^ 31 + 24] /\ GetSliceQpY (C46_stream (2 ^ 30 - 1) (2 ^ 30 - 1)) empty_state = Bad SignedOverflow.
Proof. eexists _, _. split; [vm_compute; reflexivity|]. split; vm_compute; reflexivity. Qed.
(** A case of the hypotheses above. *)
Example C46_case : byte_string (C46_stream 5 (-3)) /\ store_ok empty_state /\
  exists bs st, ParseBitstream qp_options (C46_stream 5 (-3)) empty_state = Done (bs, st) /\ keeps_init_qp (st_pps empty_state) (bs_units bs) /\
  (forall u h p x, In u (bs_units bs) -> np_slice (nu_payload u) = Some h -> st_pps st (slice_pic_parameter_set_id h) = Some (p, x) ->
     - 2 ^ 29 <= init_qp_minus26 p <= 2 ^ 29 /\ - 2 ^ 29 <= slice_qp_delta h <= 2 ^ 29) /\
  own_qps (st_pps empty_state) (bs_units bs) = [28].
Proof.
  split; [|split; [apply empty_store_ok|]].
  { split; [|vm_compute; reflexivity]. apply Forall_forall. intros x I. assert (H : forallb (fun x => (0 <=? x) && (x <? 256)) (C46_stream 5 (-3)) = true) by (vm_compute; reflexivity).
    rewrite forallb_forall in H. specialize (H x I). unfold is_byte. lia. }
  eexists _, _. split; [vm_compute; reflexivity|]. cbn [bs_units]. split; [|split].
  - intros us1 u us2 h p x E Eh _ u' p' x' I Ep. exfalso.
    do 3 (destruct us1 as [|w us1]; [injection E as <- <-; (discriminate Eh || (repeat (destruct I as [<-|I]; [discriminate Ep|]); destruct I))|injection E as <- E]). destruct us1; discriminate E.
  - intros u h p x I E Ep. repeat (destruct I as [<-|I]; [first [discriminate E|injection E as <-; injection Ep as <- <-; vm_compute; repeat split; discriminate]|]). destruct I.
  - vm_compute. reflexivity.
Qed.

(** * RTP packets *)
(** The slice header a packet gives, if any: of its NAL unit, of the last NAL unit of an aggregation packet, of a first fragment. *)
Definition packet_slice (r : rtp) : option slice_header :=
  if nal_unit_type (rtp_header r) <=? 47 then match r_single r with Some s => np_slice (rs_payload s) | None => None end
  else if nal_unit_type (rtp_header r) =? 48 then match r_ap r with Some a => match rev (ra_units a) with u :: _ => np_slice (au_payload u) | [] => None end | None => None end
  else if nal_unit_type (rtp_header r) =? 49 then match r_fu r with Some f => match rf_payload f with Some p => np_slice p | None => None end | None => None end
  else None.
(** What ParseRtp guarantees about the parts of its result. *)
Definition rtp_shape (r : rtp) : Prop :=
  (nal_unit_type (rtp_header r) <= 47 -> r_ap r = None /\ r_fu r = None /\ exists s, r_single r = Some s /\ rs_header s = rtp_header r /\
     forall h, np_slice (rs_payload s) = Some h -> slice_nut (nal_unit_type (rs_header s)) = true) /\
  (nal_unit_type (rtp_header r) = 48 -> r_single r = None /\ r_fu r = None /\ exists a, r_ap r = Some a /\ ra_header a = rtp_header r /\
     forall u h, In u (ra_units a) -> np_slice (au_payload u) = Some h -> slice_nut (nal_unit_type (au_header u)) = true) /\
  (nal_unit_type (rtp_header r) = 49 -> r_single r = None /\ r_ap r = None /\ exists f, r_fu r = Some f /\ rf_header f = rtp_header r /\
     (s_bit f = 0 <-> rf_payload f = None) /\ forall p h, rf_payload f = Some p -> np_slice p = Some h -> slice_nut (fu_type f) = true) /\
  (49 < nal_unit_type (rtp_header r) -> r_single r = None /\ r_ap r = None /\ r_fu r = None).
Lemma payload_slice ty st b p st' b' h : ParseNalUnitPayload ty st b = Ok (Some p, st') b' -> np_slice p = Some h -> slice_nut ty = true.
Proof.
  rewrite payload_spec. destruct (payload_fault ty st b); [discriminate|]. intros E. injection E as <- _ _. unfold payload_of. cbn [np_slice]. destruct (slice_nut ty); [reflexivity|discriminate].
Qed.
Lemma ap_loop_slice : forall fuel st b us st' b', ap_loop fuel st b = Ok (Some us, st') b' ->
  forall u h, In u us -> np_slice (au_payload u) = Some h -> slice_nut (nal_unit_type (au_header u)) = true.
Proof.
  induction fuel as [|fuel IH]; intros st b us st' b' E u h I Eh; rewrite ap_loop_eq in E; destruct (negb (0 <? remaining b)); try discriminate E.
  - injection E as <- <- <-. destruct I.
  - injection E as <- <- <-. destruct I.
  - apply sbind_some in E. destruct E as (size & s1 & b1 & _ & E). apply sbind_some in E. destruct E as (r & s2 & b2 & _ & E).
    destruct (r <? u32 (size * 8)); [discriminate|]. apply sbind_some in E. destruct E as (hd & s3 & b3 & _ & E). apply sbind_some in E. destruct E as (p & s4 & b4 & Ep & E).
    apply sbind_some in E. destruct E as (us' & s5 & b5 & El & E). injection E as <- <- <-. destruct I as [<-|I]; [|exact (IH _ _ _ _ _ El u h I Eh)].
    cbn [au_payload au_header] in *. exact (payload_slice _ _ _ _ _ _ _ Ep Eh).
Qed.
Theorem C43_shape : forall data st r st', byte_string data -> ParseRtp data st = Done (Some r, st') -> rtp_shape r.
Proof.
  intros data st r st' D E. destruct (Unescape_byte_string data D) as (rbsp & Er & D'). destruct (C43_choice data rbsp st D Er) as [C1 C2].
  destruct (le_lt_dec 2 (length rbsp)) as [L|L]; [|rewrite C1 in E by exact L; discriminate]. destruct (C2 L) as (h & Hh & Fh & C). rewrite C in E. clear C C1 C2.
  pose proof D' as [F Lr]. pose proof (wf_mk _ F Lr) as W.
  destruct (header_at _ W) as (h' & Hh' & Fh' & Eh' & _). { change (rem (mk_bb rbsp)) with (bits_of rbsp). rewrite length_bits_of. lia. }
  assert (h' = h) as ->.
  { assert (R : rem (mk_bb rbsp) = enc_nal_header h ++ bits_of (skipn 2 rbsp)) by (change (rem (mk_bb rbsp)) with (bits_of rbsp); rewrite <- (firstn_skipn 2 rbsp) at 1; rewrite bits_of_app, Fh; reflexivity).
    pose proof (parses_nal_header h Hh _ _ W R) as P. rewrite Eh' in P. injection P as ->. reflexivity. }
  unfold rtp_shape. unfold ParseRtpSingle, ParseRtpAp, ParseRtpFu in E. rewrite !(on_data_st_eq _ _ _ _ D Er) in E.
  destruct (nal_unit_type h <=? 47) eqn:T1.
  { destruct (ParseRtpSingleBuffer st (mk_bb rbsp)) as [[[s|] s1] b1|b1|e] eqn:P; try discriminate E. injection E as <- <-. cbn [rtp_header r_ap r_fu r_single].
    split; [|split; [lia|split; lia]]. intros _. split; [reflexivity|]. split; [reflexivity|]. exists s. split; [reflexivity|].
    unfold ParseRtpSingleBuffer in P. rewrite (sbind_eq _ _ _ _ _ _ _ (lift_eq _ _ _ _ _ Eh')) in P. apply sbind_some in P. destruct P as (p & s2 & b2 & Ep & P). injection P as <- <- <-.
    split; [reflexivity|]. intros x Ex. exact (payload_slice _ _ _ _ _ _ _ Ep Ex). }
  destruct (Z.eqb_spec (nal_unit_type h) 48) as [T2|T2].
  { destruct (ParseRtpApBuffer st (mk_bb rbsp)) as [[[s|] s1] b1|b1|e] eqn:P; try discriminate E. injection E as <- <-. cbn [rtp_header r_ap r_fu r_single].
    split; [lia|split; [|split; lia]]. intros _. split; [reflexivity|]. split; [reflexivity|]. exists s. split; [reflexivity|].
    unfold ParseRtpApBuffer in P. rewrite (sbind_eq _ _ _ _ _ _ _ (lift_eq _ _ _ _ _ Eh')) in P. apply sbind_some in P. destruct P as (p & s2 & b2 & Ep & P). injection P as <- <- <-.
    split; [reflexivity|]. cbn [ra_units]. exact (ap_loop_slice _ _ _ _ _ _ Ep). }
  destruct (Z.eqb_spec (nal_unit_type h) 49) as [T3|T3].
  { destruct (ParseRtpFuBuffer st (mk_bb rbsp)) as [[[s|] s1] b1|b1|e] eqn:P; try discriminate E. injection E as <- <-. cbn [rtp_header r_ap r_fu r_single].
    split; [lia|split; [lia|split; [|lia]]]. intros _. split; [reflexivity|]. split; [reflexivity|]. exists s. split; [reflexivity|].
    unfold ParseRtpFuBuffer in P. rewrite (sbind_eq _ _ _ _ _ _ _ (lift_eq _ _ _ _ _ Eh')) in P. apply sbind_some in P. destruct P as (sb & s2 & b2 & _ & P).
    apply sbind_some in P. destruct P as (eb & s3 & b3 & _ & P). apply sbind_some in P. destruct P as (ty & s4 & b4 & _ & P). destruct (Z.eqb_spec sb 0) as [->|N].
    - injection P as <- <- <-. split; [reflexivity|]. split; [cbn; tauto|]. discriminate.
    - apply sbind_some in P. destruct P as (p & s5 & b5 & Ep & P). injection P as <- <- <-. split; [reflexivity|]. split; [cbn; split; [contradiction|discriminate]|].
      cbn [rf_payload fu_type]. intros p' x E Ex. injection E as <-. exact (payload_slice _ _ _ _ _ _ _ Ep Ex). }
  injection E as <- <-. cbn [rtp_header r_ap r_fu r_single]. split; [lia|]. split; [lia|]. split; [lia|]. auto.
Qed.
(** GetSliceQpY of a packet ParseRtp returned, with any state: the value of its slice header and the stored PPS with its id; nothing without
    slice header or PPS.  Undefined behaviour: the sum overflows, or the packet is an aggregation packet without NAL units. *)
Theorem C46_rtp : forall data st0 r st1 st, byte_string data -> ParseRtp data st0 = Done (Some r, st1) ->
  match GetSliceQpYRtp r st with
  | Done o => (match o with Some q => [q] | None => [] end) = (match packet_slice r with Some h => slice_qp (st_pps st) h | None => [] end)
  | Bad e => (e = SignedOverflow /\ exists h, packet_slice r = Some h /\ ~ qp_ok (st_pps st) h) \/
             (e = OutOfBounds /\ exists a, r_ap r = Some a /\ ra_units a = [])
  end.
Proof.
  intros data st0 r st1 st D E. destruct (C43_shape _ _ _ _ D E) as (H1 & H2 & H3 & H4). unfold GetSliceQpYRtp, packet_slice, AP, FU.
  assert (G : forall ty p, (forall h, np_slice p = Some h -> slice_nut ty = true) -> match GetSliceQpYInternal ty p st with
    | Done o => (match o with Some q => [q] | None => [] end) = (match np_slice p with Some h => slice_qp (st_pps st) h | None => [] end)
    | Bad e => (e = SignedOverflow /\ exists h, np_slice p = Some h /\ ~ qp_ok (st_pps st) h) \/ (e = OutOfBounds /\ exists a, r_ap r = Some a /\ ra_units a = [])
    end).
  { intros ty p H. pose proof (internal_spec ty p st H) as I. destruct (GetSliceQpYInternal ty p st); [apply I|left; exact I]. }
  destruct (nal_unit_type (rtp_header r) <=? 47) eqn:T1.
  { destruct (H1 ltac:(lia)) as (_ & _ & s & -> & _ & Hs). apply G, Hs. }
  destruct (Z.eqb_spec (nal_unit_type (rtp_header r)) 48) as [T2|T2].
  { destruct (H2 T2) as (_ & _ & a & Ea & _ & Hs). rewrite Ea in G |- *. destruct (rev (ra_units a)) as [|u l] eqn:Eu.
    - right. split; [reflexivity|]. exists a. split; [reflexivity|]. apply (f_equal (@rev _)) in Eu. rewrite rev_involutive in Eu. exact Eu.
    - apply (G (nal_unit_type (au_header u)) (au_payload u)). intros h. apply Hs. apply in_rev. rewrite Eu. left. reflexivity. }
  destruct (Z.eqb_spec (nal_unit_type (rtp_header r)) 49) as [T3|T3]; [|reflexivity].
  destruct (H3 T3) as (_ & _ & f & -> & _ & Hp & Hs). destruct (Z.eqb_spec (s_bit f) 0) as [Z0|Z0].
  - rewrite (proj1 Hp Z0). reflexivity.
  - destruct (rf_payload f) as [p|] eqn:Ep; [|reflexivity]. apply G. intros h. apply Hs. reflexivity.
Qed.
Theorem C46_empty_packet_refuted : exists r st, ParseRtp [0x60; 1] empty_state = Done (Some r, st) /\ GetSliceQpYRtp r st = Bad OutOfBounds.
Proof. eexists _, _. split; [vm_compute; reflexivity|]. vm_compute. reflexivity. Qed.
(** In an aggregation packet only the last NAL unit is looked at: see [packet_slice]. *)

(** * Safety of the RTP parsers *)
Lemma ssafe_data {A} (m : SM A) data rbsp st : byte_string data -> store_ok st -> UnescapeRbsp data = Done rbsp ->
  (forall N, ssafe N (zrun 24) m) ->
  match on_data_st m data st with
  | Done (_, st') => store_ok st' /\ (pocs_ok st -> pocs_ok st' \/ zrun 24 (bits_of rbsp))
  | Bad e => e = SignedOverflow /\ (pocs_ok st -> zrun 24 (bits_of rbsp))
  end.
Proof.
  intros D S E H. rewrite (on_data_st_eq _ _ _ _ D E). pose proof (unesc_bytes _ _ D E) as [F L].
  specialize (H _ st (mk_bb rbsp) (wf_mk _ F L) S (le_n _)). change (rem (mk_bb rbsp)) with (bits_of rbsp) in H.
  destruct (m st (mk_bb rbsp)) as [[o s1] b1|b1|e]; [|destruct H|exact H]. tauto.
Qed.
(** From any state reached by parsing (store_ok; see C22_invariant), for any packet: the state stays of this kind; the only undefined behaviour is signed overflow, and
    with reference picture sets within limits only in packets with 24 zero bits in a row. *)
Theorem C43_safe : forall data rbsp st, byte_string data -> store_ok st -> UnescapeRbsp data = Done rbsp ->
  match ParseRtp data st with
  | Done (_, st') => store_ok st' /\ (pocs_ok st -> pocs_ok st' \/ zrun 24 (bits_of rbsp))
  | Bad e => e = SignedOverflow /\ (pocs_ok st -> zrun 24 (bits_of rbsp))
  end.
Proof.
  intros data rbsp st D S E. destruct (C43_choice data rbsp st D E) as [C1 C2].
  destruct (le_lt_dec 2 (length rbsp)) as [L|L]; [|rewrite C1 by exact L; auto]. destruct (C2 L) as (h & _ & _ & ->).
  assert (G : forall A (f : A -> rtp) (m : SM A), (forall N, ssafe N (zrun 24) m) -> match as_rtp f (on_data_st m data st) with
    | Done (_, st') => store_ok st' /\ (pocs_ok st -> pocs_ok st' \/ zrun 24 (bits_of rbsp))
    | Bad e => e = SignedOverflow /\ (pocs_ok st -> zrun 24 (bits_of rbsp)) end).
  { intros A f m H. pose proof (ssafe_data m data rbsp st D S E H) as Q. destruct (on_data_st m data st) as [[[a|] s1]|e]; exact Q. }
  destruct (nal_unit_type h <=? 47); [apply G; intros N; apply ssafe_single|].
  destruct (nal_unit_type h =? 48); [apply G; intros N; apply ssafe_ap|].
  destruct (nal_unit_type h =? 49); [apply G; intros N; apply ssafe_fu|]. auto.
Qed.
Theorem C44_safe : forall data rbsp st, byte_string data -> store_ok st -> UnescapeRbsp data = Done rbsp ->
  match ParseRtpAp data st with
  | Done (_, st') => store_ok st' /\ (pocs_ok st -> pocs_ok st' \/ zrun 24 (bits_of rbsp))
  | Bad e => e = SignedOverflow /\ (pocs_ok st -> zrun 24 (bits_of rbsp))
  end.
Proof. intros. apply ssafe_data; try assumption. intros N. apply ssafe_ap. Qed.
Theorem C45_safe : forall data rbsp st, byte_string data -> store_ok st -> UnescapeRbsp data = Done rbsp ->
  match ParseRtpFu data st with
  | Done (_, st') => store_ok st' /\ (pocs_ok st -> pocs_ok st' \/ zrun 24 (bits_of rbsp))
  | Bad e => e = SignedOverflow /\ (pocs_ok st -> zrun 24 (bits_of rbsp))
  end.
Proof. intros. apply ssafe_data; try assumption. intros N. apply ssafe_fu. Qed.

(** * C44: what aggregation packets give *)
(** Whatever is accepted, all bits of the (unescaped) packet are the header, and per unit: its 16-bit size, its header and the bits [seg] its
    payload parser consumed -- whether or not [seg] has the announced size, so this is the layout without the boundaries. *)
Lemma lift_some {A} (m : M A) st b a st' b' : lift m st b = Ok (Some a, st') b' -> m b = Ok a b' /\ st' = st.
Proof. unfold lift, bind, attempt. destruct (m b) as [x b1|b1|e]; cbn; intros E; try discriminate. injection E as <- <- <-. auto. Qed.
Definition ap_bits (u : ap_unit) (seg : list bool) : list bool := enc_u 16 (au_size u) ++ enc_nal_header (au_header u) ++ seg.
Lemma ap_loop_layout : forall fuel st b us st' b', wf b -> store_ok st -> ap_loop fuel st b = Ok (Some us, st') b' ->
  exists segs, length segs = length us /\ rem b = concat (map (fun p => ap_bits (fst p) (snd p)) (combine us segs)) /\ Forall (fun u => u_ok 16 (au_size u) /\ nal_header_ok (au_header u)) us.
Proof.
  induction fuel as [|fuel IH]; intros st b us st' b' W S E; rewrite ap_loop_eq in E; rewrite remaining_spec in E by exact W.
  - destruct (0 <? Z.of_nat (length (rem b))) eqn:N; [discriminate E|]. injection E as <- <- <-. exists []. split; [reflexivity|]. split; [|constructor].
    destruct (rem b); [reflexivity|cbn in N; lia].
  - destruct (0 <? Z.of_nat (length (rem b))) eqn:N.
    2:{ injection E as <- <- <-. exists []. split; [reflexivity|]. split; [|constructor]. destruct (rem b); [reflexivity|cbn in N; lia]. }
    cbn [negb] in E. apply sbind_some in E. destruct E as (size & s1 & b1 & E1 & E). apply lift_some in E1. destruct E1 as [E1 ->].
    pose proof (wp_u_ok 16 ltac:(lia) b W) as H1. rewrite E1 in H1. destruct H1 as (l1 & T1 & U1 & ->). pose proof (steps_wf _ _ _ W T1) as W1.
    apply sbind_some in E. destruct E as (r & s2 & b2 & E2 & E). apply lift_some in E2. destruct E2 as [E2 ->]. injection E2 as <- <-.
    destruct (remaining b1 <? u32 (size * 8)); [discriminate|]. apply sbind_some in E. destruct E as (hd & s3 & b3 & E3 & E). apply lift_some in E3. destruct E3 as [E3 ->].
    pose proof (wp_nal_header b1 W1) as H3. rewrite E3 in H3. destruct H3 as (l3 & T3 & U3 & ->). pose proof (steps_wf _ _ _ W1 T3) as W3.
    apply sbind_some in E. destruct E as (p & s4 & b4 & E4 & E).
    pose proof (ssafe_payload (length (rem b3)) (nal_unit_type hd) st b3 W3 S (le_n _)) as H4. rewrite E4 in H4. destruct H4 as ((seg & T4) & S4 & _). pose proof (steps_wf _ _ _ W3 T4) as W4.
    apply sbind_some in E. destruct E as (us' & s5 & b5 & E5 & E). injection E as <- <- <-. destruct (IH _ _ _ _ _ W4 S4 E5) as (segs & L & R & F).
    exists (seg :: segs). split; [cbn; lia|]. split; [|constructor; [auto|exact F]]. cbn [combine map concat fst snd]. unfold ap_bits at 1. cbn [au_size au_header].
    destruct T1 as [T1 _], T3 as [T3 _], T4 as [T4 _]. rewrite T1, T3, T4, R, <- !app_assoc. reflexivity.
Qed.
Theorem C44_layout : forall data rbsp st r st', byte_string data -> store_ok st -> UnescapeRbsp data = Done rbsp -> ParseRtpAp data st = Done (Some r, st') ->
  nal_header_ok (ra_header r) /\ Forall (fun u => u_ok 16 (au_size u) /\ nal_header_ok (au_header u)) (ra_units r) /\
  exists segs, length segs = length (ra_units r) /\
    bits_of rbsp = enc_nal_header (ra_header r) ++ concat (map (fun p => enc_u 16 (au_size (fst p)) ++ enc_nal_header (au_header (fst p)) ++ snd p) (combine (ra_units r) segs)).
Proof.
  intros data rbsp st r st' D S E P. unfold ParseRtpAp in P. rewrite (on_data_st_eq _ _ _ _ D E) in P. pose proof (unesc_bytes _ _ D E) as [F L]. pose proof (wf_mk _ F L) as W.
  destruct (ParseRtpApBuffer st (mk_bb rbsp)) as [[o s1] b1|b1|e] eqn:Q; try discriminate P. injection P as -> <-.
  unfold ParseRtpApBuffer in Q. apply sbind_some in Q. destruct Q as (h & s2 & b2 & E2 & Q). apply lift_some in E2. destruct E2 as [E2 ->].
  pose proof (wp_nal_header _ W) as H2. rewrite E2 in H2. destruct H2 as (l2 & T2 & U2 & ->). pose proof (steps_wf _ _ _ W T2) as W2.
  apply sbind_some in Q. destruct Q as (us & s3 & b3 & E3 & Q). injection Q as <- <- <-. destruct (ap_loop_layout _ _ _ _ _ _ W2 S E3) as (segs & Ls & R & Fu).
  cbn [ra_header ra_units]. split; [exact U2|]. split; [exact Fu|]. exists segs. split; [exact Ls|]. destruct T2 as [T2 _]. change (bits_of rbsp) with (rem (mk_bb rbsp)). rewrite T2, R. reflexivity.
Qed.
(** Refuted: each of these NAL units parses alone; the packet that aggregates them does not.
    1: a slice (its parser stops behind the slice header);  2: an SPS with emulation prevention bytes (they count in the announced size). *)
Definition C44_aud : list Z := [0x46; 1; 0x50].
Definition C44_slice : list Z := C24_nal 1 (enc_slice false 1 C31_sps C37_pps C37_header).
Definition C44_sps : list Z := C24_nal 33 (enc_sps false C31_sps).
Theorem C44_slice_refuted :
  (exists u st, ParseNalUnit default_options C44_slice C37_state = Done (Some u, st) /\ np_slice (nu_payload u) = Some C37_header) /\
  (exists st, ParseRtpAp ([0x60; 1] ++ framed 2 [C44_slice; C44_aud]) C37_state = Done (None, st)).
Proof. split; [eexists _, _; split; [vm_compute; reflexivity|vm_compute; reflexivity]|eexists; vm_compute; reflexivity]. Qed.
Theorem C44_escaped_refuted :
  (exists u st, ParseNalUnit default_options C44_sps empty_state = Done (Some u, st) /\ np_sps (nu_payload u) = Some (C31_sps, 0)) /\
  (exists st, ParseRtpAp ([0x60; 1] ++ framed 2 [C44_aud; C44_sps]) empty_state = Done (None, st)).
Proof. split; [eexists _, _; split; [vm_compute; reflexivity|vm_compute; reflexivity]|eexists; vm_compute; reflexivity]. Qed.
Lemma agg_cons' st nal nals n h body p st1 us st2 : n = Z.of_nat (length nal) -> Forall is_byte nal -> Z.of_nat (length nal) < 2 ^ 16 -> nal_header_ok h ->
  bits_of nal = enc_nal_header h ++ body -> self_delimiting (nal_unit_type h) st body p st1 -> aggregated st1 nals us st2 -> aggregated st (nal :: nals) (mkAU n h p :: us) st2.
Proof. intros ->. apply agg_cons. Qed.
(** A case of [C44_split]: access unit delimiter, PPS, end of sequence. *)
Definition C44_packet : list (list Z) := [C44_aud; C24_nal 34 (enc_pps false (C46_pps 0)); [0x4a; 1]].
Example C44_case : byte_string ([0x60; 1] ++ framed 2 C44_packet) /\ UnescapeRbsp ([0x60; 1] ++ framed 2 C44_packet) = Done ([0x60; 1] ++ framed 2 C44_packet) /\
  bits_of [0x60; 1] = enc_nal_header (mkNH 0 48 0 1) /\
  aggregated empty_state C44_packet
    [mkAU 3 (mkNH 0 35 0 1) (mkNP None None None (Some 2) None None);
     mkAU 7 (mkNH 0 34 0 1) (mkNP None None (Some (C46_pps 0, 0)) None None None);
     mkAU 2 (mkNH 0 37 0 1) empty_payload] (store_pps (Some (C46_pps 0, 0)) empty_state).
Proof.
  assert (Bt : forall l, forallb (fun x => (0 <=? x) && (x <? 256)) l = true -> Forall is_byte l).
  { intros l H. apply Forall_forall. intros x I. rewrite forallb_forall in H. specialize (H x I). unfold is_byte. lia. }
  split; [split; [apply Bt; vm_compute; reflexivity|vm_compute; reflexivity]|]. split; [vm_compute; reflexivity|]. split; [vm_compute; reflexivity|].
  unfold C44_packet. eapply (agg_cons' _ _ _ _ (mkNH 0 35 0 1) (enc_u 3 2 ++ true :: repeat false 4)).
  { vm_compute. reflexivity. } { apply Bt. reflexivity. } { vm_compute. reflexivity. } { repeat split; vm_compute; (reflexivity || discriminate). } { vm_compute. reflexivity. }
  { apply (C44_units empty_state (true :: repeat false 4) 4); [lia|]. repeat split. lia. }
  eapply (agg_cons' _ _ _ _ (mkNH 0 34 0 1) (enc_pps false (C46_pps 0) ++ true :: repeat false 5)).
  { vm_compute. reflexivity. } { apply Bt. vm_compute. reflexivity. } { vm_compute. reflexivity. } { repeat split; vm_compute; (reflexivity || discriminate). } { vm_compute. reflexivity. }
  { apply (C44_units empty_state (true :: repeat false 5) 5); [|reflexivity|repeat split; lia]. unfold pps_ok_in. unfold C46_pps. solve_ok. }
  eapply (agg_cons' _ _ _ _ (mkNH 0 37 0 1) []).
  { vm_compute. reflexivity. } { apply Bt. reflexivity. } { vm_compute. reflexivity. } { repeat split; vm_compute; (reflexivity || discriminate). } { vm_compute. reflexivity. }
  { apply (C44_units _ [] 0%nat); try reflexivity; cbn; lia. }
  constructor.
Qed.

(** * Cases for C42, C43 *)
Definition C42_header : hvcc_header := mkHH 0 1 2 (repeat 1 32) 0x900000000000 93 5 2 1 2 3 25 1 4 1 3 2.
Definition C42_arrays : list box_array := [mkBA 1 33 [C44_sps]; mkBA 0 34 [C24_nal 34 (enc_pps false (C46_pps 0)); [0x44]]].
Example C42_case : box_ok C42_header C42_arrays /\ exists data, byte_string data /\ bits_of data = enc_box C42_header C42_arrays ++ [] /\
  exists box st, ParseConfigurationBox default_options data empty_state = Done (Some box, st) /\ hv_header box = C42_header /\
  map (fun x => (fst x, match snd x with Some u => nal_unit_type (nu_header u) | None => -1 end)) (flat_map nalus (hv_arrays box)) = [(230, 33); (7, 34); (1, -1)] /\
  st_sps st 0 = Some (C31_sps, 0) /\ st_pps st 3 = Some (C46_pps 0, 0).
Proof.
  assert (Bt : forall l, forallb (fun x => (0 <=? x) && (x <? 256)) l = true -> Forall is_byte l).
  { intros l H. apply Forall_forall. intros x I. rewrite forallb_forall in H. specialize (H x I). unfold is_byte. lia. }
  split.
  - unfold box_ok, hvcc_header_ok, C42_header. split; [solve_ok|]. split; [reflexivity|]. unfold C42_arrays, box_array_ok, box_nal_ok.
    assert (N : forall x, forallb (fun x => (0 <=? x) && (x <? 256)) x = true -> (Z.of_nat (length x) <? 2 ^ 16) = true -> Forall is_byte x /\ Z.of_nat (length x) < 2 ^ 16) by (intros x H1 H2; split; [apply Bt, H1|lia]).
    constructor; [|constructor; [|constructor]]; cbn [ba_completeness ba_type ba_nals]; (split; [unfold u_ok; lia|]); (split; [unfold u_ok; lia|]); (split; [vm_compute; reflexivity|]).
    + constructor; [apply N; vm_compute; reflexivity|constructor].
    + constructor; [apply N; vm_compute; reflexivity|]. constructor; [apply N; vm_compute; reflexivity|constructor].
  - exists (pack (enc_box C42_header C42_arrays)). split; [split; [apply Bt; vm_compute; reflexivity|vm_compute; reflexivity]|]. split; [vm_compute; reflexivity|].
    eexists _, _. split; [vm_compute; reflexivity|]. split; [vm_compute; reflexivity|]. split; [vm_compute; reflexivity|]. split; vm_compute; reflexivity.
Qed.
Example C43_case : exists r st, ParseRtp C44_slice C37_state = Done (Some r, st) /\ option_map (fun s => np_slice (rs_payload s)) (r_single r) = Some (Some C37_header) /\
  r_ap r = None /\ r_fu r = None /\ GetSliceQpYRtp r st = Done (Some 10).
Proof. eexists _, _. split; [vm_compute; reflexivity|]. split; [vm_compute; reflexivity|]. split; [reflexivity|]. split; [reflexivity|]. vm_compute. reflexivity. Qed.
