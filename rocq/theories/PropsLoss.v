(** C87: loss and damage.  What a receiver finds that joins a stream late, or that gets some units damaged. *)
From Coq Require Import ZArith List Bool Lia ZifyBool ZifyNat.
From Verif Require Import MBase MBitBuffer Spec BitsFacts Reader ReaderFacts Rules Syntax SyntaxSe MCommon CommonFacts PropsCommon MFraming FramingFacts PropsFraming MSyntaxA SpecA FactsA MSps SpecSps FactsSps PropsSps
  MPps SpecPps FactsPps MSlice SpecSlice FactsSlice PropsSlice MNal FactsNal PropsNal Api PropsRel.
Import ListNotations.
Open Scope Z_scope.

(** The parameter set with this id that was sent last among these units. *)
Definition sent_pps (us : list (option nal_unit)) (id : Z) : option (pps * Z) := latest np_pps (fun v => pps_pic_parameter_set_id (fst v)) id us None.
Definition sent_sps (us : list (option nal_unit)) (id : Z) : option (sps * Z) := latest np_sps (fun v => sps_seq_parameter_set_id (fst v)) id us None.
(** The sets a slice header refers to are among these units. *)
Definition sets_among (us : list (option nal_unit)) (h : slice_header) : Prop :=
  exists p x s y, sent_pps us (slice_pic_parameter_set_id h) = Some (p, x) /\ sent_sps us (pps_seq_parameter_set_id p) = Some (s, y).
Definition coded_slice (ty : Z) : Prop := 0 <= ty <= 9 \/ 16 <= ty <= 21.

(** * Stores with fewer entries *)
Definition less (s' s : state) : Prop := forall k, (st_sps s' k = None \/ st_sps s' k = st_sps s k) /\ (st_pps s' k = None \/ st_pps s' k = st_pps s k).
Lemma less_empty s : less empty_state s.
Proof. intros k. split; left; reflexivity. Qed.
Lemma less_same s s' t t' : less s' s -> same_state s t -> same_state s' t' -> less t' t.
Proof. intros H (_ & A2 & A3) (_ & B2 & B3) k. rewrite <- A2, <- A3, <- B2, <- B3. apply H. Qed.
Lemma stored_less p s' s : less s' s -> less (stored p s') (stored p s).
Proof.
  intros H k. destruct (H k) as [H1 H2]. unfold stored. cbn [st_sps st_pps]. split.
  - destruct (np_sps p) as [v|]; [destruct (k =? sps_seq_parameter_set_id (fst v)); auto | exact H1].
  - destruct (np_pps p) as [v|]; [destruct (k =? pps_pic_parameter_set_id (fst v)); auto | exact H2].
Qed.
Lemma slice_less nut s' s b : less s' s -> ParseSliceSegmentHeader nut s' b = ParseSliceSegmentHeader nut s b \/ exists b', ParseSliceSegmentHeader nut s' b = Fail b'.
Proof.
  intros H. unfold ParseSliceSegmentHeader, bind. destruct (ReadBits 1 b) as [f b1|b1|e]; [|left; reflexivity|left; reflexivity].
  destruct (when (irap_type nut) (ReadBits 1) 0 b1) as [x b2|b2|e]; [|left; reflexivity|left; reflexivity].
  destruct (ReadExponentialGolomb b2) as [pid b3|b3|e]; [|left; reflexivity|left; reflexivity].
  destruct (H pid) as [_ [E|E]]; rewrite E; [right; eexists; reflexivity|]. destruct (st_pps s pid) as [[p y]|]; [|left; reflexivity].
  destruct (H (pps_seq_parameter_set_id p)) as [[E'|E'] _]; rewrite E'; [right; eexists; reflexivity | left; reflexivity].
Qed.
(** The result of one call with fewer sets: the same, or a slice that is refused. *)
Definition same_or_refused (d : list Z) (r r' : option nal_unit) : Prop :=
  r' = r \/ exists u u', r = Some u /\ r' = Some u' /\ coded_slice (unit_type d) /\ nu_header u' = nu_header u /\ nu_checksum u' = nu_checksum u /\ nu_payload u' = empty_payload.
Lemma unit_less opts d s' s r t : byte_string d -> store_ok s' -> store_ok s -> less s' s -> ParseNalUnit opts d s = Done (r, t) ->
  exists r' t', ParseNalUnit opts d s' = Done (r', t') /\ less t' t /\ same_or_refused d r r'.
Proof.
  intros D S' S H E. destruct (nal_cases opts d s D (store_state_ok _ S)) as [N|(rbsp & h & _ & _ & _ & T & W & R & G)].
  { rewrite N in E. assert (r = None /\ t = s) as [-> ->] by (split; congruence). exists None, s'. split; [apply N|]. split; [exact H | left; reflexivity]. }
  rewrite R in E. pose proof (G opts s' (store_state_ok _ S')) as E'. set (b := adv (mk_bb rbsp) 16) in *.
  destruct (payload_fault (unit_type d) s b) eqn:F; [discriminate E|].
  assert (r = Some (unit_of opts rbsp h s) /\ t = stored' (payload_of (unit_type d) s b) s) as [-> ->] by (split; congruence). clear E R G.
  assert (L : forall p, less (stored' p s') (stored' p s)).
  { intros p. eapply less_same; [apply (stored_less p), H | |]; apply same_sym, stored_eq. }
  assert (L2 : forall p q, np_sps p = None -> np_pps p = None -> np_sps q = None -> np_pps q = None -> less (stored' p s') (stored' q s)).
  { intros p q p1 p2 q1 q2. eapply less_same; [|apply same_sym, stored_eq | apply same_sym, stored_eq]. intros k. unfold stored. cbn [st_sps st_pps]. rewrite p1, p2, q1, q2. apply H. }
  unfold payload_fault in F, E'. unfold unit_of, payload_stop. unfold payload_of in *. fold b. rewrite T. destruct (slice_nut (unit_type d)) eqn:N.
  2:{ rewrite F in E'. eexists. eexists. split; [exact E'|]. split; [apply L|]. left. unfold unit_of, payload_stop, payload_of. fold b. rewrite T, N. reflexivity. }
  assert (Q : (unit_type d =? 32) = false /\ (unit_type d =? 33) = false /\ (unit_type d =? 34) = false /\ (unit_type d =? 35) = false /\ ((unit_type d =? 39) || (unit_type d =? 40)) = false) by (unfold slice_nut in N; lia).
  destruct Q as (Q1 & Q2 & Q3 & Q4 & Q5). destruct (slice_less (unit_type d) s' s b H) as [K|[b' K]].
  - unfold fault, result in *. rewrite K in E'. rewrite F in E'. eexists. eexists. split; [exact E'|]. split; [apply L2; cbn [np_sps np_pps]; rewrite ?Q2, ?Q3; reflexivity|].
    left. unfold unit_of, payload_stop, payload_of, result, stop. fold b. rewrite T, N, K. reflexivity.
  - unfold fault, result in *. rewrite K in E'. eexists. eexists. split; [exact E'|]. split; [apply L2; cbn [np_sps np_pps]; rewrite ?Q2, ?Q3; reflexivity|].
    right. eexists. eexists. split; [reflexivity|]. split; [reflexivity|]. split; [unfold coded_slice, slice_nut in *; lia|]. unfold unit_of, payload_of, result. fold b. rewrite T, N, K. cbn [nu_header nu_checksum nu_payload].
    split; [reflexivity|]. split; [reflexivity|]. rewrite Q1, Q2, Q3, Q4, Q5. reflexivity.
Qed.
(** A slice header has the id of the PPS it was read with. *)
Definition yields {A} (m : M A) (P : A -> Prop) : Prop := forall b a b', m b = Ok a b' -> P a.
Lemma yields_bind {A B} (m : M A) (f : A -> M B) P : (forall a, yields (f a) P) -> yields (bind m f) P.
Proof. intros H b a b' E. unfold bind in E. destruct (m b) as [x b1|b1|e]; try discriminate E. exact (H x _ _ _ E). Qed.
Lemma slice_rest_pid nut s p first noout pid : yields (slice_rest nut s p first noout pid) (fun h => slice_pic_parameter_set_id h = pid).
Proof. unfold slice_rest. repeat (apply yields_bind; intros ?). intros bb0 hh bb1 E. unfold ret in E. injection E as <- _. reflexivity. Qed.
Lemma slice_with nut s s' b h b' p x y : ParseSliceSegmentHeader nut s b = Ok h b' ->
  st_pps s (slice_pic_parameter_set_id h) = Some (p, x) -> st_sps s (pps_seq_parameter_set_id p) = Some y ->
  st_pps s' (slice_pic_parameter_set_id h) = Some (p, x) -> st_sps s' (pps_seq_parameter_set_id p) = Some y ->
  ParseSliceSegmentHeader nut s' b = ParseSliceSegmentHeader nut s b.
Proof.
  intros E P1 P2 P3 P4. rewrite E. revert E. unfold ParseSliceSegmentHeader, bind. destruct (ReadBits 1 b) as [f b1|b1|e]; [|discriminate|discriminate].
  destruct (when (irap_type nut) (ReadBits 1) 0 b1) as [z b2|b2|e]; [|discriminate|discriminate].
  destruct (ReadExponentialGolomb b2) as [pid b3|b3|e]; [|discriminate|discriminate]. intros E.
  assert (slice_pic_parameter_set_id h = pid) as <-.
  { destruct (st_pps s pid) as [[p0 y0]|]; [|discriminate E]. destruct (st_sps s (pps_seq_parameter_set_id p0)) as [[s0 y1]|]; [|discriminate E]. eapply slice_rest_pid, E. }
  rewrite P1, P2 in E. rewrite P3, P4. exact E.
Qed.
(** A slice header that is returned with one store is returned with every other one that has the same two sets. *)
Lemma unit_same opts d s' s u t : byte_string d -> store_ok s' -> store_ok s -> ParseNalUnit opts d s = Done (Some u, t) ->
  (coded_slice (unit_type d) -> exists h p x y, np_slice (nu_payload u) = Some h /\ st_pps s (slice_pic_parameter_set_id h) = Some (p, x) /\ st_sps s (pps_seq_parameter_set_id p) = Some y /\
     st_pps s' (slice_pic_parameter_set_id h) = Some (p, x) /\ st_sps s' (pps_seq_parameter_set_id p) = Some y) ->
  exists t', ParseNalUnit opts d s' = Done (Some u, t').
Proof.
  intros D S' S E A. destruct (nal_cases opts d s D (store_state_ok _ S)) as [N|(rbsp & h & _ & _ & _ & T & W & R & G)]; [rewrite N in E; discriminate E|].
  rewrite R in E. pose proof (G opts s' (store_state_ok _ S')) as E'. set (b := adv (mk_bb rbsp) 16) in *.
  destruct (payload_fault (unit_type d) s b) eqn:F; [discriminate E|]. assert (u = unit_of opts rbsp h s) as -> by congruence. clear E R G.
  unfold payload_fault in F, E'. unfold unit_of in *. rewrite T in *. unfold payload_stop, payload_of in *. fold b in A, E' |- *. destruct (slice_nut (unit_type d)) eqn:N; [|rewrite F in E'; eexists; exact E'].
  destruct (A ltac:(unfold coded_slice, slice_nut in *; lia)) as (sh & p & x & y & Hh & P1 & P2 & P3 & P4). clear A. cbn [nu_payload np_slice] in Hh.
  assert (K : ParseSliceSegmentHeader (unit_type d) s' b = ParseSliceSegmentHeader (unit_type d) s b).
  { unfold result in Hh. destruct (ParseSliceSegmentHeader (unit_type d) s b) as [sh0 b0|b0|e] eqn:Es; try discriminate Hh. assert (sh0 = sh) as -> by congruence.
    rewrite <- Es. exact (slice_with _ _ _ _ _ _ _ _ _ Es P1 P2 P3 P4). }
  unfold fault, result, stop in *. rewrite K in E'. rewrite F in E'. eexists. exact E'.
Qed.

(** * Histories *)
Lemma latest_step {A} (get : nal_payload -> option A) id k us init o : latest get id k (us ++ [o]) init =
  match o with Some u => match get (nu_payload u) with Some v => if k =? id v then Some v else latest get id k us init | None => latest get id k us init end | None => latest get id k us init end.
Proof. unfold latest. rewrite fold_left_app. reflexivity. Qed.
(** What the store holds if all of [us] has been sent since the store was [s0]: the sets sent, and otherwise the entries of [s0]. *)
Definition holds (s0 : state) (us : list (option nal_unit)) (s : state) : Prop := forall k,
  st_sps s k = (match sent_sps us k with Some v => Some v | None => st_sps s0 k end) /\ st_pps s k = (match sent_pps us k with Some v => Some v | None => st_pps s0 k end).
Lemma latest_init {A} (get : nal_payload -> option A) id k us init : latest get id k us init = match latest get id k us None with Some v => Some v | None => init end.
Proof.
  induction us as [|o us IH] using rev_ind; [reflexivity|]. rewrite !latest_step. rewrite IH. destruct o as [u|]; [|reflexivity]. destruct (get (nu_payload u)) as [v|]; [|reflexivity]. destruct (k =? id v); reflexivity.
Qed.
Lemma history_holds opts ds st us st' : Forall byte_string ds -> store_ok st -> parse_all opts ds st = Done (us, st') -> holds st us st'.
Proof.
  intros F S E k. destruct (C22_history _ _ _ _ _ F S E) as (_ & _ & H). destruct (H k) as (_ & H2 & H3). rewrite H2, H3. unfold sent_sps, sent_pps. rewrite <- !latest_init. split; reflexivity.
Qed.
Lemma parse_all_prefix opts ds k d : nth_error ds k = Some d -> forall st us st', parse_all opts ds st = Done (us, st') ->
  exists s r t, parse_all opts (firstn k ds) st = Done (firstn k us, s) /\ ParseNalUnit opts d s = Done (r, t) /\ nth_error us k = Some r.
Proof.
  revert ds. induction k as [|k IH]; intros [|d0 ds] E st us st' P; try discriminate E; cbn [parse_all] in P; destruct (ParseNalUnit opts d0 st) as [[r0 s0]|e] eqn:E0; try discriminate P;
    destruct (parse_all opts ds s0) as [[us0 s1]|e] eqn:E1; try discriminate P; assert (us = r0 :: us0) as -> by congruence; clear P.
  - cbn [nth_error] in E. assert (d0 = d) as -> by congruence. exists st, r0, s0. cbn [firstn parse_all nth_error]. auto.
  - cbn [nth_error] in E. destruct (IH ds E s0 us0 s1 E1) as (s & r & t & I1 & I2 & I3). exists s, r, t. cbn [firstn parse_all nth_error]. rewrite E0, I1. auto.
Qed.
Lemma Forall_nth {A} (P : A -> Prop) l k x : Forall P l -> nth_error l k = Some x -> P x.
Proof. intros F E. rewrite Forall_forall in F. apply F. eapply nth_error_In, E. Qed.
(** The sets sent are the same in both runs. *)
Lemma sent_same opts b : forall s s' l l' t t', Forall byte_string b -> store_ok s -> store_ok s' -> parse_all opts b s = Done (l, t) -> parse_all opts b s' = Done (l', t') ->
  forall us us', (forall k, sent_sps us k = sent_sps us' k /\ sent_pps us k = sent_pps us' k) -> forall k, sent_sps (us ++ l) k = sent_sps (us' ++ l') k /\ sent_pps (us ++ l) k = sent_pps (us' ++ l') k.
Proof.
  induction b as [|d b IH]; intros s s' l l' t t' F S S' P P' us us' H.
  { cbn [parse_all] in P, P'. assert (l = [] /\ l' = []) as [-> ->] by (split; congruence). rewrite !app_nil_r. exact H. }
  inversion F as [|? ? D F']; subst. cbn [parse_all] in P, P'. destruct (ParseNalUnit opts d s) as [[r s1]|e] eqn:E; [|discriminate P]. destruct (ParseNalUnit opts d s') as [[r' s1']|e] eqn:E'; [|discriminate P'].
  destruct (parse_all opts b s1) as [[l1 t1]|e] eqn:P1; [|discriminate P]. destruct (parse_all opts b s1') as [[l1' t1']|e] eqn:P1'; [|discriminate P'].
  assert (l = r :: l1) as -> by congruence. assert (l' = r' :: l1') as -> by congruence. clear P P'.
  change (us ++ r :: l1) with (us ++ [r] ++ l1). change (us' ++ r' :: l1') with (us' ++ [r'] ++ l1'). rewrite !app_assoc.
  eapply IH; [exact F' | exact (C22_invariant _ _ _ _ _ D S E) | exact (C22_invariant _ _ _ _ _ D S' E') | exact P1 | exact P1'|]. clear IH P1 P1' F F'.
  intros k. destruct (H k) as [H1 H2]. unfold sent_sps, sent_pps in *. rewrite !latest_step.
  assert (Q : match r, r' with Some u, Some u' => np_sps (nu_payload u) = np_sps (nu_payload u') /\ np_pps (nu_payload u) = np_pps (nu_payload u') | None, None => True | _, _ => False end).
  { destruct (nal_cases opts d s D (store_state_ok _ S)) as [N|(rbsp & h & _ & _ & _ & T & W & R & G)]; [rewrite N in E, E'; assert (r = None /\ r' = None) as [-> ->] by (split; congruence); exact Logic.I|].
    rewrite R in E. rewrite (G opts s' (store_state_ok _ S')) in E'.
    destruct (payload_fault (unit_type d) s (adv (mk_bb rbsp) 16)); [discriminate E|]. destruct (payload_fault (unit_type d) s' (adv (mk_bb rbsp) 16)); [discriminate E'|].
    assert (r = Some (unit_of opts rbsp h s)) as -> by congruence. assert (r' = Some (unit_of opts rbsp h s')) as -> by congruence. unfold unit_of, payload_of. cbn [nu_payload np_sps np_pps]. split; reflexivity. }
  destruct r as [u|], r' as [u'|]; try contradiction; [destruct Q as [-> ->]; rewrite H1, H2; split; reflexivity | auto].
Qed.
Lemma sent_firstn opts b s s' l l' t t' k : Forall byte_string b -> store_ok s -> store_ok s' -> parse_all opts (firstn k b) s = Done (firstn k l, t) -> parse_all opts (firstn k b) s' = Done (firstn k l', t') ->
  forall j, sent_sps (firstn k l) j = sent_sps (firstn k l') j /\ sent_pps (firstn k l) j = sent_pps (firstn k l') j.
Proof. intros F S S' P P'. exact (sent_same opts _ _ _ _ _ _ _ (Forall_firstn _ _ _ F) S S' P P' [] [] (fun _ => conj eq_refl eq_refl)). Qed.

(** Two receivers get the same units, after whatever happened before.  Units that are not slices give the same result; a slice header that one
    of them returns, and whose sets are among these units before it, is returned by the other one. *)
Theorem C87_recovery : forall opts b st st' l l' t t', Forall byte_string b -> store_ok st -> store_ok st' ->
  parse_all opts b st = Done (l, t) -> parse_all opts b st' = Done (l', t') ->
  forall k d, nth_error b k = Some d ->
    (~ coded_slice (unit_type d) -> nth_error l' k = nth_error l k) /\
    (forall u h, nth_error l k = Some (Some u) -> np_slice (nu_payload u) = Some h -> sets_among (firstn k l) h -> nth_error l' k = Some (Some u)).
Proof.
  intros opts b st st' l l' t t' F S S' P P' k d E. pose proof (Forall_nth _ _ _ _ F E) as D.
  destruct (parse_all_prefix opts b k d E _ _ _ P) as (s & r & s1 & P1 & E1 & N1). destruct (parse_all_prefix opts b k d E _ _ _ P') as (s' & r' & s1' & P1' & E1' & N1').
  pose proof (Forall_firstn _ k _ F) as Fk. pose proof (parse_all_store _ _ _ _ _ Fk S P1) as Ss. pose proof (parse_all_store _ _ _ _ _ Fk S' P1') as Ss'.
  rewrite N1, N1'. split.
  - intros N. f_equal. destruct (nal_cases opts d s D (store_state_ok _ Ss)) as [M|(rbsp & h & _ & _ & _ & T & W & R & G)]; [rewrite M in E1, E1'; congruence|].
    rewrite R in E1. rewrite (G opts s' (store_state_ok _ Ss')) in E1'. assert (M : slice_nut (unit_type d) = false) by (unfold coded_slice, slice_nut in *; lia).
    destruct (payload_fault (unit_type d) s (adv (mk_bb rbsp) 16)); [discriminate E1|]. destruct (payload_fault (unit_type d) s' (adv (mk_bb rbsp) 16)); [discriminate E1'|].
    assert (r = Some (unit_of opts rbsp h s)) as -> by congruence. assert (r' = Some (unit_of opts rbsp h s')) as -> by congruence. unfold unit_of, payload_of, payload_stop. rewrite T, M. reflexivity.
  - intros u h Eu Eh (p & x & sp & y & Q1 & Q2). assert (r = Some u) as -> by congruence. clear Eu. f_equal.
    pose proof (history_holds _ _ _ _ _ Fk S P1) as H. pose proof (history_holds _ _ _ _ _ Fk S' P1') as H'. pose proof (sent_firstn opts b st st' l l' s s' k F S S' P1 P1') as Z.
    destruct (unit_same opts d s' s u s1 D Ss' Ss E1) as [t2 E2]; [|congruence].
    intros _. exists h, p, x, (sp, y). split; [exact Eh|]. destruct (H (slice_pic_parameter_set_id h)) as [_ Ha]. destruct (H (pps_seq_parameter_set_id p)) as [Hb _]. destruct (H' (slice_pic_parameter_set_id h)) as [_ Ha']. destruct (H' (pps_seq_parameter_set_id p)) as [Hb' _].
    rewrite Ha, Hb, Ha', Hb', <- (proj2 (Z _)), <- (proj1 (Z _)), Q1, Q2. auto.
Qed.
(** Joining late: nothing of what came before is known.  Nothing fails that did not fail before, and a unit gives the same result unless it is a slice without its
    sets, which is then refused. *)
Theorem C87_join : forall opts b st l t, Forall byte_string b -> store_ok st -> parse_all opts b st = Done (l, t) ->
  exists l' t', parse_all opts b empty_state = Done (l', t') /\ length l' = length l /\
    forall k d r r', nth_error b k = Some d -> nth_error l k = Some r -> nth_error l' k = Some r' -> same_or_refused d r r'.
Proof.
  intros opts b st l t F S P. pose proof (less_empty st) as H. pose proof (proj1 empty_store_ok) as S'. revert H S'. generalize empty_state as s'. revert st l t S P. 
  induction F as [|d b D F IH]; intros st l t S P s' H S'.
  { cbn [parse_all] in *. exists [], s'. split; [reflexivity|]. assert (l = []) as -> by congruence. split; [reflexivity|]. intros [|k] ? ? ? E; discriminate E. }
  cbn [parse_all] in P. destruct (ParseNalUnit opts d st) as [[r s1]|e] eqn:E; [|discriminate P]. destruct (parse_all opts b s1) as [[l1 t1]|e] eqn:P1; [|discriminate P]. assert (l = r :: l1) as -> by congruence.
  destruct (unit_less opts d s' st r s1 D S' S H E) as (r' & s1' & E' & H1 & Q).
  destruct (IH s1 l1 t1 (C22_invariant _ _ _ _ _ D S E) P1 s1' H1 (C22_invariant _ _ _ _ _ D S' E')) as (l1' & t1' & P1' & L & G).
  exists (r' :: l1'), t1'. cbn [parse_all]. rewrite E', P1'. split; [reflexivity|]. split; [cbn [length]; rewrite L; reflexivity|].
  intros [|k] d0 r0 r0' A1 A2 A3; cbn [nth_error] in *; [assert (d0 = d) as -> by congruence; assert (r0 = r) as -> by congruence; assert (r0' = r') as -> by congruence; exact Q | eapply G; eassumption].
Qed.
(** Damage: units that carry no parameter sets (nor anything that could be taken for one) are replaced by others, or left out, or added. *)
Theorem C87_damage : forall opts a m m' b st l l' t t', Forall byte_string (a ++ m ++ b) -> Forall byte_string m' -> store_ok st ->
  Forall (fun d => ~ parameter_set_type (unit_type d)) (m ++ m') ->
  parse_all opts (a ++ m ++ b) st = Done (l, t) -> parse_all opts (a ++ m' ++ b) st = Done (l', t') ->
  t' = t /\ firstn (length a) l' = firstn (length a) l /\ skipn (length (a ++ m')) l' = skipn (length (a ++ m)) l.
Proof.
  intros opts a m m' b st l l' t t' F Fm S T P P'. apply Forall_app in T. destruct T as [T T']. apply Forall_app in F. destruct F as [Fa F]. apply Forall_app in F. destruct F as [Fm0 Fb].
  assert (K : forall m, Forall byte_string m -> Forall (fun d => ~ parameter_set_type (unit_type d)) m -> forall s lm sm, store_ok s -> parse_all opts m s = Done (lm, sm) -> sm = s).
  { clear. induction 1 as [|d m D F IH]; intros T s lm sm S P; cbn [parse_all] in P; [congruence|]. inversion T as [|? ? T1 T2]; subst.
    destruct (ParseNalUnit opts d s) as [[r s1]|e] eqn:E; [|discriminate P]. destruct (parse_all opts m s1) as [[l1 s2]|e] eqn:P1; [|discriminate P]. assert (sm = s2) as -> by congruence.
    pose proof (keeps_state _ _ _ _ _ D (store_state_ok _ S) T1 E) as ->. exact (IH T2 _ _ _ S P1). }
  rewrite !parse_all_app in P, P'. destruct (parse_all opts a st) as [[la sa]|e] eqn:Pa; [|discriminate P]. pose proof (parse_all_store _ _ _ _ _ Fa S Pa) as Sa.
  rewrite !parse_all_app in P, P'. destruct (parse_all opts m sa) as [[lm sm]|e] eqn:Pm; [|discriminate P]. destruct (parse_all opts m' sa) as [[lm' sm']|e] eqn:Pm'; [|discriminate P'].
  pose proof (K m Fm0 T _ _ _ Sa Pm) as ->. pose proof (K m' Fm T' _ _ _ Sa Pm') as ->.
  destruct (parse_all opts b sa) as [[lb sb]|e]; [|discriminate P]. assert (l = la ++ lm ++ lb /\ t = sb) as [-> ->] by (split; congruence). assert (l' = la ++ lm' ++ lb /\ t' = sb) as [-> ->] by (split; congruence).
  split; [reflexivity|]. pose proof (parse_all_length _ _ _ _ _ Pa) as La. pose proof (parse_all_length _ _ _ _ _ Pm) as Lm. pose proof (parse_all_length _ _ _ _ _ Pm') as Lm'.
  rewrite <- La. rewrite !firstn_app, !Nat.sub_diag, !firstn_O. split; [reflexivity|]. assert (Sk : forall x y : list (option nal_unit), skipn (length x) (x ++ y) = y) by (intros x y; rewrite skipn_app, skipn_all, Nat.sub_diag; reflexivity).
  replace (length (a ++ m')) with (length (la ++ lm')) by (rewrite !app_length; lia). replace (length (a ++ m)) with (length (la ++ lm)) by (rewrite !app_length; lia). rewrite !app_assoc, !Sk. reflexivity.
Qed.

(** * Streams *)
Definition given (us : list (option nal_unit)) : list nal_unit := flat_map (fun o => match o with Some u => [u] | None => [] end) us.
Lemma found_given us : found us = map contents (given us).
Proof. induction us as [|[u|] us IH]; [reflexivity| |exact IH]. rewrite found_cons, IH. reflexivity. Qed.
(** Every slice among the units was returned with its header and has its sets among the units in front of it. *)
Definition complete_from (us : list nal_unit) : Prop := forall k u, nth_error us k = Some u -> coded_slice (nal_unit_type (nu_header u)) ->
  exists h, np_slice (nu_payload u) = Some h /\ sets_among (map Some (firstn k us)) h.
Lemma complete_contents us vs : map contents us = map contents vs -> complete_from us -> complete_from vs.
Proof.
  intros E C k v Ev Tv. assert (G : nth_error (map contents us) k = Some (contents v)) by (rewrite E; apply map_nth_error, Ev). rewrite nth_error_map in G. destruct (nth_error us k) as [u|] eqn:Eu; [|discriminate G].
  cbn [option_map] in G. unfold contents in G. assert (Eh : nu_header u = nu_header v) by congruence. assert (Ep : nu_payload u = nu_payload v) by congruence. rewrite <- Eh in Tv.
  destruct (C k u Eu Tv) as (h & Hh & p & x & s & y & P1 & P2). exists h. split; [rewrite <- Ep; exact Hh|]. exists p, x, s, y.
  assert (L : forall {A} (get : nal_payload -> option A) id j n, latest get id j (map Some (firstn n us)) None = latest get id j (map Some (firstn n vs)) None).
  { intros A get id j n. assert (En : map contents (firstn n us) = map contents (firstn n vs)) by (rewrite <- !firstn_map, E; reflexivity). revert En. generalize (firstn n us), (firstn n vs). clear. unfold latest. generalize (@None A).
    intros i l. revert i. induction l as [|a l IH]; intros i [|b m] En; try discriminate En; [reflexivity|]. cbn [map fold_left] in *. pose proof (f_equal (@tl _) En) as Et. cbn [tl] in Et. unfold contents in En. assert (Ep : nu_payload a = nu_payload b) by congruence. rewrite Ep. apply IH. exact Et. }
  unfold sent_pps, sent_sps in *. rewrite <- !L. auto.
Qed.
Lemma join_complete opts b : forall s s' l t pre, Forall byte_string b -> store_ok s -> store_ok s' -> less s' s -> (forall k, st_sps s' k = sent_sps pre k /\ st_pps s' k = sent_pps pre k) ->
  parse_all opts b s = Done (l, t) ->
  (forall k u, nth_error (given l) k = Some u -> coded_slice (nal_unit_type (nu_header u)) -> exists h, np_slice (nu_payload u) = Some h /\ sets_among (pre ++ map Some (firstn k (given l))) h) ->
  exists t', parse_all opts b s' = Done (l, t').
Proof.
  induction b as [|d b IH]; intros s s' l t pre F S S' H Hp P C.
  { cbn [parse_all] in *. exists s'. assert (l = []) as -> by congruence. reflexivity. }
  inversion F as [|? ? D F']; subst. cbn [parse_all] in P. destruct (ParseNalUnit opts d s) as [[r s1]|e] eqn:E; [|discriminate P]. destruct (parse_all opts b s1) as [[l1 t1]|e] eqn:P1; [|discriminate P]. assert (l = r :: l1) as -> by congruence. clear P.
  destruct (unit_less opts d s' s r s1 D S' S H E) as (r' & s1' & E' & H1 & Q).
  assert (r' = r) as ->.
  { destruct Q as [Q|(u & u' & -> & -> & T & Q1 & Q2 & Q3)]; [exact Q|]. assert (Tu : nal_unit_type (nu_header u) = unit_type d).
    { destruct (nal_cases opts d s D (store_state_ok _ S)) as [N|(rbsp & h & _ & _ & _ & T1 & W & R & G)]; [rewrite N in E; discriminate E|]. rewrite R in E. destruct (payload_fault (unit_type d) s (adv (mk_bb rbsp) 16)); [discriminate E|].
      assert (u = unit_of opts rbsp h s) as -> by congruence. exact T1. }
    destruct (C O u eq_refl ltac:(rewrite Tu; exact T)) as (h & Hh & p & x & sp & y & P2 & P3). cbn [firstn map] in P2, P3. rewrite app_nil_r in P2, P3.
    destruct (unit_same opts d s' s u s1 D S' S E) as [t2 E2]; [|congruence]. intros _. exists h, p, x, (sp, y). split; [exact Hh|].
    destruct (Hp (slice_pic_parameter_set_id h)) as [_ Hp2]. destruct (Hp (pps_seq_parameter_set_id p)) as [Hp1 _]. rewrite P2 in Hp2. rewrite P3 in Hp1.
    destruct (H (slice_pic_parameter_set_id h)) as [_ [K|K]]; [congruence|]. destruct (H (pps_seq_parameter_set_id p)) as [[K'|K'] _]; [congruence|]. rewrite <- K, <- K'. auto. }
  pose proof (C22_store opts d s' r s1' D (store_state_ok _ S') E') as St.
  destruct (IH s1 s1' l1 t1 (match r with Some u => pre ++ [Some u] | None => pre end) F' (C22_invariant _ _ _ _ _ D S E) (C22_invariant _ _ _ _ _ D S' E') H1) as [t2 P2].
  { intros k. destruct r as [u|]; [|destruct (St k) as (_ & -> & ->); apply Hp]. destruct (St k) as (_ & -> & ->). destruct (Hp k) as [-> ->]. unfold sent_sps, sent_pps. rewrite !latest_step. split; reflexivity. }
  { exact P1. }
  { intros k u Eu Tu. destruct r as [v|]; [|exact (C k u Eu Tu)]. destruct (C (Datatypes.S k) u Eu Tu) as (h & Hh & A). exists h. split; [exact Hh|]. rewrite <- app_assoc. exact A. }
  exists t2. cbn [parse_all]. rewrite E', P2. reflexivity.
Qed.

(** A stream that begins in the middle of a unit: bytes without a start code in front. *)
Definition junk_ok (junk : list Z) : Prop := (junk = [] \/ last junk 0 <> 0) /\ no_start_code junk.
Lemma junk_none junk : no_start_code junk -> annexb_units junk = [].
Proof.
  intros N. unfold annexb_units. destruct (start_codes junk) as [|p ps] eqn:E; [reflexivity|]. assert (I : In p (start_codes junk)) by (rewrite E; left; reflexivity).
  apply C15_start_codes in I. destruct I as (pre & x & post & -> & _). exfalso. exact (N pre (x :: post) eq_refl).
Qed.
Lemma junk_cut junk x b : junk_ok junk -> nal_ok (snd x) -> cut_at_start_code junk (annexb_stream (x :: b)).
Proof.
  intros [L N] (X1 & X2 & _). rewrite annexb_stream_cons. destruct x as [long n]. cbn [fst snd] in *. destruct n as [|y n]; [congruence|].
  unfold cut_at_start_code. exists (length junk + (if long then 1 else 0))%nat. split.
  - apply C15_start_codes. destruct long; cbn [start_code].
    + exists (junk ++ [0]), y, (n ++ annexb_stream b). split; [rewrite <- !app_assoc; reflexivity | rewrite app_length; reflexivity].
    + exists junk, y, (n ++ annexb_stream b). split; [rewrite <- !app_assoc; reflexivity | lia].
  - destruct long; cbn [start_code].
    + rewrite Nat.add_1_r. unfold start_code_begin. rewrite app_nth2 by lia. rewrite Nat.sub_diag. reflexivity.
    + rewrite Nat.add_0_r. destruct junk as [|j junk]; [reflexivity|]. destruct L as [L|L]; [discriminate L|]. unfold start_code_begin. cbn [length].
      rewrite app_nth1 by (cbn [length]; lia). rewrite (nth_indep _ 1 0) by (cbn [length]; lia).
      assert (Q : nth (length junk) (j :: junk) 0 = last (j :: junk) 0). { clear. revert j. induction junk as [|k junk IH]; intros j; [reflexivity|]. change (nth (length junk) (k :: junk) 0 = last (k :: junk) 0). apply IH. }
      rewrite Q. destruct (Z.eqb_spec (last (j :: junk) 0) 0); [contradiction | reflexivity].
Qed.
Lemma junk_ignored opts junk b st : junk_ok junk -> Forall (fun u => nal_ok (snd u)) b -> Z.of_nat (length (junk ++ annexb_stream b)) < 2 ^ 64 ->
  same_stream (ParseBitstream opts (junk ++ annexb_stream b) st) (ParseBitstream opts (annexb_stream b) st).
Proof.
  intros J F L. assert (Lj : Z.of_nat (length junk) < 2 ^ 64) by (rewrite app_length in L; lia).
  assert (E : forall s, ParseBitstream opts junk s = Done (mkBS default_options [], s)) by (intros s; rewrite C24_fold by exact Lj; rewrite junk_none by apply J; reflexivity).
  destruct b as [|x b].
  - change (annexb_stream []) with (@nil Z) in *. rewrite app_nil_r, E. rewrite C24_fold by reflexivity. cbn. split; reflexivity.
  - inversion F as [|? ? X _]; subst. rewrite C24_cut; [|exact L | apply junk_cut; assumption | intros l E'; destruct J as [_ N]; apply (N l []); rewrite E'; rewrite app_nil_r; reflexivity].
    rewrite E. destruct (ParseBitstream opts (annexb_stream (x :: b)) st) as [[b2 s2]|e]; [|reflexivity]. cbn [same_stream bs_units app]. split; [|reflexivity].
    rewrite map_map. apply map_ext. intros u. destruct u; reflexivity.
Qed.
(** Joining a stream late, at any byte: the units that begin after this point are found; if the sets that its slices refer to are sent again, they are found with the
    same contents as by those who saw the whole stream. *)
Theorem C87_late : forall opts a b junk st whole t, store_ok st -> Forall (fun u => nal_ok (snd u) /\ byte_string (snd u)) (a ++ b) -> junk_ok junk ->
  Z.of_nat (length (annexb_stream (a ++ b))) < 2 ^ 64 -> Z.of_nat (length (junk ++ annexb_stream b)) < 2 ^ 64 ->
  ParseBitstream opts (annexb_stream (a ++ b)) st = Done (whole, t) ->
  exists before sa late t', ParseBitstream opts (annexb_stream a) st = Done (before, sa) /\ ParseBitstream opts (junk ++ annexb_stream b) empty_state = Done (late, t') /\
    map nu_header (bs_units whole) = map nu_header (bs_units before) ++ map nu_header (bs_units late) /\
    (complete_from (skipn (length (bs_units before)) (bs_units whole)) -> map contents (bs_units whole) = map contents (bs_units before) ++ map contents (bs_units late)).
Proof.
  intros opts a b junk st whole t S F J L Lj E.
  assert (Fn : Forall (fun u => nal_ok (snd u)) (a ++ b)) by (eapply Forall_impl; [|exact F]; cbn; tauto).
  assert (Fb : Forall byte_string (map snd (a ++ b))) by (rewrite Forall_map; eapply Forall_impl; [|exact F]; cbn; tauto).
  pose proof (annexb_fold opts _ st L Fn) as H. rewrite E in H. unfold as_fold in H. rewrite map_app in *. apply Forall_app in Fb, Fn. destruct Fb as [Fa Fb], Fn as [Fna Fnb].
  rewrite parse_all_app in H. destruct (parse_all opts (map snd a) st) as [[la sa]|e] eqn:Pa; [|contradiction]. pose proof (parse_all_store _ _ _ _ _ Fa S Pa) as Sa.
  destruct (parse_all opts (map snd b) sa) as [[lb sb]|e] eqn:Pb; [|contradiction]. destruct H as [Hc _].
  rewrite annexb_stream_app, app_length in L. pose proof (annexb_fold opts a st ltac:(lia) Fna) as Ha. rewrite Pa in Ha. unfold as_fold in Ha.
  destruct (ParseBitstream opts (annexb_stream a) st) as [[before sa']|e]; [|contradiction]. destruct Ha as [Ha _].
  destruct (C87_join opts (map snd b) sa lb sb Fb Sa Pb) as (lb' & tb' & Pb' & Lb & G).
  pose proof (annexb_fold opts b empty_state ltac:(lia) Fnb) as Hb. rewrite Pb' in Hb. unfold as_fold in Hb. pose proof (junk_ignored opts junk b empty_state J Fnb Lj) as Sj.
  destruct (ParseBitstream opts (annexb_stream b) empty_state) as [[bb0 s0]|e]; [|contradiction]. destruct Hb as [Hb _]. unfold same_stream in Sj.
  destruct (ParseBitstream opts (junk ++ annexb_stream b) empty_state) as [[late t']|e]; [|contradiction]. destruct Sj as [Sj _]. rewrite Hb in Sj. clear Hb bb0 s0.
  exists before, sa', late, t'. split; [reflexivity|]. split; [reflexivity|].
  unfold found in Hc. rewrite flat_map_app in Hc. change (map contents (bs_units whole) = found la ++ found lb) in Hc. rewrite <- Ha in Hc. split.
  - assert (Eh : forall us vs, map contents us = map contents vs -> map nu_header us = map nu_header vs).
    { intros us vs Q. apply (f_equal (map (fun c => fst (fst (fst c))))) in Q. rewrite !map_map in Q. exact Q. }
    assert (El : map nu_header (given lb') = map nu_header (given lb)).
    { pose proof (parse_all_length _ _ _ _ _ Pb) as Ll. clear - G Lb Ll. revert lb lb' Lb Ll G. generalize (map snd b). intros ds. induction ds as [|d ds IH]; intros [|r lb] [|r' lb'] Lb Ll G; try discriminate Lb; try discriminate Ll; [reflexivity|].
      change (given (r :: lb)) with ((match r with Some u => [u] | None => [] end) ++ given lb). change (given (r' :: lb')) with ((match r' with Some u => [u] | None => [] end) ++ given lb'). rewrite !map_app. f_equal.
      - destruct (G O d r r' eq_refl eq_refl eq_refl) as [->|(u & u' & -> & -> & _ & Q & _)]; [reflexivity|]. cbn [map]. rewrite Q. reflexivity.
      - apply IH; [injection Lb; auto | injection Ll; auto|]. intros k d0 r0 r0' A B C. exact (G (Datatypes.S k) d0 r0 r0' A B C). }
    rewrite <- map_app. rewrite !found_given in *. rewrite <- map_app in Hc. rewrite (Eh _ _ Hc), !map_app. f_equal. rewrite <- El. apply Eh. symmetry. exact Sj.
  - intros C. rewrite Hc, Sj. f_equal. assert (Eu : map contents (skipn (length (bs_units before)) (bs_units whole)) = map contents (given lb)).
    { rewrite <- skipn_map, Hc, skipn_app, map_length, Nat.sub_diag, skipn_all2 by (rewrite map_length; lia). rewrite found_given. reflexivity. }
    pose proof (complete_contents _ _ Eu C) as C'.
    destruct (join_complete opts (map snd b) sa empty_state lb sb [] Fb Sa (proj1 empty_store_ok) (less_empty _) (fun k => conj eq_refl eq_refl) Pb) as [t2 P2]; [exact C'|]. congruence.
Qed.

(** Damage in a stream: units without parameter sets become others (fewer, more, none), all else is found as before. *)
Theorem C87_damaged_stream : forall opts a m m' b st good bad t t', store_ok st ->
  Forall (fun u => nal_ok (snd u) /\ byte_string (snd u)) (a ++ m ++ b) -> Forall (fun u => nal_ok (snd u) /\ byte_string (snd u)) m' ->
  Forall (fun u => ~ parameter_set_type (unit_type (snd u))) (m ++ m') ->
  Z.of_nat (length (annexb_stream (a ++ m ++ b))) < 2 ^ 64 -> Z.of_nat (length (annexb_stream (a ++ m' ++ b))) < 2 ^ 64 ->
  ParseBitstream opts (annexb_stream (a ++ m ++ b)) st = Done (good, t) -> ParseBitstream opts (annexb_stream (a ++ m' ++ b)) st = Done (bad, t') ->
  t' = t /\ exists ca cm cm' cb, map contents (bs_units good) = ca ++ cm ++ cb /\ map contents (bs_units bad) = ca ++ cm' ++ cb /\ (length cm <= length m)%nat /\ (length cm' <= length m')%nat /\
    (exists before sa, ParseBitstream opts (annexb_stream a) st = Done (before, sa) /\ map contents (bs_units before) = ca).
Proof.
  intros opts a m m' b st good bad t t' S F F' T L L' E E'.
  assert (Sp : forall l, Forall (fun u : bool * list Z => nal_ok (snd u) /\ byte_string (snd u)) l -> Forall (fun u => nal_ok (snd u)) l /\ Forall byte_string (map snd l)).
  { intros l H. split; [eapply Forall_impl; [|exact H]; cbn; tauto | rewrite Forall_map; eapply Forall_impl; [|exact H]; cbn; tauto]. }
  assert (F2 : Forall (fun u : bool * list Z => nal_ok (snd u) /\ byte_string (snd u)) (a ++ m' ++ b)) by (apply Forall_app in F; destruct F as [Fa F]; apply Forall_app in F; destruct F as [Fm Fb]; apply Forall_app; split; [exact Fa | apply Forall_app; split; assumption]).
  destruct (Sp _ F) as [Fn Fb]. destruct (Sp _ F2) as [Fn2 Fb2].
  pose proof (annexb_fold opts _ st L Fn) as H. pose proof (annexb_fold opts _ st L' Fn2) as H'. rewrite E in H. rewrite E' in H'. unfold as_fold in H, H'. rewrite !map_app in *.
  destruct (parse_all opts (map snd a ++ map snd m ++ map snd b) st) as [[l s]|e] eqn:P; [|contradiction]. destruct (parse_all opts (map snd a ++ map snd m' ++ map snd b) st) as [[l' s']|e] eqn:P'; [|contradiction].
  destruct H as [Hc <-], H' as [Hc' <-].
  assert (Tm : Forall (fun d => ~ parameter_set_type (unit_type d)) (map snd m ++ map snd m')) by (rewrite <- map_app, Forall_map; exact T).
  destruct (C87_damage opts (map snd a) (map snd m) (map snd m') (map snd b) st l l' t t' Fb (proj2 (Sp _ F')) S Tm P P') as (-> & Q1 & Q2). split; [reflexivity|].
  pose proof (parse_all_length _ _ _ _ _ P) as Ll. pose proof (parse_all_length _ _ _ _ _ P') as Ll'. rewrite !app_length, !map_length in *.
  assert (Fl : forall us, (length (found us) <= length us)%nat) by (induction us as [|[u|] us IH]; rewrite ?found_cons, ?app_length; cbn [length]; [reflexivity | lia | lia]).
  assert (D : forall n x (l : list (option nal_unit)), l = firstn n l ++ firstn x (skipn n l) ++ skipn (n + x) l).
  { clear. intros n x. revert n. induction n as [|n IH]; intros l; [symmetry; apply firstn_skipn|]. destruct l as [|o l]; [rewrite skipn_nil, !firstn_nil, skipn_nil; reflexivity|]. cbn [firstn skipn Nat.add app]. f_equal. apply IH. }
  exists (found (firstn (length a) l)), (found (firstn (length m) (skipn (length a) l))), (found (firstn (length m') (skipn (length a) l'))), (found (skipn (length a + length m) l)).
  assert (Fa3 : forall x y z, found (x ++ y ++ z) = found x ++ found y ++ found z) by (intros; unfold found; rewrite !flat_map_app; reflexivity).
  split; [rewrite Hc; rewrite (D (length a) (length m) l) at 1; apply Fa3|]. split; [rewrite Hc'; rewrite (D (length a) (length m') l') at 1; rewrite Fa3, Q1, Q2; reflexivity|].
  split; [eapply Nat.le_trans; [apply Fl|]; rewrite firstn_length; lia|]. split; [eapply Nat.le_trans; [apply Fl|]; rewrite firstn_length; lia|].
  apply Forall_app in Fn. destruct Fn as [Fna _]. rewrite annexb_stream_app, app_length in L. pose proof (annexb_fold opts a st ltac:(lia) Fna) as Ha. unfold as_fold in Ha.
  rewrite parse_all_app in P. destruct (parse_all opts (map snd a) st) as [[la sa]|e] eqn:Pa; [|discriminate P]. destruct (parse_all opts (map snd m ++ map snd b) sa) as [[lr sr]|e]; [|discriminate P].
  destruct (ParseBitstream opts (annexb_stream a) st) as [[before s0]|e]; [|contradiction]. destruct Ha as [Ha _]. exists before, s0. split; [reflexivity|]. rewrite Ha. f_equal.
  assert (l = la ++ lr) as -> by congruence. pose proof (parse_all_length _ _ _ _ _ Pa) as La. rewrite map_length in La. rewrite <- La, firstn_app, firstn_all, Nat.sub_diag, firstn_O, app_nil_r. reflexivity.
Qed.

(** * Examples *)
Definition sets_amongb (us : list (option nal_unit)) (h : slice_header) : bool :=
  match sent_pps us (slice_pic_parameter_set_id h) with Some (p, _) => match sent_sps us (pps_seq_parameter_set_id p) with Some _ => true | None => false end | None => false end.
Definition completeb (us : list nal_unit) : bool := forallb (fun k => match nth_error us k with
  | Some u => if slice_nut (nal_unit_type (nu_header u)) then match np_slice (nu_payload u) with Some h => sets_amongb (map Some (firstn k us)) h | None => false end else true
  | None => true end) (seq 0 (length us)).
Lemma completeb_ok us : completeb us = true -> complete_from us.
Proof.
  intros H k u E T. unfold completeb in H. rewrite forallb_forall in H. specialize (H k). rewrite E in H. assert (Hk : In k (seq 0 (length us))) by (apply in_seq; split; [lia|]; apply nth_error_Some; congruence). specialize (H Hk).
  replace (slice_nut (nal_unit_type (nu_header u))) with true in H by (unfold coded_slice, slice_nut in *; lia). destruct (np_slice (nu_payload u)) as [h|]; [|discriminate H]. exists h. split; [reflexivity|].
  unfold sets_amongb in H. destruct (sent_pps (map Some (firstn k us)) (slice_pic_parameter_set_id h)) as [[p x]|] eqn:Ep; [|discriminate H]. destruct (sent_sps (map Some (firstn k us)) (pps_seq_parameter_set_id p)) as [[s y]|] eqn:Es; [|discriminate H].
  exists p, x, s, y. split; [exact Ep | exact Es].
Qed.
(** The stream of C24_case, then an SPS, a PPS and a slice.  Who comes in the middle of the unit in front of the SPS finds these three like the others. *)
Definition C87_rest : list (bool * list Z) := [(true, C59_sps); (false, C59_pps); (false, C59_slice)].
Definition C87_junk : list Z := [5; 0; 0; 3; 1; 7].
Definition C87_tail (d : list Z) (n : nat) (st : state) : option (list nal_unit) := match ParseBitstream default_options d st with Done (bs, _) => Some (skipn n (bs_units bs)) | Bad _ => None end.
Lemma C87_junk_ok : junk_ok C87_junk.
Proof.
  split; [right; discriminate|]. intros pre post E. unfold C87_junk in E.
  repeat (destruct pre as [|? pre]; cbn [app] in E; [discriminate E | injection E as ? E]). destruct pre; discriminate E.
Qed.
Example C87_case : junk_ok C87_junk /\ Forall (fun u => nal_ok (snd u) /\ byte_string (snd u)) (C24_nals ++ C87_rest) /\
  match C87_tail (annexb_stream (C24_nals ++ C87_rest)) 6 empty_state with
  | Some us => complete_from us /\ map (fun u => np_slice (nu_payload u)) us = [None; None; Some C37_header]
  | None => False end.
Proof.
  split; [exact C87_junk_ok|]. split.
  { apply Forall_app. split; [exact C24_nals_ok|]. destruct C59_units_ok as (U1 & U2 & U3). unfold C87_rest.
    constructor; [split; [exact U1 | split; [apply bytes_check; vm_compute; reflexivity | vm_compute; reflexivity]]|]. constructor; [split; [exact U2 | split; [apply bytes_check; vm_compute; reflexivity | vm_compute; reflexivity]]|].
    constructor; [split; [exact U3 | split; [apply bytes_check; vm_compute; reflexivity | vm_compute; reflexivity]] | constructor]. }
  assert (H : match C87_tail (annexb_stream (C24_nals ++ C87_rest)) 6 empty_state with Some us => completeb us | None => false end = true) by (vm_compute; reflexivity).
  assert (H2 : option_map (map (fun u => np_slice (nu_payload u))) (C87_tail (annexb_stream (C24_nals ++ C87_rest)) 6 empty_state) = Some [None; None; Some C37_header]) by (vm_compute; reflexivity).
  destruct (C87_tail (annexb_stream (C24_nals ++ C87_rest)) 6 empty_state) as [us|]; [|discriminate H]. split; [apply completeb_ok, H | cbn [option_map] in H2; congruence].
Qed.
(** Without the sets the slice is refused, not misread. *)
Example C87_refused : option_map (map nu_payload) (C87_tail (C87_junk ++ annexb_stream [(false, C59_slice)]) 0 empty_state) = Some [empty_payload].
Proof. vm_compute. reflexivity. Qed.
(** Damage: the slice of C24_case becomes two other units. *)
Example C87_damage_case : Forall (fun u => ~ parameter_set_type (unit_type (snd u))) [(false, C59_slice); (true, [0x46; 1; 0x50]); (false, [2; 1; 255])] /\
  match C87_tail (annexb_stream (firstn 3 C24_nals ++ [(false, C59_slice)] ++ skipn 4 C24_nals)) 4 empty_state, C87_tail (annexb_stream (firstn 3 C24_nals ++ [(true, [0x46; 1; 0x50]); (false, [2; 1; 255])] ++ skipn 4 C24_nals)) 5 empty_state with
  | Some us, Some us' => map contents us = map contents us' /\ length us = 2%nat
  | _, _ => False end.
Proof.
  split; [repeat constructor; vm_compute; intros [H1 H2]; (apply H1; reflexivity) || (apply H2; reflexivity)|]. vm_compute. split; reflexivity.
Qed.
