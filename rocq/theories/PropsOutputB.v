(** C85, with a configuration box: the box and the stream behind it. *)
From Coq Require Import ZArith List Bool Lia String Ascii.
From Verif Require Import MBase MBitBuffer Spec BitsFacts Reader ReaderFacts Rules Syntax SyntaxSe MCommon CommonFacts PropsCommon MFraming FramingFacts PropsFraming MSyntaxA SpecA FactsA MSps SpecSps FactsSps MPps SpecPps FactsPps
  MSlice SpecSlice FactsSlice PropsSlice MNal FactsNal PropsNal PropsLocal MRtp FactsRtp PropsRtp Api MText SpecText FactsText PropsText FactsTells FactsFaithA FactsFaithB FactsFaithC FactsFaithD FactsFaithE FactsFaithF
  PropsBits PropsSafe PropsDump PropsFaithful FactsOutput PropsQp MTool SpecTool FactsTool PropsTool PropsToolB PropsToolC PropsToolD PropsWide PropsToolE PropsSps MProcess PropsProcess PropsOutput.
Import ListNotations.
Open Scope string_scope.
Open Scope Z_scope.

(** * Lists of units *)
Definition states (st : state) (us : list nal_unit) : state := fold_left (fun st u => stored' (nu_payload u) st) us st.
Lemma states_app st a b : states st (a ++ b)%list = states (states st a) b.
Proof. apply fold_left_app. Qed.
Lemma parsed_at st a : forall u c, parsed st (a ++ u :: c)%list -> exists b, reached call_ok (states st a) /\ wf b /\ bb_count b < 2 ^ 28 /\ nal_header_ok (nu_header u) /\ 0 <= nu_offset u /\
  nu_payload u = payload_of (nal_unit_type (nu_header u)) (states st a) b.
Proof.
  revert st. induction a as [|v a IH]; intros st u c P; cbn [app] in P.
  - inversion P as [|st0 b u0 us0 R1 Wb Cb Hb Ob Pb Pt]. exists b. split; [exact R1|]. split; [exact Wb|]. split; [exact Cb|]. split; [exact Hb|]. split; [exact Ob | exact Pb].
  - assert (Pt : parsed (stored' (nu_payload v) st) (a ++ u :: c)%list) by (inversion P; assumption). destruct (IH _ _ _ Pt) as (b' & K). exists b'. exact K.
Qed.
Lemma in_effect_states us : forall st, same_state (in_effect st us) (states st us).
Proof.
  induction us as [|u us IH]; intros st; [repeat split|]. unfold in_effect, states. cbn [fold_left]. fold (in_effect (stored (nu_payload u) st) us). fold (states (stored' (nu_payload u) st) us).
  assert (H : same_state (stored (nu_payload u) st) (stored' (nu_payload u) st)) by (destruct (stored_eq (nu_payload u) st) as (E1 & E2 & E3); repeat split; intros j; symmetry; auto).
  destruct (in_effect_same us _ _ H) as (A1 & A2 & A3), (IH (stored' (nu_payload u) st)) as (B1 & B2 & B3). repeat split; intros k; congruence.
Qed.
Lemma parse_all_states opts ds : forall st us st', Forall byte_string ds -> reached call_ok st -> parse_all opts ds st = Done (us, st') -> st' = states st (somes us) /\ reached call_ok st'.
Proof.
  induction ds as [|d ds IH]; intros st us st' F R E; cbn [parse_all] in E.
  { assert (us = []) as -> by congruence. assert (st' = st) as -> by congruence. split; [reflexivity | exact R]. }
  apply Forall_cons_iff in F. destruct F as [D F].
  destruct (ParseNalUnit opts d st) as [[r st1]|e] eqn:E1; [|discriminate E]. destruct (parse_all opts ds st1) as [[us1 st2]|e] eqn:E2; [|discriminate E]. assert (us = r :: us1) as -> by congruence. assert (st' = st2) as -> by congruence.
  assert (R1 : reached call_ok st1) by (eapply reached_call with (c := CallUnit opts d); [exact R | exact D | cbn [perform]; rewrite E1; reflexivity]).
  pose proof (store_state_ok _ (reached_store _ R)) as So.
  destruct (IH st1 us1 st2 F R1 E2) as [Es Rs]. split; [|exact Rs]. rewrite Es.
  destruct (C10_unescape_only_removes d) as (rbsp & Er & _ & Lr & _). destruct (Unescape_byte_string d D) as (rbsp' & Er' & D'). assert (rbsp' = rbsp) by congruence. subst rbsp'.
  rewrite (nal_unit_unesc _ _ _ _ Er) in E1. destruct (le_lt_dec 2 (List.length rbsp)) as [L|L].
  2:{ rewrite (nal_unit_short opts rbsp st D' L) in E1. assert (r = None /\ st1 = st) as [-> ->] by (split; congruence). reflexivity. }
  destruct (nal_unit_long opts rbsp st D' So L) as (h & Hh & _ & W & E3). rewrite E3 in E1.
  destruct (payload_fault (nal_unit_type h) st (adv (mk_bb rbsp) 16)) eqn:Pf; [discriminate E1|].
  assert (r = Some (unit_of opts rbsp h st) /\ st1 = stored' (payload_of (nal_unit_type h) st (adv (mk_bb rbsp) 16)) st) as [-> ->] by (split; congruence). reflexivity.
Qed.
(** * Boxes *)
Definition somes_of (a : hvcc_array) : list nal_unit := somes (map snd (nalus a)).
Definition box_list (v : hvcc) : list nal_unit := flat_map somes_of (hv_arrays v).
(** the units that stand before unit [i] of array [j] *)
Definition units_before (v : hvcc) (j i : nat) : list nal_unit :=
  (flat_map somes_of (firstn j (hv_arrays v)) ++ match nth_error (hv_arrays v) j with Some a => somes (map snd (firstn i (nalus a))) | None => [] end)%list.
(** [sp]: for every slice in the box, the SPS and PPS in effect there *)
Definition box_sets_right (st : state) (v : hvcc) (sp : nat -> nat -> sps * pps) : Prop :=
  forall j a i n u, nth_error (hv_arrays v) j = Some a -> nth_error (nalus a) i = Some (n, Some u) -> right (in_effect st (units_before v j i)) (sp j i) (nu_payload u).
(** The boxes agree in all that is printed of them. *)
Definition same_entry (o : options) (e e' : Z * option nal_unit) : Prop := fst e = fst e' /\ match snd e, snd e' with Some u, Some u' => same_unit o u u' | _, _ => False end.
Definition same_array (o : options) (a a' : hvcc_array) : Prop :=
  array_completeness a = array_completeness a' /\ NAL_unit_type a = NAL_unit_type a' /\ Forall2 (same_entry o) (nalus a) (nalus a').
Definition same_box (o : options) (v v' : hvcc) : Prop := hv_header v = hv_header v' /\ Forall2 (same_array o) (hv_arrays v) (hv_arrays v').

Lemma tells_tupto_dep n d d' (R : nat -> Prop) : R 0%nat -> (forall i, (i < n)%nat -> R i -> tells (d i) (d' i) (R (S i))) -> tells (tupto n d) (tupto n d') (R n).
Proof.
  intros R0. induction n as [|n IH]; intros H; [apply (tells_weaken _ _ True); [apply tells_same | auto]|]. cbn [tupto].
  eapply tells_weaken; [eapply tells_seq; [apply IH; intros i Hi; apply H; lia | intros Rn; apply H; [lia | exact Rn]]|]. intros [_ K]. exact K.
Qed.
Lemma firstn_snoc {A} (l : list A) k a : nth_error l k = Some a -> firstn (S k) l = (firstn k l ++ [a])%list.
Proof. revert k. induction l as [|x l IH]; intros [|k] E; try discriminate E; [injection E as ->; reflexivity|]. cbn [nth_error] in E. cbn [firstn app]. f_equal. apply IH, E. Qed.
Lemma split_at {A} (l : list A) k a : nth_error l k = Some a -> l = (firstn k l ++ a :: skipn (S k) l)%list.
Proof. revert k. induction l as [|x l IH]; intros [|k] E; try discriminate E; [injection E as ->; reflexivity|]. cbn [nth_error] in E. cbn [firstn skipn app]. f_equal. apply IH, E. Qed.
Lemma somes_app a b : somes (a ++ b)%list = (somes a ++ somes b)%list.
Proof. apply flat_map_app. Qed.
Lemma box_at v j a i n u : nth_error (hv_arrays v) j = Some a -> nth_error (nalus a) i = Some (n, Some u) -> exists c, box_list v = (units_before v j i ++ u :: c)%list.
Proof.
  intros Ea Eu. unfold box_list, units_before. rewrite Ea.
  assert (E1 : flat_map somes_of (hv_arrays v) = (flat_map somes_of (firstn j (hv_arrays v)) ++ somes_of a ++ flat_map somes_of (skipn (S j) (hv_arrays v)))%list)
    by (rewrite (split_at _ _ _ Ea) at 1; rewrite flat_map_app; reflexivity).
  assert (E2 : somes_of a = (somes (map snd (firstn i (nalus a))) ++ u :: somes (map snd (skipn (S i) (nalus a))))%list)
    by (unfold somes_of; rewrite (split_at _ _ _ Eu) at 1; rewrite map_app, somes_app; reflexivity).
  rewrite E1, E2. eexists. rewrite <- !app_assoc. cbn [app]. reflexivity.
Qed.
Definition box_facts (st : state) (v : hvcc) : Prop :=
  hvcc_header_ok (hv_header v) /\ numOfArrays (hv_header v) = Z.of_nat (List.length (hv_arrays v)) /\
  Forall (fun a => u_ok 1 (array_completeness a) /\ u_ok 6 (NAL_unit_type a) /\ Z.of_nat (List.length (nalus a)) < 2 ^ 16 /\ Forall (fun e => 0 <= fst e < 2 ^ 16) (nalus a)) (hv_arrays v) /\
  parsed st (box_list v).

Lemma tells_uok n k x x' : 0 < k <= 32 -> u_ok k x -> u_ok k x' -> tells (fi n x) (fi n x') (x = x').
Proof.
  intros Hk H H'. apply tells_fi, det_u; unfold u_ok in *; (split; [lia|]); (eapply Z.lt_le_trans; [apply H || apply H'|]); apply Z.pow_le_mono_r; lia.
Qed.
Lemma tells_box o st st' sp sp' v v' : related st st' -> box_facts st v -> box_facts st' v' -> box_sets_right st v sp -> box_sets_right st' v' sp' ->
  tells (text_box sp o v) (text_box sp' o v') (same_box o v v' /\ related (states st (box_list v)) (states st' (box_list v'))).
Proof.
  intros R (H & N & F & P) (H' & N' & F' & P') X X'. unfold text_box. cbv zeta. apply tells_struct.
  destruct H as (h1 & h2 & h3 & h4 & h5 & h6 & h7 & h8 & h9 & h10 & h11 & h12 & h13 & h14 & h15 & h16 & h17), H' as (g1 & g2 & g3 & g4 & g5 & g6 & g7 & g8 & g9 & g10 & g11 & g12 & g13 & g14 & g15 & g16 & g17).
  eapply tells_then; [apply tells_same | intros _].
  eapply tells_then; [apply (tells_uok _ 2); [lia | exact h1 | exact g1] | intros E1].
  eapply tells_then; [apply (tells_uok _ 1); [lia | exact h2 | exact g2] | intros E2].
  eapply tells_then; [apply (tells_uok _ 5); [lia | exact h3 | exact g3] | intros E3].
  eapply tells_then; [apply tells_vec, vdet_u; [apply (Fu_vec0 _ _ _ h4) | apply (Fu_vec0 _ _ _ g4)]; intros a; apply Pu_u; lia | intros E4].
  eapply tells_then; [apply tells_fu | intros E5].
  eapply tells_then; [apply (tells_uok _ 8); [lia | exact h6 | exact g6] | intros E6].
  eapply tells_then; [apply tells_same | intros _].
  eapply tells_then; [apply (tells_uok _ 12); [lia | exact h7 | exact g7] | intros E7].
  eapply tells_then; [apply tells_same | intros _].
  eapply tells_then; [apply (tells_uok _ 2); [lia | exact h8 | exact g8] | intros E8].
  eapply tells_then; [apply tells_same | intros _].
  eapply tells_then; [apply (tells_uok _ 2); [lia | exact h9 | exact g9] | intros E9].
  eapply tells_then; [apply tells_same | intros _].
  eapply tells_then; [apply (tells_uok _ 3); [lia | exact h10 | exact g10] | intros E10].
  eapply tells_then; [apply tells_same | intros _].
  eapply tells_then; [apply (tells_uok _ 3); [lia | exact h11 | exact g11] | intros E11].
  eapply tells_then; [apply (tells_uok _ 16); [lia | exact h12 | exact g12] | intros E12].
  eapply tells_then; [apply (tells_uok _ 2); [lia | exact h13 | exact g13] | intros E13].
  eapply tells_then; [apply (tells_uok _ 3); [lia | exact h14 | exact g14] | intros E14].
  eapply tells_then; [apply (tells_uok _ 1); [lia | exact h15 | exact g15] | intros E15].
  eapply tells_then; [apply (tells_uok _ 2); [lia | exact h16 | exact g16] | intros E16].
  eapply tells_then; [apply (tells_uok _ 8); [lia | exact h17 | exact g17] | intros E17].
  assert (EH : hv_header v = hv_header v').
  { clear - E1 E2 E3 E4 E5 E6 E7 E8 E9 E10 E11 E12 E13 E14 E15 E16 E17. destruct (hv_header v), (hv_header v'). cbn in *. subst. reflexivity. }
  clear E1 E2 E3 E4 E5 E6 E7 E8 E9 E10 E11 E12 E13 E14 E15 E16. clear h1 h2 h3 h4 h5 h6 h7 h8 h9 h10 h11 h12 h13 h14 h15 h16 h17 g1 g2 g3 g4 g5 g6 g7 g8 g9 g10 g11 g12 g13 g14 g15 g16 g17.
  rewrite <- E17. rewrite N. rewrite Nat2Z.id. assert (L : List.length (hv_arrays v) = List.length (hv_arrays v')) by lia.
  set (m := List.length (hv_arrays v)) in *.
  eapply tells_weaken; [apply (tells_tupto_dep m _ _ (fun j => Forall2 (same_array o) (firstn j (hv_arrays v)) (firstn j (hv_arrays v')) /\
    related (states st (flat_map somes_of (firstn j (hv_arrays v)))) (states st' (flat_map somes_of (firstn j (hv_arrays v'))))))|].
  - split; [constructor | exact R].
  - intros j Hj [Fj Rj]. unfold telem. destruct (nth_error (hv_arrays v) j) as [a|] eqn:Ea; [|apply nth_error_None in Ea; unfold m in Hj; lia].
    destruct (nth_error (hv_arrays v') j) as [a'|] eqn:Ea'; [|apply nth_error_None in Ea'; lia].
    rewrite (firstn_snoc _ _ _ Ea), (firstn_snoc _ _ _ Ea'). rewrite Forall_forall in F, F'. destruct (F a (nth_error_In _ _ Ea)) as (A1 & A2 & A3 & A4), (F' a' (nth_error_In _ _ Ea')) as (B1 & B2 & B3 & B4).
    eapply tells_then; [apply (tells_uok _ 1); [lia | exact A1 | exact B1] | intros T1].
    eapply tells_then; [apply tells_same | intros _].
    eapply tells_then; [apply (tells_uok _ 6); [lia | exact A2 | exact B2] | intros T2].
    eapply tells_then; [apply (tells_uok _ 16); [lia | unfold u_ok; lia | unfold u_ok; lia] | intros T3].
    assert (La : List.length (nalus a) = List.length (nalus a')) by lia. rewrite <- La. set (k := List.length (nalus a)) in *.
    eapply tells_weaken; [apply (tells_tupto_dep k _ _ (fun i => Forall2 (same_entry o) (firstn i (nalus a)) (firstn i (nalus a')) /\
      related (states st (units_before v j i)) (states st' (units_before v' j i))))|].
    + split; [constructor|]. unfold units_before. rewrite Ea, Ea'. cbn [firstn map]. change (somes []) with (@nil nal_unit). rewrite !app_nil_r. exact Rj.
    + intros i Hi [Fi Ri]. destruct (nth_error (nalus a) i) as [[n w]|] eqn:Ei; [|apply nth_error_None in Ei; unfold k in Hi; lia].
      destruct (nth_error (nalus a') i) as [[n' w']|] eqn:Ei'; [|apply nth_error_None in Ei'; lia]. cbn [fst snd]. rewrite (firstn_snoc _ _ _ Ei), (firstn_snoc _ _ _ Ei').
      rewrite Forall_forall in A4, B4. pose proof (A4 _ (nth_error_In _ _ Ei)) as Q. pose proof (B4 _ (nth_error_In _ _ Ei')) as Q'. cbn [fst] in Q, Q'.
      eapply tells_then; [apply (tells_uok _ 16); [lia | exact Q | exact Q'] | intros T4].
      destruct w as [u|]; [|intros ? ? ? ? D; unfold sub in D; discriminate D]. destruct w' as [u'|]; [|intros ? ? ? ? _ D; unfold sub in D; discriminate D]. cbn [tderef].
      destruct (box_at v j a i n u Ea Ei) as (c & Ec), (box_at v' j a' i n' u' Ea' Ei') as (c' & Ec'). rewrite Ec in P. rewrite Ec' in P'.
      destruct (parsed_at _ _ _ _ P) as (b & K1 & K2 & K3 & K4 & K5 & K6), (parsed_at _ _ _ _ P') as (b' & J1 & J2 & J3 & J4 & J5 & J6).
      eapply tells_weaken; [apply tells_sub, (tells_nal o (states st (units_before v j i)) (states st' (units_before v' j i)) (sp j i) (sp' j i) b b' u u'); try assumption|].
      * eapply right_same; [apply in_effect_states | exact (X j a i n u Ea Ei)].
      * eapply right_same; [apply in_effect_states | exact (X' j a' i n' u' Ea' Ei')].
      * intros Su. split; [apply Forall2_app; [exact Fi|]; constructor; [split; [exact T4 | exact Su] | constructor]|].
        unfold units_before in *. rewrite Ea, Ea' in *. rewrite (firstn_snoc _ _ _ Ei), (firstn_snoc _ _ _ Ei'). rewrite !map_app, !somes_app. rewrite !app_assoc, !states_app in *.
        cbn [map snd]. change (somes [Some u]) with [u]. change (somes [Some u']) with [u']. unfold states at 1 4. cbn [fold_left]. apply related_stored; [exact Ri | apply Su].
    + cbv beta. intros [Fk Rk]. assert (Ek' : firstn k (nalus a') = nalus a') by (rewrite La; apply firstn_all). unfold k in Fk at 1. rewrite firstn_all, Ek' in Fk.
      split; [apply Forall2_app; [exact Fj|]; constructor; [split; [exact T1 | split; [exact T2 | exact Fk]] | constructor]|].
      unfold units_before in Rk. rewrite Ea, Ea', Ek' in Rk. unfold k in Rk. rewrite firstn_all in Rk. rewrite !flat_map_app. change (flat_map somes_of [a]) with (somes_of a ++ [])%list. change (flat_map somes_of [a']) with (somes_of a' ++ [])%list. rewrite !app_nil_r. exact Rk.
  - cbv beta. intros [Fm Rm]. unfold same_box, box_list. assert (Em : firstn m (hv_arrays v') = hv_arrays v') by (rewrite L; apply firstn_all). unfold m in Fm at 1, Rm at 1. rewrite firstn_all, Em in Fm, Rm. auto.
Qed.
Lemma moved_self opts ds : forall st us st', Forall byte_string ds -> reached call_ok st -> parse_all opts ds st = Done (us, st') -> Forall2 moved (somes us) (somes us).
Proof.
  intros st us st' F R E. pose proof (parse_all_parsed opts ds st us st') as _.
  assert (G : forall ds st us st', Forall byte_string ds -> reached call_ok st -> parse_all opts ds st = Done (us, st') -> Forall (fun u => nu_offset u = 0) (somes us)).
  { clear. induction ds as [|d ds IH]; intros st us st' F R E; cbn [parse_all] in E; [assert (us = []) as -> by congruence; constructor|]. apply Forall_cons_iff in F. destruct F as [D F].
    destruct (ParseNalUnit opts d st) as [[r st1]|e] eqn:E1; [|discriminate E]. destruct (parse_all opts ds st1) as [[us1 st2]|e] eqn:E2; [|discriminate E]. assert (us = r :: us1) as -> by congruence.
    assert (R1 : reached call_ok st1) by (eapply reached_call with (c := CallUnit opts d); [exact R | exact D | cbn [perform]; rewrite E1; reflexivity]).
    pose proof (store_state_ok _ (reached_store _ R)) as So. specialize (IH st1 us1 st2 F R1 E2).
    destruct (C10_unescape_only_removes d) as (rbsp & Er & _ & Lr & _). destruct (Unescape_byte_string d D) as (rbsp' & Er' & D'). assert (rbsp' = rbsp) by congruence. subst rbsp'.
    rewrite (nal_unit_unesc _ _ _ _ Er) in E1. destruct (le_lt_dec 2 (List.length rbsp)) as [L|L].
    2:{ rewrite (nal_unit_short opts rbsp st D' L) in E1. assert (r = None) as -> by congruence. exact IH. }
    destruct (nal_unit_long opts rbsp st D' So L) as (h & Hh & _ & W & E3). rewrite E3 in E1.
    destruct (payload_fault (nal_unit_type h) st (adv (mk_bb rbsp) 16)) eqn:Pf; [discriminate E1|].
    assert (r = Some (unit_of opts rbsp h st)) as -> by congruence. change (somes (Some ?u :: us1)) with (u :: somes us1)%list. constructor; [reflexivity | exact IH]. }
  specialize (G ds st us st' F R E). clear - G. induction G as [|u l Hu G IH]; [constructor|]. constructor; [|exact IH]. split; [reflexivity|]. split; [reflexivity|]. lia.
Qed.
Lemma combine_snd {A B} (xs : list A) : forall (ys : list B), List.length xs = List.length ys -> map snd (combine xs ys) = ys.
Proof. induction xs as [|x xs IH]; intros [|y ys] E; try discriminate E; [reflexivity|]. cbn [combine map snd]. f_equal. apply IH. injection E as E. exact E. Qed.
Lemma arrays_facts arrs : Forall box_array_ok arrs -> forall us, List.length us = List.length (flat_map ba_nals arrs) ->
  List.length (arrays_of arrs us) = List.length arrs /\
  Forall (fun a => u_ok 1 (array_completeness a) /\ u_ok 6 (NAL_unit_type a) /\ Z.of_nat (List.length (nalus a)) < 2 ^ 16 /\ Forall (fun e => 0 <= fst e < 2 ^ 16) (nalus a)) (arrays_of arrs us) /\
  flat_map somes_of (arrays_of arrs us) = somes us.
Proof.
  induction 1 as [|a arrs (A1 & A2 & A3 & A4) F IH]; intros us L.
  { destruct us; [|discriminate L]. split; [reflexivity|]. split; [constructor | reflexivity]. }
  change (flat_map ba_nals (a :: arrs)) with (ba_nals a ++ flat_map ba_nals arrs)%list in L. rewrite app_length in L. cbn [arrays_of].
  destruct (IH (skipn (List.length (ba_nals a)) us)) as (I1 & I2 & I3); [rewrite skipn_length; lia|].
  assert (Lc : List.length (map (fun x => Z.of_nat (List.length x)) (ba_nals a)) = List.length (firstn (List.length (ba_nals a)) us)) by (rewrite map_length, firstn_length_le; lia).
  split; [cbn [List.length]; rewrite I1; reflexivity|]. split.
  - constructor; [|exact I2]. cbn [array_of array_completeness NAL_unit_type nalus]. split; [exact A1|]. split; [exact A2|]. split; [rewrite combine_length, <- Lc, Nat.min_id, map_length; exact A3|].
    apply Forall_forall. intros [x y] Hi. apply in_combine_l in Hi. apply in_map_iff in Hi. destruct Hi as (z & <- & Hz). rewrite Forall_forall in A4. destruct (A4 z Hz) as [_ Z2]. cbn [fst]. lia.
  - change (flat_map somes_of (?x :: ?l)) with (somes_of x ++ flat_map somes_of l)%list. rewrite I3. unfold somes_of. cbn [array_of nalus]. rewrite combine_snd by exact Lc. rewrite <- somes_app, firstn_skipn. reflexivity.
Qed.
Lemma box_parsed opts data st v st' : byte_string data -> reached call_ok st -> ParseConfigurationBox opts data st = Done (Some v, st') ->
  box_facts st v /\ st' = states st (box_list v) /\ reached call_ok st'.
Proof.
  intros D R E. destruct (C42_sound _ _ _ _ _ D E) as (h & arrs & rest & O & Eb). unfold ParseConfigurationBox in E. rewrite on_buffer_st_eq in E by exact D.
  pose proof D as [F L]. rewrite (box_parses opts h arrs st (mk_bb data) rest (wf_mk _ F L) O Eb) in E.
  assert (Fb : Forall (fun d => byte_string d /\ Z.of_nat (List.length d) < 2 ^ 28) (flat_map ba_nals arrs)).
  { destruct O as (_ & _ & O). clear - O. induction O as [|a arrs Ha _ IH]; [constructor|]. apply Forall_app. split; [|exact IH].
    destruct Ha as (_ & _ & _ & Ha). eapply Forall_impl; [|exact Ha]. intros x [X1 X2]. split; [split; [exact X1|lia] | lia]. }
  assert (Fs : Forall byte_string (flat_map ba_nals arrs)) by (eapply Forall_impl; [|exact Fb]; intros d [H _]; exact H).
  destruct (parse_all opts (flat_map ba_nals arrs) st) as [[us st1]|e] eqn:E1; [|discriminate E]. assert (v = mkHV h (arrays_of arrs us)) as -> by congruence. assert (st' = st1) as -> by congruence.
  destruct O as (O1 & O2 & O3). destruct (arrays_facts arrs O3 us (parse_all_length _ _ _ _ _ E1)) as (A1 & A2 & A3). destruct (parse_all_states _ _ _ _ _ Fs R E1) as [S1 S2].
  unfold box_facts, box_list. cbn [hv_header hv_arrays]. rewrite A3. split; [|split; [exact S1 | exact S2]]. split; [exact O1|]. split; [rewrite A1; exact O2|]. split; [exact A2|].
  eapply parse_all_parsed; [exact Fb | exact R | exact E1|]. eapply moved_self; [exact Fs | exact R | exact E1].
Qed.

(** * The tool, with or without a configuration box and with or without a stream *)
(** A run in the default mode: the box it finds, the bytes and the units of the stream, and the text it prints. *)
Definition reports (args : list arg) (fs : string -> option file) (stdin : list Z) (box : option hvcc) (bytes : list Z) (us : list nal_unit) (t : string) : Prop :=
  exists o st stdin' w spb sp, parse_args args = Ready o /\ a_dumpmode o = dump_all /\
    match a_hvcc_file o with
    | None => box = None /\ st = empty_state /\ stdin' = stdin
    | Some name => exists data v, ReadFile fs stdin (Some name) [] = (Some data, stdin') /\ byte_string data /\
        ParseConfigurationBox (parsing_options (imply o)) data empty_state = Done (Some v, st) /\ box = Some v /\ box_sets_right empty_state v spb
    end /\
    match a_infile o with
    | None => bytes = [] /\ us = []
    | Some name => exists rest bs st', ReadFile fs stdin' (Some name) [] = (Some bytes, rest) /\ small bytes /\
        stream (parsing_options (imply o)) bytes (a_nalu_length_bytes o) st = Done (bs, st') /\ us = bs_units bs
    end /\
    sets_right st us sp /\ main fs w stdin spb sp args = Done (0, t).
Lemma reports_inv args fs stdin box bytes us t : reports args fs stdin box bytes us t -> exists o st spb sp t1 t2,
  parse_args args = Ready o /\ t = t1 ++ t2 /\ parsed st us /\ sets_right st us sp /\ dump_units (imply o) bytes sp 0 us = Done t2 /\ Forall is_byte bytes /\
  match box with
  | None => a_hvcc_file o = None /\ st = empty_state /\ t1 = ""
  | Some v => a_hvcc_file o <> None /\ box_facts empty_state v /\ st = states empty_state (box_list v) /\ box_sets_right empty_state v spb /\
      exists x, fdumped (text_box spb (parsing_options (imply o)) v) (if a_as_one_line o then -1 else 0) = Done x /\ t1 = x ++ newline_str
  end.
Proof.
  intros (o & st & stdin' & w & spb & sp & A & D & B & I & X & M). exists o, st, spb, sp.
  destruct (imply_facts o) as (I1 & I2 & _). assert (I5 : a_nalu_length_bytes (imply o) = a_nalu_length_bytes o) by (destruct o; reflexivity). assert (I6 : a_dumpmode (imply o) = a_dumpmode o) by (destruct o; reflexivity).
  assert (I7 : a_as_one_line (imply o) = a_as_one_line o) by (destruct o; reflexivity).
  unfold main in M. rewrite A in M. cbv zeta in M. unfold load_box in M. rewrite I1 in M.
  assert (Rs : reached call_ok st).
  { destruct (a_hvcc_file o) as [name|]; [destruct B as (data & v & _ & Db & P & _); apply (box_parsed _ _ _ _ _ Db (reached_new _) P) | destruct B as (_ & -> & _); constructor]. }
  assert (U : exists t1 t2, t = t1 ++ t2 /\ dump_units (imply o) bytes sp 0 us = Done t2 /\ Forall is_byte bytes /\ parsed st us /\
    match box with None => t1 = "" | Some v => exists x, fdumped (text_box spb (parsing_options (imply o)) v) (if a_as_one_line o then -1 else 0) = Done x /\ t1 = x ++ newline_str end).
  { assert (M' : match load_units fs stdin' (imply o) st with Bad e => Bad e | Done None => Done (-1, "") | Done (Some units) =>
        if negb w then Done (-1, "") else match match box with None => Done "" | Some b => match fdumped (text_box spb (parsing_options (imply o)) b) (if a_as_one_line o then -1 else 0) with Bad e => Bad e | Done t => Done (t ++ newline_str) end end with
        | Bad e => Bad e | Done t1 => match match units with None => Done "" | Some (buffer, l) => dump_units (imply o) buffer sp 0 l end with Bad e => Bad e | Done t2 => Done (0, t1 ++ t2) end end end = Done (0, t)).
    { rewrite I6, I7, D in M. destruct (a_hvcc_file o) as [name|]; [destruct B as (data & v & R & _ & P & -> & _); rewrite R, P in M | destruct B as (-> & -> & ->)]; exact M. }
    clear M B. unfold load_units in M'. rewrite I2 in M'. rewrite I5 in M'.
    destruct (a_infile o) as [name|].
    - destruct I as (rest & bs & st' & R & Sm & St & ->). unfold stream in St. rewrite R, St in M'. destruct w; cbn [negb] in M'; [|discriminate M'].
      destruct (match box with None => _ | Some b => _ end) as [t1|e] eqn:E1; [|discriminate M']. destruct (dump_units (imply o) bytes sp 0 (bs_units bs)) as [t2|e] eqn:E2; [|discriminate M'].
      assert (t = t1 ++ t2) as -> by (injection M'; intros; subst; reflexivity). exists t1, t2. split; [reflexivity|]. split; [reflexivity|]. split; [apply Sm|].
      split; [eapply stream_parsed; [exact Sm | eapply parse_args_range; exact A | exact Rs | exact St]|].
      destruct box as [v|]; [|congruence]. destruct (fdumped _ _) as [x|e]; [|discriminate E1]. exists x. split; [reflexivity | congruence].
    - destruct I as [-> ->]. destruct w; cbn [negb] in M'; [|discriminate M'].
      destruct (match box with None => _ | Some b => _ end) as [t1|e] eqn:E1; [|discriminate M']. assert (t = t1 ++ "") as -> by (injection M'; intros; subst; reflexivity). exists t1, "". split; [reflexivity|].
      split; [reflexivity|]. split; [constructor|]. split; [constructor|].
      destruct box as [v|]; [|congruence]. destruct (fdumped _ _) as [x|e]; [|discriminate E1]. exists x. split; [reflexivity | congruence]. }
  destruct U as (t1 & t2 & U1 & U2 & U3 & U4 & U5). exists t1, t2. split; [exact A|]. split; [exact U1|]. split; [exact U4|]. split; [exact X|]. split; [exact U2|]. split; [exact U3|].
  destruct (a_hvcc_file o) as [name|].
  - destruct B as (data & v & R & Db & P & -> & Xb). split; [discriminate|]. destruct (box_parsed _ _ _ _ _ Db (reached_new _) P) as (F1 & F2 & _). split; [exact F1|]. split; [exact F2|]. split; [exact Xb | exact U5].
  - destruct B as (-> & -> & _). split; [reflexivity|]. split; [reflexivity | exact U5].
Qed.
(** Two runs with the same arguments that print the same words have found the same box and the same units. *)
Theorem C85_box_and_stream : forall args o fs fs' stdin stdin' box box' bytes bytes' us us' t t', parse_args args = Ready o ->
  reports args fs stdin box bytes us t -> reports args fs' stdin' box' bytes' us' t' -> words t = words t' ->
  match box, box' with Some v, Some v' => same_box (parsing_options (imply o)) v v' | None, None => True | _, _ => False end /\
  Forall2 (same_shown (imply o) bytes bytes') us us'.
Proof.
  intros args o fs fs' stdin stdin' box box' bytes bytes' us us' t t' A H H' W.
  destruct (reports_inv _ _ _ _ _ _ _ H) as (o1 & st & spb & sp & t1 & t2 & A1 & -> & P & X & U & By & B). destruct (reports_inv _ _ _ _ _ _ _ H') as (o2 & st' & spb' & sp' & t1' & t2' & A2 & -> & P' & X' & U' & By' & B').
  assert (o1 = o) by congruence. assert (o2 = o) by congruence. subst o1 o2. clear H H' A1 A2.
  assert (K : (match box, box' with Some v, Some v' => same_box (parsing_options (imply o)) v v' | None, None => True | _, _ => False end) /\ related st st' /\ words t2 = words t2').
  { destruct box as [v|], box' as [v'|].
    - destruct B as (_ & F & -> & S & x & Ex & ->), B' as (_ & F' & -> & S' & x' & Ex' & ->). unfold fdumped in Ex, Ex'.
      destruct (text_box spb (parsing_options (imply o)) v) as [c|e] eqn:T; [|discriminate Ex]. destruct (text_box spb' (parsing_options (imply o)) v') as [c'|e] eqn:T'; [|discriminate Ex'].
      apply done_inj1 in Ex, Ex'. subst x x'.
      assert (Wb : forall sp0 v0 c0 t0, text_box sp0 (parsing_options (imply o)) v0 = Done c0 -> words ((run (if a_as_one_line o then -1 else 0) [] c0 ++ newline_str) ++ t0) = (toks c0 ++ words t0)%list).
      { clear. intros sp0 v0 c0 t0 T. rewrite sapp_assoc. destruct (struct_text c0 (gs_text (T_box sp0 (parsing_options (imply o)) v0) c0 T) (if a_as_one_line o then -1 else 0) ltac:(destruct (a_as_one_line o); lia)) as (W & _). unfold text_of in W.
        rewrite words_headed by reflexivity. rewrite W. reflexivity. }
      rewrite (Wb _ _ _ t2 T), (Wb _ _ _ t2' T') in W.
      destruct (tells_box (parsing_options (imply o)) empty_state empty_state spb spb' v v' (fun k => conj eq_refl eq_refl) F F' S S' c c' _ _ T T' W) as [[Q1 Q2] Q3]. auto.
    - destruct B as (N & _), B' as (N' & _). congruence.
    - destruct B as (N & _), B' as (N' & _). congruence.
    - destruct B as (_ & -> & ->), B' as (_ & -> & ->). split; [exact Logic.I|]. split; [intros k; split; reflexivity | exact W]. }
  destruct K as (K1 & K2 & K3). split; [exact K1|]. exact (lockstep (imply o) bytes bytes' By By' us us' st st' sp sp' 0 0 t2 t2' P P' K2 X X' U U' K3).
Qed.

(** * Examples *)
(** The parameter sets in effect, for the slices of a stream that follows a state and for the slices of a box. *)
Definition found_at (st : state) (u : nal_unit) : sps * pps :=
  match np_slice (nu_payload u) with
  | Some h => match st_pps st (slice_pic_parameter_set_id h) with
    | Some (q, _) => match st_sps st (pps_seq_parameter_set_id q) with Some (s, _) => (s, q) | None => no_sp end
    | None => no_sp end
  | None => no_sp end.
Lemma found_right st u : right st (found_at st u) (nu_payload u).
Proof. intros h q s Eh [[x X] [y Y]]. unfold found_at. rewrite Eh, X, Y. reflexivity. Qed.
Definition stream_sets (st : state) (us : list nal_unit) (k : nat) : sps * pps := match nth_error us k with Some u => found_at (in_effect st (firstn k us)) u | None => no_sp end.
Lemma stream_sets_right st us : sets_right st us (stream_sets st us).
Proof. intros k u E. unfold stream_sets. rewrite E. apply found_right. Qed.
Definition box_sets (st : state) (v : hvcc) (j i : nat) : sps * pps :=
  match nth_error (hv_arrays v) j with
  | Some a => match nth_error (nalus a) i with Some (_, Some u) => found_at (in_effect st (units_before v j i)) u | _ => no_sp end
  | None => no_sp end.
Lemma box_sets_are_right st v : box_sets_right st v (box_sets st v).
Proof. intros j a i n u E E'. unfold box_sets. rewrite E, E'. apply found_right. Qed.

Definition two_files (box bytes : list Z) (name : string) : option file := if String.eqb name "box" then Some (whole box) else if String.eqb name "in" then Some (whole bytes) else None.
Definition found_pair (opts : options) (box bytes : list Z) : outcome (option (hvcc * state * list nal_unit)) :=
  match ParseConfigurationBox opts box empty_state return outcome (option (hvcc * state * list nal_unit)) with
  | Done (Some v, st) => match stream opts bytes (-1) st return outcome (option (hvcc * state * list nal_unit)) with Done (bs, _) => Done (Some (v, st, bs_units bs)) | Bad e => Bad e end
  | Done (None, _) => Done None
  | Bad e => Bad e end.
Definition run_pair (args : list arg) (box bytes : list Z) (r : hvcc * state * list nal_unit) : outcome (Z * string) :=
  main (two_files box bytes) true [] (box_sets empty_state (fst (fst r))) (stream_sets (snd (fst r)) (snd r)) args.
Lemma C85_reports args o box bytes v st us t : parse_args args = Ready o -> a_dumpmode o = dump_all -> a_hvcc_file o = Some "box" -> a_infile o = Some "in" -> a_nalu_length_bytes o = -1 ->
  byte_string box -> small bytes -> ReadFile (two_files box bytes) [] (Some "box") [] = (Some box, []) -> ReadFile (two_files box bytes) [] (Some "in") [] = (Some bytes, []) ->
  found_pair (parsing_options (imply o)) box bytes = Done (Some (v, st, us)) -> run_pair args box bytes (v, st, us) = Done (0, t) ->
  reports args (two_files box bytes) [] (Some v) bytes us t.
Proof.
  intros A D B I N Bb Sm R1 R2 F M. unfold found_pair in F. unfold run_pair in M. cbn [fst snd] in M.
  destruct (ParseConfigurationBox (parsing_options (imply o)) box empty_state) as [[[w|] st0]|e] eqn:Eb; try discriminate F.
  destruct (stream (parsing_options (imply o)) bytes (-1) st0) as [[bs st']|e] eqn:Es; [|discriminate F].
  assert (w = v) as -> by congruence. assert (st0 = st) as -> by congruence. assert (us = bs_units bs) as -> by congruence. clear F.
  exists o, st, [], true, (box_sets empty_state v), (stream_sets st (bs_units bs)). split; [exact A|]. split; [exact D|]. rewrite B, I, N.
  split; [exists box, v; split; [exact R1|]; split; [exact Bb|]; split; [exact Eb|]; split; [reflexivity | apply box_sets_are_right]|].
  split; [exists [], bs, st'; split; [exact R2|]; split; [exact Sm|]; split; [exact Es | reflexivity]|]. split; [apply stream_sets_right | exact M].
Qed.
(** An hvcC file with an SPS, a PPS and a slice, and a stream that has only an access unit delimiter and a slice. *)
Definition C85_slice : list Z := C24_nal 1 (enc_slice false 1 C31_sps C37_pps C37_header).
Definition C85_header : hvcc_header := mkHH 0 1 2 (repeat 1 32) 0x900000000000 93 5 2 1 2 3 25 1 4 1 3 3.
Definition C85_box : list Z := pack (enc_box C85_header [mkBA 1 33 [C24_nal 33 (enc_sps false C31_sps)]; mkBA 0 34 [C24_nal 34 (enc_pps false C37_pps)]; mkBA 0 1 [C85_slice]]).
Definition C85_slices : list Z := annexb_stream [(true, C24_nal 35 (enc_u 3 2)); (false, C85_slice)].
Definition C85_box_args : list arg := [O_hvcc_file "box"; O_infile "in"; O_add_length true].
Definition C85_check (opts : options) (args : list arg) (box bytes : list Z) : bool :=
  match found_pair opts box bytes return bool with
  | Done (Some r) => match run_pair args box bytes r return bool with Done (c, t) => (c =? 0) && (2000 <? String.length t)%nat | Bad _ => false end
  | _ => false end.
Definition C85_slices_of (opts : options) (box bytes : list Z) : option (list (option slice_header) * list (option slice_header)) :=
  match found_pair opts box bytes return option (list (option slice_header) * list (option slice_header)) with
  | Done (Some r) => Some (map (fun u => np_slice (nu_payload u)) (box_list (fst (fst r))), map (fun u => np_slice (nu_payload u)) (snd r))
  | _ => None end.
Lemma C85_checked args o box bytes hb hs : parse_args args = Ready o -> a_dumpmode o = dump_all -> a_hvcc_file o = Some "box" -> a_infile o = Some "in" -> a_nalu_length_bytes o = -1 ->
  byte_string box -> small bytes -> ReadFile (two_files box bytes) [] (Some "box") [] = (Some box, []) -> ReadFile (two_files box bytes) [] (Some "in") [] = (Some bytes, []) ->
  C85_check (parsing_options (imply o)) args box bytes = true -> C85_slices_of (parsing_options (imply o)) box bytes = Some (hb, hs) ->
  exists v us t, reports args (two_files box bytes) [] (Some v) bytes us t /\
    map (fun u => np_slice (nu_payload u)) (box_list v) = hb /\ map (fun u => np_slice (nu_payload u)) us = hs /\ (2000 < String.length t)%nat.
Proof.
  intros A D B I N Bb Sm R1 R2 C E. unfold C85_check in C. unfold C85_slices_of in E.
  destruct (found_pair (parsing_options (imply o)) box bytes) as [[[[v st] us]|]|e] eqn:F; try discriminate C. cbn [fst snd] in E.
  destruct (run_pair args box bytes (v, st, us)) as [[c t]|e] eqn:M; [|discriminate C]. apply andb_true_iff in C. destruct C as [C1 C2]. apply Z.eqb_eq in C1. subst c.
  exists v, us, t. split; [eapply C85_reports; eassumption|]. split; [congruence|]. split; [congruence | apply Nat.ltb_lt; exact C2].
Qed.
Example C85_box_case : exists v us t, reports C85_box_args (two_files C85_box C85_slices) [] (Some v) C85_slices us t /\
  map (fun u => np_slice (nu_payload u)) (box_list v) = [None; None; Some C37_header] /\ map (fun u => np_slice (nu_payload u)) us = [None; Some C37_header] /\ (2000 < String.length t)%nat.
Proof.
  eapply C85_checked; [reflexivity | reflexivity | reflexivity | reflexivity | reflexivity | split; [apply bytesb_ok; vm_compute; reflexivity | vm_compute; reflexivity] | split; [apply bytesb_ok; vm_compute; reflexivity | vm_compute; reflexivity]
    | vm_compute; reflexivity | vm_compute; reflexivity | vm_compute; reflexivity | vm_compute; reflexivity].
Qed.
