(** Facts about the command line tool. *)
From Coq Require Import ZArith List Bool Lia String Ascii.
From Verif Require Import MBase MBitBuffer Spec Reader Syntax MCommon CommonFacts MFraming MSyntaxA MSps MPps MSlice MNal FactsNal MRtp MText SpecText FactsText MTool SpecTool.
Import ListNotations.
Open Scope string_scope.
Open Scope Z_scope.

Definition no_comma (s : string) : bool := sall (fun c => negb (Ascii.eqb c ",")) s.
Definition cell (s : string) : bool := no_comma s && plain s.
Fixpoint row_str (r : list string) : string := match r with [] => "" | [f] => f | f :: fs => f ++ "," ++ row_str fs end.
Fixpoint table_str (rs : list (list string)) : string := match rs with [] => "" | r :: t => row_str r ++ newline_str ++ table_str t end.

Lemma fields_word s : no_comma s = true -> fields s = [s].
Proof.
  unfold no_comma. induction s as [|c s IH]; [reflexivity|]. cbn [sall fields]. intros H. apply andb_prop in H. destruct H as [H1 H2].
  destruct (Ascii.eqb c ","); [discriminate H1|]. rewrite IH by exact H2. reflexivity.
Qed.
Lemma fields_cut s t : no_comma s = true -> fields (s ++ String "," t) = s :: fields t.
Proof.
  unfold no_comma. induction s as [|c s IH]; [reflexivity|]. cbn [sall fields String.append]. intros H. apply andb_prop in H. destruct H as [H1 H2].
  destruct (Ascii.eqb c ","); [discriminate H1|]. rewrite IH by exact H2. reflexivity.
Qed.
Lemma row_str_cons f g r : row_str (f :: g :: r) = f ++ "," ++ row_str (g :: r). Proof. reflexivity. Qed.
Lemma fields_row r : r <> [] -> forallb cell r = true -> fields (row_str r) = r.
Proof.
  induction r as [|f r IH]; intros N H; [congruence|]. cbn [forallb] in H. apply andb_prop in H. destruct H as [H1 H2]. unfold cell in H1. apply andb_prop in H1. destruct H1 as [H1 _].
  destruct r as [|g r]; [apply fields_word, H1|]. rewrite row_str_cons. cbn [String.append]. rewrite fields_cut by exact H1. rewrite IH by (congruence || exact H2). reflexivity.
Qed.
Lemma plain_row r : forallb cell r = true -> plain (row_str r) = true.
Proof.
  induction r as [|f r IH]; [reflexivity|]. intros H. cbn [forallb] in H. apply andb_prop in H. destruct H as [H1 H2]. unfold cell in H1. apply andb_prop in H1. destruct H1 as [_ H1].
  destruct r as [|g r]; [exact H1|]. rewrite row_str_cons, !plain_app, H1, (IH H2). reflexivity.
Qed.
Lemma lines_table rs : forallb (forallb cell) rs = true -> lines (table_str rs) = (map row_str rs ++ [""])%list.
Proof.
  induction rs as [|r rs IH]; [reflexivity|]. intros H. cbn [forallb] in H. apply andb_prop in H. destruct H as [H1 H2]. cbn [table_str map List.app].
  unfold newline_str. cbn [String.append]. rewrite lines_cut by (apply plain_row, H1). rewrite IH by exact H2. reflexivity.
Qed.
Definition row_ok (r : list string) : bool := (9 =? Z.of_nat (List.length r)) && forallb cell r.
Lemma csv_table rs : forallb row_ok rs = true -> csv_rows (table_str rs) = rs /\ complete (table_str rs).
Proof.
  intros H. assert (H1 : forallb (forallb cell) rs = true).
  { rewrite forallb_forall in *. intros r I. specialize (H r I). unfold row_ok in H. apply andb_prop in H. apply H. }
  unfold csv_rows, complete. rewrite lines_table by exact H1. split; [|apply last_last]. rewrite removelast_last, map_map. rewrite <- (map_id rs) at 2. apply map_ext_in.
  intros r I. rewrite forallb_forall in H. specialize (H r I). unfold row_ok in H. apply andb_prop in H. destruct H as [L C]. apply fields_row; [|exact C].
  intros ->. discriminate L.
Qed.
Lemma table_app a b : table_str (a ++ b)%list = table_str a ++ table_str b.
Proof. induction a as [|r a IH]; [reflexivity|]. cbn [List.app table_str]. rewrite IH, !sapp_assoc. reflexivity. Qed.

(** Cells *)
Lemma sall_cell s : sall (fun c => digit c || Ascii.eqb c "-") s = true -> cell s = true.
Proof.
  intros H. unfold cell, no_comma, plain. apply andb_true_intro. split; (eapply sall_mono; [|exact H]); intros c; [destruct (Ascii.eqb_spec c ","); [subst; cbn; discriminate | reflexivity]|].
  cbv beta. destruct (is_newline c) eqn:E; [|reflexivity]. unfold is_newline in E. apply Ascii.eqb_eq in E. subst c. cbn. discriminate.
Qed.
Lemma dec_cell x : cell (dec x) = true.
Proof.
  unfold cell, no_comma, plain. apply andb_true_intro. pose proof (proj1 (dec_digit x)) as D.
  split; (eapply sall_mono; [|exact D]); intros c; destruct c as [[] [] [] [] [] [] [] []]; vm_compute; congruence.
Qed.
Lemma name_cell ty : cell (NalUnitTypeToString ty) = true.
Proof.
  unfold NalUnitTypeToString. assert (H : forall l, forallb (fun p => cell (snd p)) l = true -> cell (lookup l ty) = true).
  { induction l as [|[k n] l IH]; [reflexivity|]. cbn [forallb lookup snd]. intros H. apply andb_prop in H. destruct (ty =? k); [apply H | apply IH, H]. }
  apply H. vm_compute. reflexivity.
Qed.

(** * The rows *)
Lemma slice_cell_cell f u : cell (slice_cell f u) = true.
Proof. unfold slice_cell. destruct (slice u); [|reflexivity]. destruct (np_slice _); [apply dec_cell | reflexivity]. Qed.
Lemma unit_row_ok k i u : row_ok (unit_row k i u) = true.
Proof. unfold row_ok, unit_row. cbn [List.length forallb]. rewrite !dec_cell, name_cell, !slice_cell_cell. reflexivity. Qed.
Lemma unit_rows_ok k g : forall i, forallb row_ok (unit_rows k i g) = true.
Proof. induction g as [|u g IH]; intros i; [reflexivity|]. cbn [unit_rows forallb]. rewrite unit_row_ok, IH. reflexivity. Qed.
Lemma picture_row_ok fps k g : row_ok (picture_row fps k g) = true.
Proof. unfold row_ok, picture_row. cbn [List.length forallb]. rewrite !dec_cell. reflexivity. Qed.
Lemma picture_rows_ok fps gs : forall k i, forallb row_ok (picture_rows fps k i gs) = true.
Proof.
  induction gs as [|g gs IH]; intros k i; [reflexivity|]. cbn [picture_rows]. rewrite !forallb_app, unit_rows_ok, IH. destruct (has_slice g); cbn [forallb]; [rewrite picture_row_ok|]; reflexivity.
Qed.
Lemma unit_rows_app k a b : forall i, unit_rows k i (a ++ b)%list = (unit_rows k i a ++ unit_rows k (i + Z.of_nat (List.length a)) b)%list.
Proof.
  induction a as [|u a IH]; intros i; [cbn [List.app List.length unit_rows]; f_equal; lia|]. cbn [List.app unit_rows List.length]. rewrite IH. f_equal. f_equal. f_equal. lia.
Qed.
Lemma slice_bytes_app a b : slice_bytes (a ++ b)%list = slice_bytes a + slice_bytes b.
Proof. induction a as [|u a IH]; [reflexivity|]. cbn [List.app slice_bytes]. lia. Qed.
Lemma has_slice_app a b : has_slice (a ++ b)%list = has_slice a || has_slice b.
Proof. induction a as [|u a IH]; [reflexivity|]. cbn [List.app has_slice]. rewrite IH. apply orb_assoc. Qed.
Lemma last_type_app a u : last_slice_type (a ++ [u])%list = if slice u then unit_type u else last_slice_type a.
Proof. unfold last_slice_type. rewrite fold_left_app. reflexivity. Qed.

(** * The cut *)
Fixpoint group (cur us : list nal_unit) : list (list nal_unit) :=
  match us with
  | [] => [cur]
  | u :: r => if starts_picture u && has_slice cur then cur :: group [u] r else group (cur ++ [u])%list r
  end.
Lemma group_concat us : forall cur, List.concat (group cur us) = (cur ++ us)%list.
Proof.
  induction us as [|u us IH]; intros cur; cbn [group]; [reflexivity|]. destruct (starts_picture u && has_slice cur); cbn [List.concat]; rewrite IH; [reflexivity|]. rewrite <- app_assoc. reflexivity.
Qed.
Lemma starts_slice u : starts_picture u = true -> slice u = true.
Proof. unfold starts_picture. intros H. apply andb_prop in H. apply H. Qed.
Lemma snoc_cut {A} (c : list A) v a u b : (c ++ [v])%list = (a ++ u :: b)%list -> (b = [] /\ c = a /\ v = u) \/ exists b', b = (b' ++ [v])%list /\ c = (a ++ u :: b')%list.
Proof.
  destruct b as [|x b] using rev_ind; intros E.
  - left. apply app_inj_tail in E. destruct E as [-> ->]. auto.
  - right. exists b. rewrite app_comm_cons, app_assoc in E. apply app_inj_tail in E. destruct E as [-> ->]. auto.
Qed.
Definition clean (g : list nal_unit) : Prop := forall a u b, g = (a ++ u :: b)%list -> starts_picture u = true -> has_slice a = false.
Lemma group_head us : forall cur, exists r t, group cur us = (cur ++ r)%list :: t.
Proof.
  induction us as [|u us IH]; intros cur; cbn [group]; [exists [], []; rewrite app_nil_r; reflexivity|]. destruct (starts_picture u && has_slice cur).
  - exists [], (group [u] us). rewrite app_nil_r. reflexivity.
  - destruct (IH (cur ++ [u])%list) as (r & t & ->). exists (u :: r), t. rewrite <- app_assoc. reflexivity.
Qed.
Lemma clean_one u : clean [u].
Proof. intros a v b E _. destruct a as [|x a]; [reflexivity|]. destruct a; discriminate E. Qed.
Lemma group_ok us : forall cur, clean cur ->
  (forall g, In g (group cur us) -> clean g) /\ (forall g gs', group cur us = g :: gs' -> gs' <> [] -> has_slice g = true) /\
  (forall g, In g (tl (group cur us)) -> match g with u :: _ => starts_picture u = true | [] => False end).
Proof.
  induction us as [|u us IH]; intros cur C; cbn [group].
  - split; [intros g [<-|[]]; exact C|]. split; [intros g gs' E N; injection E as <- <-; congruence|]. intros g [].
  - destruct (starts_picture u) eqn:S; cbn [andb]; [destruct (has_slice cur) eqn:Hc|].
    + destruct (IH [u] (clean_one u)) as (I1 & I2 & I3). split; [intros g [<-|I]; [exact C | exact (I1 g I)]|]. split; [intros g gs' E _; injection E as <- _; exact Hc|].
      cbn [tl]. intros g I. destruct (group_head us [u]) as (r & t & E). rewrite E in I, I3. destruct I as [<-|I]; [exact S | exact (I3 g I)].
    + apply IH. intros a v b E Sv. destruct (snoc_cut _ _ _ _ _ E) as [(-> & -> & _)|(b' & -> & ->)]; [exact Hc | exact (C _ _ _ eq_refl Sv)].
    + apply IH. intros a v b E Sv. destruct (snoc_cut _ _ _ _ _ E) as [(-> & -> & ->)|(b' & -> & ->)]; [congruence | exact (C _ _ _ eq_refl Sv)].
Qed.
Lemma group_pictures us : pictures (group [] us).
Proof.
  assert (C : clean []) by (intros [|? ?] ? ? E; discriminate E). destruct (group_ok us [] C) as (I1 & I2 & I3). split; [|split; assumption]. intros g a u b I E. exact (I1 g I a u b E).
Qed.

(** * The loop *)
Lemma slice_is ty : IsSliceSegment ty = ((0 <=? ty) && (ty <=? 9)) || ((16 <=? ty) && (ty <=? 21)).
Proof.
  unfold IsSliceSegment, case_of. unfold TRAIL_N, TRAIL_R, TSA_N, TSA_R, STSA_N, STSA_R, RADL_N, RADL_R, RASL_N, RASL_R, BLA_W_LP, BLA_W_RADL, BLA_N_LP, IDR_W_RADL, IDR_N_LP, CRA_NUT. cbv beta iota delta [existsb].
  destruct (Z.leb_spec 0 ty), (Z.leb_spec ty 9), (Z.leb_spec 16 ty), (Z.leb_spec ty 21); cbn [andb orb]; try lia;
    repeat match goal with |- context [ty =? ?k] => destruct (Z.eqb_spec ty k); [subst; try lia; reflexivity|] end; cbn [orb]; try lia; reflexivity.
Qed.
Lemma slice_type u : IsSliceSegment (nal_unit_type (nu_header u)) = slice u.
Proof. apply slice_is. Qed.
(** The counters after the units of the current picture [cur], the [k]th, that starts with unit number [i] *)
Definition counted (s : counters) (cur : list nal_unit) (k i : Z) : Prop :=
  total_bytes s = slice_bytes cur /\ nal_num s = i + Z.of_nat (List.length cur) /\ frame_num s = k /\ (has_slice cur = true -> last_slice_nal_unit_type s = last_slice_type cur).
Definition positive (us : list nal_unit) : Prop := Forall (fun u => slice u = true -> 0 < nu_length u) us.
Lemma positive_bytes g : positive g -> 0 <= slice_bytes g /\ (0 <? slice_bytes g) = has_slice g.
Proof.
  induction 1 as [|u g H P [I1 I2]]; [split; [apply Z.le_refl | reflexivity]|]. cbn [slice_bytes has_slice]. destruct (slice u); cbn [orb].
  - specialize (H eq_refl). split; [lia|]. apply Z.ltb_lt. lia.
  - split; [lia|]. rewrite Z.add_0_l. exact I2.
Qed.
Lemma frame_row_str fps s g k : frame_num s = k -> last_slice_nal_unit_type s = last_slice_type g -> total_bytes s = slice_bytes g ->
  frame_row fps s = table_str [picture_row fps k g].
Proof.
  intros E1 E2 E3. unfold frame_row, picture_row, table_str, row_str. rewrite E1, E2, E3. unfold pr_u.
  replace (u64 (u64 (slice_bytes g * 8) * fps)) with ((8 * fps * slice_bytes g) mod 2 ^ 64).
  - unfold newline_str. rewrite !sapp_assoc. cbn [String.append]. rewrite ?sapp_assoc. reflexivity.
  - unfold u64. rewrite Z.mul_mod_idemp_l by discriminate. f_equal. lia.
Qed.
Lemma nal_row_slice s u h : slice u = true -> np_slice (nu_payload u) = Some h ->
  nal_row s u true (first_slice_segment_in_pic_flag h) (slice_segment_address h) (slice_pic_order_cnt_lsb h) = table_str [unit_row (frame_num s) (nal_num s) u].
Proof.
  intros S E. unfold nal_row, unit_row, slice_cell, table_str, row_str, opt_value, pr_u, unit_type. rewrite S, E. unfold newline_str. rewrite !sapp_assoc. cbn [String.append]. rewrite ?sapp_assoc. reflexivity.
Qed.
Lemma nal_row_other s u : slice u = false -> nal_row s u false 0 0 0 = table_str [unit_row (frame_num s) (nal_num s) u].
Proof.
  intros S. unfold nal_row, unit_row, slice_cell, table_str, row_str, opt_value, pr_u, unit_type. rewrite S. unfold newline_str. rewrite !sapp_assoc. cbn [String.append]. rewrite ?sapp_assoc. reflexivity.
Qed.
Definition final (fps : Z) (s : counters) : string := if 0 <? total_bytes s then frame_row fps s else "".
Lemma table_one r t : table_str [r] ++ table_str t = table_str (r :: t).
Proof. cbn [table_str]. rewrite sapp_nil, sapp_assoc. reflexivity. Qed.

Lemma done_inj {A B} (a c : A) (b d : B) : Done (a, b) = Done (c, d) -> a = c /\ b = d.
Proof. intros H. injection H as -> ->. auto. Qed.
Lemma csv_loop fps us : forall s cur k i t s', positive cur -> positive us -> slice_bytes cur + slice_bytes us < 2 ^ 64 -> counted s cur k i ->
  csv_units fps s us = Done (t, s') -> table_str (unit_rows k i cur) ++ t ++ final fps s' = table_str (picture_rows fps k i (group cur us)).
Proof.
  induction us as [|u us IH]; intros s cur k i t s' Pc Pu Lt (C1 & C2 & C3 & C4) E.
  - cbn [csv_units] in E. injection E as <- <-. cbn [group picture_rows String.append]. rewrite app_nil_r, table_app. f_equal. unfold final. destruct (positive_bytes _ Pc) as [_ B].
    rewrite C1, B. destruct (has_slice cur) eqn:Hs; [|reflexivity]. apply frame_row_str; auto.
  - inversion Pu as [|? ? Pu1 Pu2]; subst. cbn [csv_units] in E. cbn [slice_bytes] in Lt. destruct (positive_bytes _ Pc) as [Bc Bs], (positive_bytes _ Pu2) as [Bu _].
    destruct (csv_unit fps s u) as [[t1 s1]|e] eqn:E1; [|discriminate E]. destruct (csv_units fps s1 us) as [[t2 s2]|e] eqn:E2; [|discriminate E]. injection E as <- <-.
    unfold csv_unit in E1. rewrite slice_type in E1. destruct (slice u) eqn:S.
    + destruct (np_slice (nu_payload u)) as [h|] eqn:Eh; [|discriminate E1]. specialize (Pu1 eq_refl).
      assert (St : starts_picture u = (first_slice_segment_in_pic_flag h =? 1)) by (unfold starts_picture; rewrite S, Eh; reflexivity).
      cbn [group]. rewrite St. rewrite C1, Bs in E1. destruct ((first_slice_segment_in_pic_flag h =? 1) && has_slice cur) eqn:B.
      * apply done_inj in E1; destruct E1 as [<- <-]. apply andb_prop in B. destruct B as [_ Hc]. cbn [picture_rows]. rewrite Hc, !table_app.
        rewrite (nal_row_slice _ _ _ S Eh). cbn [frame_num nal_num total_bytes]. cbn [frame_num nal_num total_bytes] in E2.
        rewrite (frame_row_str fps s cur (frame_num s) eq_refl (C4 Hc) C1). 
        assert (K : counted (mkCount (u64 (0 + nu_length u)) (nal_num s + 1) (frame_num s + 1) (nal_unit_type (nu_header u))) [u] (frame_num s + 1) (i + Z.of_nat (List.length cur))).
        { unfold counted. cbn [total_bytes nal_num frame_num last_slice_nal_unit_type List.length slice_bytes has_slice]. rewrite S. unfold last_slice_type. cbn [fold_left]. rewrite S.
          split; [unfold u64; rewrite Z.mod_small; lia|]. split; [lia|]. split; [reflexivity|]. reflexivity. }
        assert (P1 : positive [u]) by (constructor; [auto | constructor]).
        specialize (IH _ _ _ _ _ _ P1 Pu2 ltac:(cbn [slice_bytes]; rewrite S; lia) K E2). cbn [unit_rows] in IH. rewrite <- IH.
        rewrite C2. rewrite !sapp_assoc. reflexivity.
      * apply done_inj in E1; destruct E1 as [<- <-]. cbn [frame_num nal_num total_bytes last_slice_nal_unit_type String.append] in *.
        rewrite (nal_row_slice _ _ _ S Eh). cbn [frame_num nal_num].
        assert (Pc' : positive (cur ++ [u])%list) by (apply Forall_app; split; [exact Pc | constructor; [auto | constructor]]).
        assert (K : counted (mkCount (u64 (total_bytes s + nu_length u)) (nal_num s + 1) (frame_num s) (nal_unit_type (nu_header u))) (cur ++ [u])%list (frame_num s) i).
        { unfold counted. cbn [total_bytes nal_num frame_num last_slice_nal_unit_type]. rewrite slice_bytes_app, app_length, last_type_app, S. cbn [slice_bytes List.length]. rewrite S.
          split; [unfold u64; rewrite C1, Z.mod_small; lia|]. split; [lia|]. split; reflexivity. }
        specialize (IH _ _ _ _ _ _ Pc' Pu2 ltac:(rewrite slice_bytes_app; cbn [slice_bytes]; rewrite S; lia) K E2). rewrite <- IH, unit_rows_app, table_app. cbn [unit_rows].
        rewrite C2. rewrite !sapp_assoc. reflexivity.
    + apply done_inj in E1; destruct E1 as [<- <-]. cbn [group]. assert (St : starts_picture u = false) by (unfold starts_picture; rewrite S; reflexivity). rewrite St. cbn [andb].
      rewrite (nal_row_other _ _ S).
      assert (Pc' : positive (cur ++ [u])%list) by (apply Forall_app; split; [exact Pc | constructor; [intros Z; congruence | constructor]]).
      assert (K : counted (mkCount (total_bytes s) (nal_num s + 1) (frame_num s) (last_slice_nal_unit_type s)) (cur ++ [u])%list (frame_num s) i).
      { unfold counted. cbn [total_bytes nal_num frame_num last_slice_nal_unit_type]. rewrite slice_bytes_app, app_length, last_type_app, has_slice_app, S. cbn [slice_bytes has_slice List.length]. rewrite S.
        split; [lia|]. split; [lia|]. split; [reflexivity|]. cbn [orb]. rewrite orb_false_r. exact C4. }
      specialize (IH _ _ _ _ _ _ Pc' Pu2 ltac:(rewrite slice_bytes_app; cbn [slice_bytes]; rewrite S; lia) K E2). rewrite <- IH, unit_rows_app, table_app. cbn [unit_rows].
      rewrite C2. rewrite !sapp_assoc. reflexivity.
Qed.
