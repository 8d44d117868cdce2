(** C90: what is printed about a unit does not depend on what follows it. *)
From Coq Require Import ZArith List Bool Lia ZifyBool ZifyNat String Ascii.
From Verif Require Import MBase MBitBuffer Spec BitsFacts Reader ReaderFacts Syntax MCommon CommonFacts MFraming FramingFacts PropsFraming MSyntaxA Api MSps MPps MSlice MNal FactsNal PropsNal
  MRtp PropsQp MText SpecText FactsText PropsText MTool SpecTool FactsTool PropsTool PropsToolB PropsToolC PropsToolE PropsSame.
Import ListNotations.
Open Scope string_scope.
Open Scope Z_scope.

(** * Specification *)
(** The lines of a text, each ended by a newline *)
Definition printed (t : string) : list string := removelast (lines t).
(** The lines of [t], but for the last [n], are the first lines of [t']. *)
Definition same_but_last (n : nat) (t t' : string) : Prop :=
  firstn (List.length (printed t) - n) (printed t) = firstn (List.length (printed t) - n) (printed t').

(** * Start codes *)
Lemma starts_before a b : exists more, start_codes (a ++ b)%list = (start_codes a ++ more)%list.
Proof.
  unfold start_codes. rewrite app_length. set (k := (List.length a - 3)%nat).
  assert (Ea : filter (is_start_code a) (List.seq 0 (List.length a)) = filter (is_start_code a) (List.seq 0 k)).
  { replace (List.length a) with (k + (List.length a - k))%nat by (unfold k; lia). rewrite seq_app, filter_app. rewrite (filter_seq_none (is_start_code a) (List.length a - k) (0 + k)).
    - apply app_nil_r.
    - intros j Hj. unfold is_start_code. destruct (Nat.ltb_spec (j + 3) (List.length a)) as [H|H]; [unfold k in Hj; lia | reflexivity]. }
  rewrite Ea. replace (List.length a + List.length b)%nat with (k + (List.length a + List.length b - k))%nat by (unfold k; lia). rewrite seq_app, filter_app. eexists. f_equal.
  apply filter_ext_in. intros j Hj. apply in_seq in Hj. unfold is_start_code. rewrite app_length.
  destruct (Nat.ltb_spec (j + 3) (List.length a)) as [H|H]; [|unfold k in Hj; lia]. destruct (Nat.ltb_spec (j + 3) (List.length a + List.length b)); [|lia]. rewrite !app_nth1 by lia. reflexivity.
Qed.
(** Every unit but the last one is the same whatever follows. *)
Lemma units_before a b ps : Forall (fun p => (p + 3 < List.length a)%nat) ps -> forall more, exists c l r,
  units_at a ps = (c ++ l)%list /\ (List.length l <= 1)%nat /\ units_at (a ++ b)%list (ps ++ more)%list = (c ++ r)%list.
Proof.
  induction 1 as [|p ps Hp F IH]; intros more; [exists [], [], (units_at (a ++ b)%list more); split; [reflexivity|]; split; [cbn; lia | reflexivity]|].
  destruct ps as [|q ps].
  - cbn [units_at List.app]. eexists [], [_], _. split; [reflexivity|]. split; [cbn; lia | reflexivity].
  - destruct (IH more) as (c & l & r & E1 & L & E2). inversion F; subst.
    exists (mkIx (Z.of_nat (start_code_begin a p)) (Z.of_nat (p + 3)) (Z.of_nat (start_code_begin a q) - Z.of_nat (p + 3)) :: c), l, r. cbn [List.app] in E2 |- *.
    split; [|split; [exact L|]].
    + change (units_at a (p :: q :: ps)) with (mkIx (Z.of_nat (start_code_begin a p)) (Z.of_nat (p + 3)) (Z.of_nat (start_code_begin a q) - Z.of_nat (p + 3)) :: units_at a (q :: ps)). rewrite E1. reflexivity.
    + rewrite <- (scb_left a b p), <- (scb_left a b q) by lia.
      change (units_at (a ++ b)%list (p :: q :: (ps ++ more)%list)) with (mkIx (Z.of_nat (start_code_begin (a ++ b)%list p)) (Z.of_nat (p + 3)) (Z.of_nat (start_code_begin (a ++ b)%list q) - Z.of_nat (p + 3)) :: units_at (a ++ b)%list (q :: (ps ++ more)%list)).
      rewrite E2. reflexivity.
Qed.
Lemma annexb_before a b : exists c l r, annexb_units a = (c ++ l)%list /\ (List.length l <= 1)%nat /\ annexb_units (a ++ b)%list = (c ++ r)%list.
Proof.
  destruct (starts_before a b) as [more E]. unfold annexb_units. rewrite E. apply units_before. apply start_codes_bound.
Qed.

(** * Parsing *)
(** The unit lies in the buffer. *)
Definition inside (data : list Z) (u : nal_unit) : Prop := 0 <= nu_offset u /\ 0 <= nu_length u /\ nu_offset u + nu_length u <= Z.of_nat (List.length data).
Lemma placed_inside data ixs us : Forall (in_bounds data) ixs -> Forall (inside data) (placed ixs us).
Proof.
  intros F. revert us. induction F as [|ix ixs (B1 & B2 & B3) F IH]; intros [|o us]; try constructor. cbn [placed]. apply Forall_app. split; [|apply IH].
  destruct o as [u|]; cbn [place]; [|constructor]. constructor; [|constructor]. unfold inside, set_range. cbn [nu_offset nu_length]. lia.
Qed.
Lemma parse_all_len opts ds : forall st us st', parse_all opts ds st = Done (us, st') -> List.length us = List.length ds.
Proof.
  induction ds as [|d ds IH]; intros st us st' E; cbn [parse_all] in E; [injection E as <- <-; reflexivity|].
  destruct (ParseNalUnit opts d st) as [[u s1]|]; [|discriminate E]. destruct (parse_all opts ds s1) as [[us1 s2]|] eqn:E1; [|discriminate E]. injection E as <- <-.
  cbn [List.length]. rewrite (IH _ _ _ E1). reflexivity.
Qed.
(** Two files that begin with the same bytes [a]: the units found in them are the same as in [a] alone, but for the last unit of [a]. *)
Theorem C90_parse : forall opts a b st bs st1 bs' st2, Z.of_nat (List.length (a ++ b)%list) < 2 ^ 64 ->
  ParseBitstream opts a st = Done (bs, st1) -> ParseBitstream opts (a ++ b)%list st = Done (bs', st2) ->
  exists us l r, bs_units bs = (us ++ l)%list /\ (List.length l <= 1)%nat /\ bs_units bs' = (us ++ r)%list /\ Forall (inside a) us.
Proof.
  intros opts a b st bs st1 bs' st2 L E E'. assert (La : Z.of_nat (List.length a) < 2 ^ 64) by (rewrite app_length in L; lia).
  rewrite ParseBitstream_spec in E by exact La. rewrite ParseBitstream_spec in E' by exact L.
  pose proof (annexb_in_bounds a La) as B. destruct (annexb_before a b) as (c & l & r & E1 & Ll & E2). rewrite E1 in E, B. rewrite E2 in E'.
  apply Forall_app in B. destruct B as [Bc Bl].
  rewrite map_app, parse_all_app in E. rewrite map_app, parse_all_app in E'.
  assert (P : map (payload (a ++ b)%list) c = map (payload a) c).
  { apply map_ext_in. intros ix I. rewrite Forall_forall in Bc. apply payload_left, Bc, I. }
  rewrite P in E'. destruct (parse_all opts (map (payload a) c) st) as [[us s1]|] eqn:Pc; [|discriminate E].
  destruct (parse_all opts (map (payload a) l) s1) as [[ul s2]|] eqn:Pl; [|discriminate E]. destruct (parse_all opts (map (payload (a ++ b)%list) r) s1) as [[ur s3]|] eqn:Pr; [|discriminate E'].
  injection E as <- <-. injection E' as <- <-. cbn [bs_units].
  pose proof (parse_all_len _ _ _ _ _ Pc) as N1. pose proof (parse_all_len _ _ _ _ _ Pl) as N2. rewrite map_length in N1, N2.
  rewrite !placed_app by exact N1. exists (placed c us), (placed l ul), (placed r ur). split; [reflexivity|]. split; [|split; [reflexivity | apply placed_inside, Bc]].
  clear - Ll N2. destruct l as [|x [|y l]]; [cbn; destruct ul; cbn; lia| |cbn in Ll; lia]. destruct ul as [|[u|] [|v ul]]; try discriminate N2; cbn; lia.
Qed.
(** If what follows begins with a start code, all units of [a] are the same. *)
Theorem C90_parse_appended : forall opts a b st bs st1 bs' st2, Z.of_nat (List.length (a ++ b)%list) < 2 ^ 64 -> cut_at_start_code a b -> (forall l, a <> (l ++ [0; 0; 1])%list) ->
  ParseBitstream opts a st = Done (bs, st1) -> ParseBitstream opts (a ++ b)%list st = Done (bs', st2) ->
  exists r, bs_units bs' = (bs_units bs ++ r)%list /\ Forall (inside a) (bs_units bs).
Proof.
  intros opts a b st bs st1 bs' st2 L C N E E'. assert (La : Z.of_nat (List.length a) < 2 ^ 64) by (rewrite app_length in L; lia).
  rewrite (C24_cut opts a b st L C N), E in E'. destruct (ParseBitstream opts b st1) as [[b2 s2]|]; [|discriminate E']. injection E' as <- <-. cbn [bs_units].
  eexists. split; [reflexivity|]. rewrite ParseBitstream_spec in E by exact La. destruct (parse_all _ _ st) as [[us s]|]; [|discriminate E]. injection E as <- <-. cbn [bs_units].
  apply placed_inside, annexb_in_bounds, La.
Qed.

(** With lengths *)
Lemma framed_before n : (0 < n)%nat -> forall nals nals' tail tail' b, Forall (unit_ok false n) nals -> Forall (unit_ok false n) nals' -> incomplete false n tail' ->
  ((framed n nals ++ tail) ++ b)%list = (framed n nals' ++ tail')%list -> exists more, nals' = (nals ++ more)%list.
Proof.
  intros Hn. induction nals as [|x nals IH]; intros nals' tail tail' b F F' I E; [exists nals'; reflexivity|].
  inversion F as [|? ? [U1 [U2|U2]] F2]; subst; [discriminate U2|]. destruct nals' as [|y nals'].
  - exfalso. change (framed n []) with (@nil Z) in E. cbn [List.app] in E. rewrite <- E in I. rewrite framed_cons in I. rewrite <- !app_assoc in I. unfold incomplete in I.
    rewrite firstn_app, be_bytes_length, Nat.sub_diag, firstn_O, app_nil_r, firstn_all2 in I by (rewrite be_bytes_length; lia).
    rewrite be_bytes_val in I by lia. rewrite !app_length, be_bytes_length in I. destruct x as [|x0 x]; [congruence|]. cbn [List.length] in I. lia.
  - inversion F' as [|? ? [V1 V2] F2']; subst. rewrite !framed_cons, <- !app_assoc in E.
    assert (E1 := f_equal (firstn n) E). rewrite !firstn_app, !be_bytes_length, !Nat.sub_diag, !firstn_O, !app_nil_r, !firstn_all2 in E1 by (rewrite be_bytes_length; lia).
    assert (Ln : List.length x = List.length y).
    { apply (f_equal be_val) in E1. rewrite !be_bytes_val in E1 by lia. lia. }
    rewrite E1 in E. apply app_inv_head in E. assert (Ex : x = y).
    { apply (f_equal (firstn (List.length x))) in E. rewrite Ln in E at 2. rewrite !firstn_app, !Nat.sub_diag, !firstn_O, !app_nil_r, !firstn_all in E. exact E. }
    subst y. apply app_inv_head in E. rewrite app_assoc in E. destruct (IH nals' tail tail' b F2 F2' I E) as [more ->]. exists more. reflexivity.
Qed.
Lemma framed_ranges_app n nals more : forall off, exists off', framed_ranges n off (nals ++ more)%list = (framed_ranges n off nals ++ framed_ranges n off' more)%list.
Proof.
  induction nals as [|x nals IH]; intros off; [exists off; reflexivity|]. cbn [List.app framed_ranges]. destruct (IH (off + Z.of_nat n + Z.of_nat (List.length x))) as [off' E]. exists off'. rewrite E. reflexivity.
Qed.
Lemma framed_ranges_len n nals : forall off, List.length (framed_ranges n off nals) = List.length nals.
Proof. induction nals as [|x nals IH]; intros off; [reflexivity|]. cbn [framed_ranges List.length]. rewrite IH. reflexivity. Qed.
Lemma placed_nl_app n rs us : forall rs' us', List.length us = List.length rs -> placed_nl n (rs ++ rs')%list (us ++ us')%list = (placed_nl n rs us ++ placed_nl n rs' us')%list.
Proof.
  revert us. induction rs as [|r rs IH]; intros [|u us] rs' us' E; try discriminate E; [reflexivity|]. cbn [List.app placed_nl]. rewrite IH by (cbn in E; lia). apply app_assoc.
Qed.
(** Units with their lengths in [n] bytes in front: all units of [a] are the same, wherever the cut is. *)
Theorem C90_parse_lengths : forall opts a b n st bs st1 bs' st2, Forall is_byte (a ++ b)%list -> Z.of_nat (List.length (a ++ b)%list) < 2 ^ 63 -> 1 <= n <= 7 ->
  ParseBitstreamNALULength opts a n st = Done (bs, st1) -> ParseBitstreamNALULength opts (a ++ b)%list n st = Done (bs', st2) ->
  exists r, bs_units bs' = (bs_units bs ++ r)%list.
Proof.
  intros opts a b n st bs st1 bs' st2 By L Hn E E'. assert (La : Z.of_nat (List.length a) < 2 ^ 63) by (rewrite app_length in L; lia).
  replace n with (Z.of_nat (Z.to_nat n)) in E, E' by lia. set (m := Z.to_nat n) in *. assert (Hm : (0 < m <= 7)%nat) by (unfold m; lia).
  assert (Ba : Forall is_byte a) by (apply Forall_app in By; apply By).
  destruct (C24_length_prefixed opts a m st Ba La Hm) as (nals & tail & D & U & I & P). destruct (C24_length_prefixed opts (a ++ b)%list m st By L Hm) as (nals' & tail' & D' & U' & I' & P').
  rewrite D in D' at 1. destruct (framed_before m ltac:(lia) nals nals' tail tail' b U U' I' D') as [more Em]. subst nals'.
  rewrite P in E. rewrite P', parse_all_app in E'. destruct (parse_all opts nals st) as [[us s1]|] eqn:Pa; [|discriminate E].
  destruct (parse_all opts more s1) as [[us2 s2]|]; [|discriminate E']. injection E as <- <-. injection E' as <- <-. cbn [bs_units].
  destruct (framed_ranges_app m nals more 0) as [off' Er]. rewrite Er. rewrite placed_nl_app by (rewrite framed_ranges_len; exact (parse_all_len _ _ _ _ _ Pa)). eexists. reflexivity.
Qed.

(** * Printing *)
Lemma contents_left a b u : inside a u -> MTool.contents (a ++ b)%list u = MTool.contents a u.
Proof.
  intros (B1 & B2 & B3). unfold MTool.contents. rewrite skipn_app, firstn_app, skipn_length.
  replace (Z.to_nat (nu_length u) - (List.length a - Z.to_nat (nu_offset u)))%nat with O by lia. rewrite firstn_O, app_nil_r. reflexivity.
Qed.
Lemma dump_units_left o a b sp us : (a_add_contents o = true -> Forall (inside a) us) -> forall i, dump_units o (a ++ b)%list sp i us = dump_units o a sp i us.
Proof.
  induction us as [|u us IH]; intros F i; [reflexivity|]. cbn [dump_units]. rewrite IH by (intros H; specialize (F H); inversion F; assumption).
  unfold dump_unit. destruct (a_add_contents o) eqn:C; [|reflexivity]. rewrite contents_left by (specialize (F eq_refl); inversion F; assumption). reflexivity.
Qed.

Lemma sapp_nil s : s ++ "" = s. Proof. induction s as [|c s IH]; [reflexivity|]. cbn. rewrite IH. reflexivity. Qed.
Lemma complete_lines p : complete p <-> lines p = (printed p ++ [""])%list.
Proof.
  unfold complete, printed. split; intros H.
  - destruct (lines_some p) as (l & ls & E). rewrite (app_removelast_last "?" (l := lines p)) at 1 by (rewrite E; discriminate). rewrite H. reflexivity.
  - rewrite H. apply last_last.
Qed.
Lemma printed_app p r : complete p -> printed (p ++ r) = (printed p ++ printed r)%list.
Proof.
  intros C. apply complete_lines in C. unfold printed at 1. rewrite (lines_after p (printed p) r C). destruct (lines_some r) as (l & ls & E). rewrite removelast_app; [reflexivity|]. rewrite E. discriminate.
Qed.
Lemma complete_app p r : complete p -> complete r -> complete (p ++ r).
Proof.
  intros C D. apply complete_lines in C. apply complete_lines in D. unfold complete. rewrite (lines_after p (printed p) r C), D, app_assoc. apply last_last.
Qed.
Lemma complete_nl s : complete (s ++ newline_str).
Proof.
  unfold complete. induction s as [|c s IH]; [reflexivity|]. cbn [String.append lines]. destruct (lines_some (s ++ newline_str)) as (l & ls & E). rewrite E in IH |- *.
  destruct (is_newline c); [exact IH|]. destruct ls as [|x ls]; [|exact IH]. exfalso. clear IH. revert l E. induction s as [|d s IHs]; intros l E; [discriminate E|].
  cbn [String.append lines] in E. destruct (lines_some (s ++ newline_str)) as (l1 & ls1 & E1). rewrite E1 in E. destruct (is_newline d); [discriminate E|]. destruct ls1; [exact (IHs l1 E1) | discriminate E].
Qed.
Lemma prefix_same p r r' n : complete p -> (List.length (printed r) <= n)%nat -> same_but_last n (p ++ r) (p ++ r').
Proof.
  intros C L. unfold same_but_last. rewrite !printed_app by exact C. rewrite app_length.
  replace (List.length (printed p) + List.length (printed r) - n)%nat with (Nat.min (List.length (printed p)) (List.length (printed p) + List.length (printed r) - n)) by lia.
  set (k := (List.length (printed p) + List.length (printed r) - n)%nat). rewrite !firstn_app. replace (Nat.min (List.length (printed p)) k - List.length (printed p))%nat with O by lia. reflexivity.
Qed.
Lemma dump_units_complete o buf sp us : forall i t, dump_units o buf sp i us = Done t -> complete t.
Proof.
  induction us as [|u us IH]; intros i t E; cbn [dump_units] in E; [injection E as <-; reflexivity|].
  destruct (dump_unit o buf (sp i) u) as [t1|] eqn:D; [|discriminate E]. destruct (dump_units o buf sp (S i) us) as [t2|] eqn:D2; [|discriminate E]. injection E as <-.
  apply complete_app; [|exact (IH _ _ D2)]. unfold dump_unit in D. destruct (fdumped _ _) as [x|]; [|discriminate D]. injection D as <-. rewrite <- sapp_assoc. apply complete_nl.
Qed.
Lemma box_text_complete o spb b t : box_text o spb b = Done t -> complete t.
Proof.
  unfold box_text. destruct b as [b|]; [|intros E; injection E as <-; reflexivity]. destruct (fdumped _ _) as [x|]; [|discriminate]. intros E. injection E as <-. apply complete_nl.
Qed.

(** The rows of the table *)
Definition rows (n : nat) (t : string) : Prop := exists rs, t = table_str rs /\ forallb (forallb cell) rs = true /\ (List.length rs <= n)%nat.
Lemma rows_printed n t : rows n t -> complete t /\ (List.length (printed t) <= n)%nat.
Proof.
  intros (rs & -> & C & L). pose proof (lines_table rs C) as E. split; [unfold complete; rewrite E; apply last_last|]. unfold printed. rewrite E, removelast_last, map_length. exact L.
Qed.
Lemma rows_app n m t t' : rows n t -> rows m t' -> rows (n + m) (t ++ t').
Proof.
  intros (rs & -> & C & L) (rs' & -> & C' & L'). exists (rs ++ rs')%list. rewrite table_app. split; [reflexivity|]. rewrite forallb_app, C, C', app_length. split; [reflexivity | lia].
Qed.
Lemma rows_nil : rows 0 "". Proof. exists []. split; [reflexivity|]. split; [reflexivity | cbn; lia]. Qed.
Lemma rows_more n m t : rows n t -> (n <= m)%nat -> rows m t.
Proof. intros (rs & E & C & L) H. exists rs. split; [exact E|]. split; [exact C | lia]. Qed.
Lemma frame_rows fps s : rows 1 (frame_row fps s).
Proof.
  exists [[""; dec (frame_num s); dec (last_slice_nal_unit_type s); "frame"; ""; dec (u64 (u64 (total_bytes s * 8) * fps)); ""; ""; ""]].
  split; [|split; [cbn [forallb]; rewrite !dec_cell; reflexivity | cbn; lia]].
  unfold frame_row, table_str, row_str, pr_u. unfold newline_str. rewrite ?sapp_assoc. cbn [String.append]. rewrite ?sapp_assoc. reflexivity.
Qed.
Lemma opt_cell v h : cell (opt_value v h) = true. Proof. unfold opt_value. destruct h; [apply dec_cell | reflexivity]. Qed.
Lemma nal_rows s u h a b c : rows 1 (nal_row s u h a b c).
Proof.
  exists [[dec (nal_num s); dec (frame_num s); dec (nal_unit_type (nu_header u)); NalUnitTypeToString (nal_unit_type (nu_header u)); dec (nu_length u); ""; opt_value a h; opt_value b h; opt_value c h]].
  split; [|split; [cbn [forallb]; rewrite !dec_cell, !opt_cell, name_cell; reflexivity | cbn; lia]].
  unfold nal_row, table_str, row_str, pr_u. unfold newline_str. rewrite ?sapp_assoc. cbn [String.append]. rewrite ?sapp_assoc. reflexivity.
Qed.
Lemma csv_unit_rows fps s u t s' : csv_unit fps s u = Done (t, s') -> rows 2 t.
Proof.
  unfold csv_unit. destruct (IsSliceSegment _).
  - destruct (np_slice (nu_payload u)) as [h|]; [|discriminate]. cbv zeta. destruct ((first_slice_segment_in_pic_flag h =? 1) && (0 <? total_bytes s)); intros E; apply done_inj1 in E; apply (f_equal fst) in E; cbn [fst] in E; subst t.
    + apply (rows_app 1 1); [apply frame_rows | apply nal_rows].
    + apply (rows_app 0 2); [apply rows_nil|]. eapply rows_more; [apply nal_rows | lia].
  - intros E; apply done_inj1 in E; apply (f_equal fst) in E; cbn [fst] in E; subst t. eapply rows_more; [apply nal_rows | lia].
Qed.
Lemma csv_units_rows fps us : forall s t s', csv_units fps s us = Done (t, s') -> rows (2 * List.length us) t.
Proof.
  induction us as [|u us IH]; intros s t s' E; cbn [csv_units] in E; [injection E as <- <-; apply rows_nil|].
  destruct (csv_unit fps s u) as [[t1 s1]|] eqn:E1; [|discriminate E]. destruct (csv_units fps s1 us) as [[t2 s2]|] eqn:E2; [|discriminate E]. injection E as <- <-.
  replace (2 * List.length (u :: us))%nat with (2 + 2 * List.length us)%nat by (cbn [List.length]; lia). apply rows_app; [exact (csv_unit_rows _ _ _ _ _ E1) | exact (IH _ _ _ E2)].
Qed.
Lemma csv_units_app fps a : forall b s, csv_units fps s (a ++ b)%list =
  match csv_units fps s a with Bad e => Bad e | Done (t, s1) => match csv_units fps s1 b with Bad e => Bad e | Done (t', s2) => Done (t ++ t', s2) end end.
Proof.
  induction a as [|u a IH]; intros b s; cbn [List.app csv_units].
  - destruct (csv_units fps s b) as [[t s1]|]; reflexivity.
  - destruct (csv_unit fps s u) as [[t s1]|]; [|reflexivity]. rewrite IH. destruct (csv_units fps s1 a) as [[t1 s2]|]; [|reflexivity].
    destruct (csv_units fps s2 b) as [[t2 s3]|]; [|reflexivity]. rewrite sapp_assoc. reflexivity.
Qed.
Lemma csv_prefix fps us l r t t' : csv_dump fps (us ++ l)%list = Done t -> csv_dump fps (us ++ r)%list = Done t' ->
  exists p x x', t = p ++ x /\ t' = p ++ x' /\ complete p /\ (List.length (printed x) <= 2 * List.length l + 1)%nat.
Proof.
  unfold csv_dump. rewrite !csv_units_app. destruct (csv_units fps _ us) as [[tu su]|] eqn:E; [|discriminate].
  destruct (csv_units fps su l) as [[tl sl]|] eqn:El; [|discriminate]. destruct (csv_units fps su r) as [[tr sr]|]; [|discriminate]. intros H H'. apply done_inj1 in H. apply done_inj1 in H'. subst t t'.
  rewrite !sapp_assoc, <- !(sapp_assoc csv_header). eexists (csv_header ++ tu), _, _. split; [reflexivity|]. split; [reflexivity|]. split.
  - apply complete_app; [reflexivity|]. apply csv_units_rows in E. apply rows_printed in E. apply E.
  - apply rows_printed. apply rows_app; [exact (csv_units_rows _ _ _ _ _ El)|]. destruct (0 <? total_bytes sl); [apply frame_rows|]. eapply rows_more; [apply rows_nil | lia].
Qed.
Lemma dump_prefix o a b sp us l r t t' : (a_add_contents o = true -> Forall (inside a) us) -> dump_units o a sp 0 (us ++ l)%list = Done t -> dump_units o (a ++ b)%list sp 0 (us ++ r)%list = Done t' ->
  exists p x x', t = p ++ x /\ t' = p ++ x' /\ complete p /\ dump_units o a sp (List.length us) l = Done x.
Proof.
  intros F E E'. apply dump_units_app in E. apply dump_units_app in E'. destruct E as (p & x & P & X & ->), E' as (p' & x' & P' & X' & ->).
  rewrite (dump_units_left o a b sp us F) in P'. assert (p' = p) by congruence. subst p'. exists p, x, x'. split; [reflexivity|]. split; [reflexivity|]. split; [exact (dump_units_complete _ _ _ _ _ _ P) | exact X].
Qed.
Lemma dump_one o a sp l i x : a_as_one_line o = true -> dump_units o a sp i l = Done x -> List.length (printed x) = List.length l.
Proof. intros O X. destruct (dump_units_lines o a sp l O i x X) as (ts & L & E & _). unfold printed. rewrite E, removelast_last. exact L. Qed.

(** * The tool *)
Lemma main_prefix args o fs fs' w w' stdin stdin' spb sp box a b t t' : parse_args args = Ready o -> given fs stdin o box a -> given fs' stdin' o box b ->
  main fs w stdin spb sp args = Done (0, t) -> main fs' w' stdin' spb sp args = Done (0, t') ->
  exists st p bs s1 bs' s2 x x', stream (parsing_options (imply o)) a (a_nalu_length_bytes o) st = Done (bs, s1) /\ stream (parsing_options (imply o)) b (a_nalu_length_bytes o) st = Done (bs', s2) /\
    complete p /\ units_text (imply o) a sp (bs_units bs) = Done x /\ units_text (imply o) b sp (bs_units bs') = Done x' /\ t = p ++ x /\ t' = p ++ x'.
Proof.
  intros A G G' M M'. rewrite (main_given args o fs w stdin spb sp box a A G) in M. rewrite (main_given args o fs' w' stdin' spb sp box b A G') in M'.
  destruct (box_of _ box) as [[[bx st]|]|e]; [|discriminate M|discriminate M].
  destruct (stream _ a _ st) as [[bs s1]|] eqn:S1; [|discriminate M]. destruct (stream _ b _ st) as [[bs' s2]|] eqn:S2; [|discriminate M'].
  destruct w, w'; cbn [negb] in M, M'; try discriminate M; try discriminate M'.
  destruct (box_text (imply o) spb bx) as [p|] eqn:B; [|discriminate M]. destruct (units_text (imply o) a sp _) as [x|] eqn:X; [|discriminate M]. destruct (units_text (imply o) b sp _) as [x'|] eqn:X'; [|discriminate M'].
  exists st, p, bs, s1, bs', s2, x, x'. repeat split; try assumption; try congruence. exact (box_text_complete _ _ _ _ B).
Qed.
Lemma imply_fields o : a_as_one_line (imply o) = a_as_one_line o /\ a_dumpmode (imply o) = a_dumpmode o /\ a_add_contents (imply o) = a_add_contents o.
Proof. destruct o. repeat split. Qed.

(** The file that holds only the first bytes, whatever was cut off: the output is the same but for the lines of the unit that was cut.  With --dump-length these are the row of the unit,
    the row of the picture that it ends, and the row of the picture at the end. *)
Theorem C90_truncated : forall args o fs fs' w w' stdin stdin' spb sp box a b t t', parse_args args = Ready o -> a_nalu_length_bytes o = -1 -> (a_dumpmode o = dump_all -> a_as_one_line o = true) ->
  Z.of_nat (List.length (a ++ b)%list) < 2 ^ 64 -> given fs stdin o box a -> given fs' stdin' o box (a ++ b)%list ->
  main fs w stdin spb sp args = Done (0, t) -> main fs' w' stdin' spb sp args = Done (0, t') ->
  same_but_last (match a_dumpmode o with dump_all => 1 | dump_length => 3 end) t t'.
Proof.
  intros args o fs fs' w w' stdin stdin' spb sp box a b t t' A N One L G G' M M'.
  destruct (main_prefix args o fs fs' w w' stdin stdin' spb sp box a _ t t' A G G' M M') as (st & p & bs & s1 & bs' & s2 & x & x' & S1 & S2 & C & X & X' & -> & ->).
  unfold stream in S1, S2. rewrite N in S1, S2. change (-1 <? 0) with true in S1, S2. cbv iota in S1, S2.
  destruct (C90_parse _ a b st bs s1 bs' s2 L S1 S2) as (us & l & r & E1 & Ll & E2 & In). rewrite E1 in X. rewrite E2 in X'. unfold units_text in X, X'.
  destruct (imply_fields o) as (F1 & F2 & F3). rewrite F2 in X, X'. destruct (a_dumpmode o).
  - destruct (dump_prefix (imply o) a b sp us l r x x' (fun _ => In) X X') as (q & y & y' & -> & -> & Cq & Dy). rewrite <- !sapp_assoc. apply prefix_same; [apply complete_app; assumption|].
    rewrite (dump_one (imply o) a sp l _ y ltac:(rewrite F1; apply One; reflexivity) Dy). exact Ll.
  - destruct (csv_prefix _ us l r x x' X X') as (q & y & y' & -> & -> & Cq & Ly). rewrite <- !sapp_assoc. apply prefix_same; [apply complete_app; assumption | lia].
Qed.
(** In the layout with many lines as well: up to the text of one unit the output is the same. *)
Theorem C90_truncated_text : forall args o fs fs' w w' stdin stdin' spb sp box a b t t', parse_args args = Ready o -> a_nalu_length_bytes o = -1 -> a_dumpmode o = dump_all ->
  Z.of_nat (List.length (a ++ b)%list) < 2 ^ 64 -> given fs stdin o box a -> given fs' stdin' o box (a ++ b)%list ->
  main fs w stdin spb sp args = Done (0, t) -> main fs' w' stdin' spb sp args = Done (0, t') ->
  exists p x x', t = p ++ x /\ t' = p ++ x' /\ complete p /\ (x = "" \/ exists k u, dump_unit (imply o) a (sp k) u = Done x).
Proof.
  intros args o fs fs' w w' stdin stdin' spb sp box a b t t' A N D L G G' M M'.
  destruct (main_prefix args o fs fs' w w' stdin stdin' spb sp box a _ t t' A G G' M M') as (st & p & bs & s1 & bs' & s2 & x & x' & S1 & S2 & C & X & X' & -> & ->).
  unfold stream in S1, S2. rewrite N in S1, S2. change (-1 <? 0) with true in S1, S2. cbv iota in S1, S2.
  destruct (C90_parse _ a b st bs s1 bs' s2 L S1 S2) as (us & l & r & E1 & Ll & E2 & In). rewrite E1 in X. rewrite E2 in X'. unfold units_text in X, X'.
  destruct (imply_fields o) as (F1 & F2 & F3). rewrite F2, D in X, X'.
  destruct (dump_prefix (imply o) a b sp us l r x x' (fun _ => In) X X') as (q & y & y' & -> & -> & Cq & Dy). exists (p ++ q), y, y'. rewrite !sapp_assoc. repeat split; [apply complete_app; assumption|].
  destruct l as [|u [|v l]]; [left; cbn in Dy; congruence| |cbn in Ll; lia]. right. cbn [dump_units] in Dy. destruct (dump_unit (imply o) a (sp (List.length us)) u) as [z|] eqn:Z; [|discriminate Dy].
  exists (List.length us), u. rewrite Z. injection Dy as <-. rewrite sapp_nil. reflexivity.
Qed.
(** More units are appended to the file: more text is appended to the output.  With --dump-length the row of the last picture may change. *)
Theorem C90_appended : forall args o fs fs' w w' stdin stdin' spb sp box a b t t', parse_args args = Ready o -> a_nalu_length_bytes o = -1 ->
  Z.of_nat (List.length (a ++ b)%list) < 2 ^ 64 -> cut_at_start_code a b -> (forall l, a <> (l ++ [0; 0; 1])%list) -> given fs stdin o box a -> given fs' stdin' o box (a ++ b)%list ->
  main fs w stdin spb sp args = Done (0, t) -> main fs' w' stdin' spb sp args = Done (0, t') ->
  match a_dumpmode o with dump_all => exists more, t' = t ++ more | dump_length => same_but_last 1 t t' end.
Proof.
  intros args o fs fs' w w' stdin stdin' spb sp box a b t t' A N L Cu Nz G G' M M'.
  destruct (main_prefix args o fs fs' w w' stdin stdin' spb sp box a _ t t' A G G' M M') as (st & p & bs & s1 & bs' & s2 & x & x' & S1 & S2 & C & X & X' & -> & ->).
  unfold stream in S1, S2. rewrite N in S1, S2. change (-1 <? 0) with true in S1, S2. cbv iota in S1, S2.
  destruct (C90_parse_appended _ a b st bs s1 bs' s2 L Cu Nz S1 S2) as (r & E2 & In). rewrite <- (app_nil_r (bs_units bs)) in X. rewrite E2 in X'. unfold units_text in X, X'.
  destruct (imply_fields o) as (F1 & F2 & F3). rewrite F2 in X, X'. destruct (a_dumpmode o).
  - destruct (dump_prefix (imply o) a b sp _ [] r x x' (fun _ => In) X X') as (q & y & y' & -> & -> & Cq & Dy). cbn in Dy. injection Dy as <-. exists y'. rewrite sapp_nil, sapp_assoc. reflexivity.
  - destruct (csv_prefix _ _ [] r x x' X X') as (q & y & y' & -> & -> & Cq & Ly). rewrite <- !sapp_assoc. apply prefix_same; [apply complete_app; assumption | cbn in Ly; lia].
Qed.
(** Lengths in front of the units: the same for every file and every place of the cut. *)
Theorem C90_lengths : forall args o fs fs' w w' stdin stdin' spb sp box a b t t', parse_args args = Ready o -> 1 <= a_nalu_length_bytes o <= 7 -> a_add_contents o = false ->
  Forall is_byte (a ++ b)%list -> Z.of_nat (List.length (a ++ b)%list) < 2 ^ 63 -> given fs stdin o box a -> given fs' stdin' o box (a ++ b)%list ->
  main fs w stdin spb sp args = Done (0, t) -> main fs' w' stdin' spb sp args = Done (0, t') ->
  match a_dumpmode o with dump_all => exists more, t' = t ++ more | dump_length => same_but_last 1 t t' end.
Proof.
  intros args o fs fs' w w' stdin stdin' spb sp box a b t t' A N Co By L G G' M M'.
  destruct (main_prefix args o fs fs' w w' stdin stdin' spb sp box a _ t t' A G G' M M') as (st & p & bs & s1 & bs' & s2 & x & x' & S1 & S2 & C & X & X' & -> & ->).
  unfold stream in S1, S2. destruct (Z.ltb_spec (a_nalu_length_bytes o) 0) as [H|_]; [lia|].
  destruct (C90_parse_lengths _ a b _ st bs s1 bs' s2 By L N S1 S2) as (r & E2). rewrite <- (app_nil_r (bs_units bs)) in X. rewrite E2 in X'. unfold units_text in X, X'.
  destruct (imply_fields o) as (F1 & F2 & F3). rewrite F2 in X, X'. destruct (a_dumpmode o).
  - destruct (dump_prefix (imply o) a b sp _ [] r x x' ltac:(congruence) X X') as (q & y & y' & -> & -> & Cq & Dy). cbn in Dy. injection Dy as <-. exists y'. rewrite sapp_nil, sapp_assoc. reflexivity.
  - destruct (csv_prefix _ _ [] r x x' X X') as (q & y & y' & -> & -> & Cq & Ly). rewrite <- !sapp_assoc. apply prefix_same; [apply complete_app; assumption | cbn in Ly; lia].
Qed.

(** * Examples *)
Definition C90_printed (r : outcome (Z * string)) : list string := match r return list string with Done (c, t) => if c =? 0 then printed t else [] | Bad _ => [] end.
(** The stream of C70, cut in the middle of its first slice: three of the four lines are lines of the whole stream, the fourth is another one. *)
Definition C90_run (n : nat) (args : list arg) : list string := C90_printed (run_on (firstn n tool_stream) args).
Definition C90_all : list arg := [O_infile "in"; O_add_contents true].
Definition C90_csv : list arg := [O_infile "in"; O_dump_length].
Example C90_case : exists o, parse_args C90_all = Ready o /\ a_nalu_length_bytes o = -1 /\ a_dumpmode o = dump_all /\ a_as_one_line o = true /\ a_add_contents o = true /\
  given (tool_fs (firstn 305 tool_stream)) [] o None (firstn 305 tool_stream) /\ given (tool_fs tool_stream) [] o None (firstn 305 tool_stream ++ skipn 305 tool_stream)%list /\
  List.length (C90_run 305 C90_all) = 4%nat /\ List.length (C90_run 1000 C90_all) = 10%nat /\
  nth 2 (C90_run 305 C90_all) "" = nth 2 (C90_run 1000 C90_all) "" /\ nth 3 (C90_run 305 C90_all) "" <> nth 3 (C90_run 1000 C90_all) "".
Proof.
  eexists. split; [reflexivity|]. do 4 (split; [reflexivity|]). split; [apply given_in; [reflexivity | reflexivity | vm_compute; reflexivity]|]. rewrite firstn_skipn.
  split; [apply given_in; [reflexivity | reflexivity | vm_compute; reflexivity]|].
  assert (X : (List.length (C90_run 305 C90_all) =? 4)%nat && (List.length (C90_run 1000 C90_all) =? 10)%nat && String.eqb (nth 2 (C90_run 305 C90_all) "") (nth 2 (C90_run 1000 C90_all) "") &&
    negb (String.eqb (nth 3 (C90_run 305 C90_all) "") (nth 3 (C90_run 1000 C90_all) "")) = true) by (vm_compute; reflexivity).
  apply andb_prop in X. destruct X as [X X4]. apply andb_prop in X. destruct X as [X X3]. apply andb_prop in X. destruct X as [X1 X2].
  split; [apply Nat.eqb_eq, X1|]. split; [apply Nat.eqb_eq, X2|]. split; [apply String.eqb_eq, X3|]. intros E. rewrite E, String.eqb_refl in X4. discriminate X4.
Qed.
(** With --dump-length, cut in an access unit delimiter: five of the eight lines must stay. *)
Example C90_csv_case : exists o, parse_args C90_csv = Ready o /\ a_nalu_length_bytes o = -1 /\ a_dumpmode o = dump_length /\
  List.length (C90_run 345 C90_csv) = 8%nat /\ firstn 5 (C90_run 345 C90_csv) = firstn 5 (C90_run 1000 C90_csv) /\ nth 6 (C90_run 345 C90_csv) "" <> nth 6 (C90_run 1000 C90_csv) "".
Proof.
  eexists. split; [reflexivity|]. do 2 (split; [reflexivity|]).
  assert (X : (List.length (C90_run 345 C90_csv) =? 8)%nat && forallb (fun p => String.eqb (fst p) (snd p)) (combine (firstn 5 (C90_run 345 C90_csv)) (firstn 5 (C90_run 1000 C90_csv))) &&
    negb (String.eqb (nth 6 (C90_run 345 C90_csv) "") (nth 6 (C90_run 1000 C90_csv) "")) = true) by (vm_compute; reflexivity).
  apply andb_prop in X. destruct X as [X X3]. apply andb_prop in X. destruct X as [X1 X2]. split; [apply Nat.eqb_eq, X1|]. split; [vm_compute; reflexivity|].
  intros E. rewrite E, String.eqb_refl in X3. discriminate X3.
Qed.
(** Appending: the first six units and the rest, in front of a start code *)
Definition C90_first : list Z := annexb_stream (firstn 6 tool_nals).
Definition C90_rest : list Z := annexb_stream (skipn 6 tool_nals).
Example C90_appended_case : cut_at_start_code C90_first C90_rest /\ (forall l, C90_first <> (l ++ [0; 0; 1])%list) /\ (C90_first ++ C90_rest)%list = tool_stream /\
  List.length (C90_printed (run_on C90_first C90_all)) = 6%nat /\ firstn 6 (C90_run 1000 C90_all) = C90_printed (run_on C90_first C90_all).
Proof.
  split; [|split; [|split; [vm_compute; reflexivity|]]].
  - assert (X : existsb (fun p => Nat.eqb (start_code_begin (C90_first ++ C90_rest)%list p) (List.length C90_first)) (start_codes (C90_first ++ C90_rest)%list) = true) by (vm_compute; reflexivity).
    apply existsb_exists in X. destruct X as (p & I & E). exists p. split; [exact I | apply Nat.eqb_eq, E].
  - intros l E. apply (f_equal (fun x => last x 0)) in E. rewrite app_assoc with (l := l) (m := [0; 0]) (n := [1]) in E || change [0; 0; 1] with ([0; 0] ++ [1])%list in E.
    rewrite app_assoc, last_last in E. vm_compute in E. discriminate E.
  - split; vm_compute; reflexivity.
Qed.
(** Lengths of two bytes, cut in the middle *)
Definition C90_framed : list Z := packed (Lengths 2) (C88_nals false).
Example C90_lengths_case : exists o, parse_args C88_args2 = Ready o /\ 1 <= a_nalu_length_bytes o <= 7 /\ a_add_contents o = false /\ a_dumpmode o = dump_all /\ Forall is_byte C90_framed /\
  List.length (C90_printed (run_on (firstn 300 C90_framed) C88_args2)) = 3%nat /\ firstn 3 (C90_printed (run_on C90_framed C88_args2)) = C90_printed (run_on (firstn 300 C90_framed) C88_args2) /\
  List.length (C90_printed (run_on C90_framed C88_args2)) = 7%nat.
Proof.
  eexists. split; [reflexivity|]. split; [split; vm_compute; discriminate|]. do 2 (split; [reflexivity|]). split.
  { assert (X : forallb (fun x => (0 <=? x) && (x <? 256)) C90_framed = true) by (vm_compute; reflexivity). rewrite forallb_forall in X. apply Forall_forall. intros x I. specialize (X x I).
    unfold is_byte. apply andb_prop in X. destruct X as [X1 X2]. apply Z.leb_le in X1. apply Z.ltb_lt in X2. lia. }
  split; [vm_compute; reflexivity|]. split; vm_compute; reflexivity.
Qed.
