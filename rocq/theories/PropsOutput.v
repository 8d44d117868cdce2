(** C85: what the tool prints for a whole stream determines the parsed units. *)
From Coq Require Import ZArith List Bool Lia String Ascii.
From Verif Require Import MBase MBitBuffer Spec BitsFacts Reader ReaderFacts Rules Syntax SyntaxSe MCommon CommonFacts PropsCommon MFraming FramingFacts PropsFraming MSyntaxA SpecA FactsA MSps SpecSps FactsSps MPps SpecPps FactsPps
  MSlice SpecSlice FactsSlice PropsSlice MNal FactsNal PropsNal PropsLocal Api MText SpecText FactsText PropsText FactsTells FactsFaithA FactsFaithB FactsFaithC FactsFaithD FactsFaithE FactsFaithF
  PropsSafe PropsFaithful FactsOutput PropsQp MTool SpecTool FactsTool PropsTool PropsToolB PropsToolC PropsToolD PropsWide PropsToolE.
Import ListNotations.
Open Scope string_scope.
Open Scope Z_scope.

(** * One unit *)
(** The units agree in all that is printed of them: header, payload (as far as it is shown), and the fields that the options ask for. *)
Definition same_unit (o : options) (u u' : nal_unit) : Prop :=
  nu_header u = nu_header u' /\ seen (nu_payload u) = seen (nu_payload u') /\ (add_offset o = true -> nu_offset u = nu_offset u') /\ (add_length o = true -> nu_length u = nu_length u') /\
  (add_parsed_length o = true -> nu_parsed_length u = nu_parsed_length u') /\ (add_checksum o = true -> option_map checksum_bytes (nu_checksum u) = option_map checksum_bytes (nu_checksum u')).

Lemma two_hex_inj x y : is_byte x -> is_byte y -> forall a b, two_hex x ++ a = two_hex y ++ b -> x = y /\ a = b.
Proof.
  intros [X0 X1] [Y0 Y1] a b E. unfold two_hex in E. cbn [String.append] in E.
  assert (H : hex_digit (x / 16) = hex_digit (y / 16) /\ hex_digit (x mod 16) = hex_digit (y mod 16) /\ a = b) by (inversion E; auto). clear E. destruct H as (H1 & H2 & H3). split; [|exact H3].
  assert (D : forall d e, 0 <= d < 16 -> 0 <= e < 16 -> hex_digit d = hex_digit e -> d = e).
  { clear. intros d e Hd He E. assert (K : forallb (fun i => forallb (fun j => implb (Ascii.eqb (hex_digit (Z.of_nat i)) (hex_digit (Z.of_nat j))) (i =? j)%nat) (List.seq 0 16)) (List.seq 0 16) = true) by (vm_compute; reflexivity).
    rewrite forallb_forall in K. specialize (K (Z.to_nat d) ltac:(apply in_seq; lia)). rewrite forallb_forall in K. specialize (K (Z.to_nat e) ltac:(apply in_seq; lia)).
    rewrite !Z2Nat.id, E, Ascii.eqb_refl in K by lia. cbn [implb] in K. apply Nat.eqb_eq in K. lia. }
  assert (Q : x / 16 = y / 16) by (apply D; [split; [apply Z.div_pos; lia | apply Z.div_lt_upper_bound; lia] | split; [apply Z.div_pos; lia | apply Z.div_lt_upper_bound; lia] | exact H1]).
  assert (M : x mod 16 = y mod 16) by (apply D; [apply Z.mod_pos_bound; lia | apply Z.mod_pos_bound; lia | exact H2]).
  rewrite (Z.div_mod x 16), (Z.div_mod y 16) by lia. congruence.
Qed.
Lemma checksum_bytes_ok c : Forall is_byte (checksum_bytes c).
Proof. unfold checksum_bytes. repeat (apply Forall_cons; [unfold u8, is_byte; apply Z.mod_pos_bound; lia|]). apply Forall_nil. Qed.
Lemma hexes_inj l : forall l', Forall is_byte l -> Forall is_byte l' -> List.length l = List.length l' -> String.concat "" (map two_hex l) = String.concat "" (map two_hex l') -> l = l'.
Proof.
  assert (C : forall x l, String.concat "" (map two_hex (x :: l)) = two_hex x ++ String.concat "" (map two_hex l)) by (intros x [|y m]; cbn [map String.concat]; [rewrite sapp_nil; reflexivity | reflexivity]).
  induction l as [|x l IH]; intros [|y l'] F F' L E; try discriminate L; [reflexivity|]. rewrite !C in E. inversion F; inversion F'; subst. injection L as L.
  destruct (two_hex_inj x y ltac:(assumption) ltac:(assumption) _ _ E) as [-> E']. f_equal. apply IH; assumption.
Qed.
Lemma hexes_word l : Forall is_byte l -> sall (fun c => negb (is_space c)) (String.concat "" (map two_hex l)) = true.
Proof.
  assert (H : forall x, is_byte x -> sall (fun c => negb (is_space c)) (two_hex x) = true).
  { intros x [H0 H1]. assert (K : forallb (fun n => sall (fun c => negb (is_space c)) (two_hex (Z.of_nat n))) (List.seq 0 256) = true) by (vm_compute; reflexivity).
    rewrite forallb_forall in K. specialize (K (Z.to_nat x) ltac:(apply in_seq; lia)). rewrite Z2Nat.id in K by lia. exact K. }
  induction 1 as [|x l Hx F IH]; [reflexivity|]. destruct l as [|y l]; cbn [map String.concat]; [apply H, Hx|]. rewrite !sall_app. rewrite (H x Hx). exact IH.
Qed.
Lemma tells_checksum c c' : tells (text_checksum c) (text_checksum c') (checksum_bytes c = checksum_bytes c').
Proof.
  rewrite !checksum_line. apply tells_line. intros r r'.
  assert (W : forall d, words ("checksum: 0x" ++ String.concat "" (map two_hex (checksum_bytes d))) = ["checksum:"; "0x" ++ String.concat "" (map two_hex (checksum_bytes d))]).
  { intros d. change ("checksum: 0x" ++ ?s) with ("checksum:" ++ String " " ("0x" ++ s)). rewrite words_cut. rewrite (words_word ("0x" ++ _)); [reflexivity | discriminate|].
    cbn [String.append sall]. rewrite hexes_word by apply checksum_bytes_ok. reflexivity. }
  rewrite !W. cbn [app]. intros E. assert (X : "0x" ++ String.concat "" (map two_hex (checksum_bytes c)) = "0x" ++ String.concat "" (map two_hex (checksum_bytes c')) /\ r = r') by (split; congruence).
  destruct X as [X ->]. split; [|reflexivity]. apply prefix_inj in X. apply hexes_inj; [apply checksum_bytes_ok | apply checksum_bytes_ok | reflexivity | exact X].
Qed.
Lemma tells_nal o st st' sp sp' b b' u u' : reached call_ok st -> reached call_ok st' -> related st st' -> wf b -> wf b' -> bb_count b < 2 ^ 28 -> bb_count b' < 2 ^ 28 ->
  nal_header_ok (nu_header u) -> nal_header_ok (nu_header u') -> 0 <= nu_offset u -> 0 <= nu_offset u' ->
  nu_payload u = payload_of (nal_unit_type (nu_header u)) st b -> nu_payload u' = payload_of (nal_unit_type (nu_header u')) st' b' ->
  right st sp (nu_payload u) -> right st' sp' (nu_payload u') -> tells (text_nal sp o u) (text_nal sp' o u') (same_unit o u u').
Proof.
  intros R R' Re W W' C C' H H' N N' P P' X X'. unfold text_nal. apply tells_struct.
  eapply tells_then; [apply tells_tif; [reflexivity|]; intros _; apply (tells_hex "offset" "0x"); [exact N | exact N' | reflexivity | discriminate]|]. intros T1.
  eapply tells_then; [apply tells_tif; [reflexivity|]; intros _; apply tells_fu|]. intros T2.
  eapply tells_then; [apply tells_tif; [reflexivity|]; intros _; apply tells_fu|]. intros T3.
  eapply tells_then with (Q := add_checksum o = true -> option_map checksum_bytes (nu_checksum u) = option_map checksum_bytes (nu_checksum u')).
  { apply tells_tif; [reflexivity|]. intros _. destruct (nu_checksum u) as [c|]; [|intros ? ? ? ? D; discriminate D]. destruct (nu_checksum u') as [c'|]; [|intros ? ? ? ? _ D; discriminate D].
    cbn [tderef option_map]. eapply tells_weaken; [apply tells_checksum|]. intros ->. reflexivity. }
  intros T4. eapply tells_then; [apply tells_sub, tells_header; assumption|]. intros T5. rewrite <- T5 in *. rewrite P, P' in *.
  eapply tells_weaken; [apply tells_sub, tells_payloads; assumption|]. intros T6. unfold same_unit. rewrite P, P'. auto 10.
Qed.

(** * Streams *)
(** [parsed st us]: the units [us] came from the parser, one after the other, starting in the state [st]. *)
Inductive parsed : state -> list nal_unit -> Prop :=
| parsed_nil st : parsed st []
| parsed_cons st b u us : reached call_ok st -> wf b -> bb_count b < 2 ^ 28 -> nal_header_ok (nu_header u) -> 0 <= nu_offset u ->
    nu_payload u = payload_of (nal_unit_type (nu_header u)) st b -> parsed (stored' (nu_payload u) st) us -> parsed st (u :: us).
Definition somes (us : list (option nal_unit)) : list nal_unit := flat_map (fun o => match o with Some u => [u] | None => [] end) us.
(** the same header and payload, wherever it was found *)
Definition moved (v u : nal_unit) : Prop := nu_header v = nu_header u /\ nu_payload v = nu_payload u /\ 0 <= nu_offset v.
Lemma parse_all_parsed opts ds : forall st us st' vs, Forall (fun d => byte_string d /\ Z.of_nat (List.length d) < 2 ^ 28) ds -> reached call_ok st -> parse_all opts ds st = Done (us, st') ->
  Forall2 moved vs (somes us) -> parsed st vs.
Proof.
  induction ds as [|d ds IH]; intros st us st' vs F R E M; cbn [parse_all] in E.
  { assert (us = []) as -> by congruence. inversion M; subst. constructor. }
  apply Forall_cons_iff in F. destruct F as [[D Ld] F].
  destruct (ParseNalUnit opts d st) as [[r st1]|e] eqn:E1; [|discriminate E]. destruct (parse_all opts ds st1) as [[us1 st2]|e] eqn:E2; [|discriminate E]. assert (us = r :: us1) as -> by congruence.
  assert (R1 : reached call_ok st1) by (eapply reached_call with (c := CallUnit opts d); [exact R | exact D | cbn [perform]; rewrite E1; reflexivity]).
  pose proof (store_state_ok _ (reached_store _ R)) as So.
  destruct (C10_unescape_only_removes d) as (rbsp & Er & _ & Lr & _). destruct (Unescape_byte_string d D) as (rbsp' & Er' & D'). assert (rbsp' = rbsp) by congruence. subst rbsp'.
  rewrite (nal_unit_unesc _ _ _ _ Er) in E1. destruct (le_lt_dec 2 (List.length rbsp)) as [L|L].
  2:{ rewrite (nal_unit_short opts rbsp st D' L) in E1. assert (r = None /\ st1 = st) as [-> ->] by (split; congruence). apply (IH st us1 st2 vs F R E2). exact M. }
  destruct (nal_unit_long opts rbsp st D' So L) as (h & Hh & _ & W & E3). rewrite E3 in E1.
  destruct (payload_fault (nal_unit_type h) st (adv (mk_bb rbsp) 16)) eqn:Pf; [discriminate E1|].
  assert (r = Some (unit_of opts rbsp h st) /\ st1 = stored' (payload_of (nal_unit_type h) st (adv (mk_bb rbsp) 16)) st) as [-> E4] by (split; congruence).
  change (somes (Some (unit_of opts rbsp h st) :: us1)) with (unit_of opts rbsp h st :: somes us1)%list in M. 
  destruct vs as [|v vs]; [inversion M|]. assert (M0 : moved v (unit_of opts rbsp h st) /\ Forall2 moved vs (somes us1)) by (inversion M; auto). clear M. destruct M0 as [(M1 & M2 & M3) M'].
  unfold unit_of in M1, M2. cbn [nu_header nu_payload] in M1, M2.
  eapply parsed_cons with (b := adv (mk_bb rbsp) 16).
  - exact R.
  - exact W.
  - change (Z.of_nat (List.length rbsp) < 2 ^ 28). lia.
  - rewrite M1. exact Hh.
  - exact M3.
  - rewrite M1. exact M2.
  - rewrite M2, <- E4. exact (IH _ _ _ _ F R1 E2 M').
Qed.
Lemma placed_moved data ixs : Forall (in_bounds data) ixs -> forall us, List.length us = List.length ixs -> Forall2 moved (placed ixs us) (somes us).
Proof.
  induction 1 as [|ix ixs (B & _) F IH]; intros [|u us] L; try discriminate L; [constructor|]. cbn [placed]. injection L as L. specialize (IH us L).
  destruct u as [u|]; [|exact IH]. change (somes (Some u :: us)) with (u :: somes us)%list. cbn [place app]. constructor; [|exact IH]. split; [reflexivity|]. split; [reflexivity|]. exact B.
Qed.
Lemma placed_nl_moved n k : 0 <= k -> forall nals off us, 0 <= off -> List.length us = List.length nals -> Forall2 moved (placed_nl k (framed_ranges n off nals) us) (somes us).
Proof.
  intros K. induction nals as [|x nals IH]; intros off [|u us] O L; try discriminate L; [constructor|]. cbn [framed_ranges placed_nl]. injection L as L.
  specialize (IH (off + Z.of_nat n + Z.of_nat (List.length x)) us ltac:(lia) L).
  destruct u as [u|]; [|exact IH]. change (somes (Some u :: us)) with (u :: somes us)%list. cbn [app]. constructor; [|exact IH]. split; [reflexivity|]. split; [reflexivity|].
  cbn [set_range nu_offset fst]. lia.
Qed.
Definition small (d : list Z) : Prop := byte_string d /\ Z.of_nat (List.length d) < 2 ^ 28.
Lemma pieces_small l tail : small (pieces l ++ tail)%list -> Forall small (map snd l).
Proof.
  induction l as [|[fd x] l IH]; intros [[F L] S]; [constructor|]. rewrite pieces_cons in F, L, S. cbn [fst snd] in F, L, S. rewrite <- !app_assoc in F. rewrite !app_length in L, S.
  apply Forall_app in F. destruct F as [_ F]. apply Forall_app in F. destruct F as [Fx F]. cbn [map snd]. constructor; [split; [split; [exact Fx|lia] | lia]|].
  apply IH. split; [split; [exact F|]|]; rewrite app_length; lia.
Qed.
Lemma stream_parsed opts data n st bs st' : small data -> n < 2 ^ 31 -> reached call_ok st -> stream opts data n st = Done (bs, st') -> parsed st (bs_units bs).
Proof.
  intros S Hn R E. pose proof S as [D Sm]. pose proof D as [F L]. unfold stream in E. destruct (Z.ltb_spec n 0) as [_|Nn].
  - rewrite ParseBitstream_spec in E by lia. pose proof (annexb_in_bounds data ltac:(lia)) as B.
    destruct (parse_all opts (map (payload data) (annexb_units data)) st) as [[us st1]|e] eqn:E1; [|discriminate E]. assert (bs = mkBS default_options (placed (annexb_units data) us)) as -> by congruence.
    cbn [bs_units]. eapply parse_all_parsed; [|exact R|exact E1|eapply placed_moved; [exact B|]; rewrite (parse_all_length _ _ _ _ _ E1), map_length; reflexivity].
    apply Forall_map. eapply Forall_impl; [|exact B]. intros ix (B1 & B2 & B3). split; [apply sub_bytes; [exact D | repeat split; assumption]|].
    unfold payload. pose proof (firstn_le_length (Z.to_nat (MFraming.payload_size ix)) (skipn (Z.to_nat (payload_start_offset ix)) data)) as Q. rewrite firstn_length, skipn_length. lia.
  - destruct (Z.eq_dec n 0) as [->|N0].
    + destruct data as [|x data']; [rewrite C79_empty in E; assert (bs = mkBS default_options []) as -> by congruence; constructor|].
      rewrite C79_no_length in E by (cbn [List.length] in *; lia).
      pose proof (fun us st' vs => parse_all_parsed opts [x :: data'] st us st' vs (Forall_cons _ S (Forall_nil _)) R) as K. cbn [parse_all] in K.
      destruct (ParseNalUnit opts (x :: data') st) as [[[u|] st1]|e]; [| |discriminate E].
      * assert (bs = mkBS default_options [set_range 0 0 u]) as -> by congruence. eapply K; [reflexivity|]. constructor; [|constructor]. split; [reflexivity|]. split; [reflexivity|]. cbn. lia.
      * assert (bs = mkBS default_options []) as -> by congruence. constructor.
    + destruct (C79_parse opts data (Z.to_nat n) st ltac:(lia) ltac:(lia) ltac:(lia)) as (l & tail & Ed & Fp & C). rewrite Z2Nat.id in C by lia.
      destruct C as [[St C]|[Wr (e & C & He)]]; rewrite C in E; [|discriminate E].
      destruct (parse_all opts (map snd l) st) as [[us st1]|e] eqn:E1; [|discriminate E]. assert (bs = mkBS default_options (placed_nl n (framed_ranges (Z.to_nat n) 0 (map snd l)) us)) as -> by congruence.
      cbn [bs_units]. eapply parse_all_parsed; [|exact R|exact E1|]; [apply (pieces_small l tail); rewrite <- Ed; exact S|].
      apply placed_nl_moved; [lia | lia | exact (parse_all_length _ _ _ _ _ E1)].
Qed.

(** * The text of a list of units *)
(** The parameter sets in effect after the units [us], if nothing was stored before. *)
Definition in_effect (st : state) (us : list nal_unit) : state := fold_left (fun st u => stored (nu_payload u) st) us st.
(** [sp]: for every slice unit, the SPS and PPS that are in effect where the unit stands (the object keeps what it needs of them). *)
Definition sets_right (st : state) (us : list nal_unit) (sp : nat -> sps * pps) : Prop :=
  forall k u, nth_error us k = Some u -> right (in_effect st (firstn k us)) (sp k) (nu_payload u).
Lemma right_same st st' sp p : same_state st st' -> right st sp p -> right st' sp p.
Proof. intros (_ & E2 & E3) H h q s Eh [[x X] [y Y]]. apply (H h q s Eh). split; [exists x; rewrite E3; exact X | exists y; rewrite E2; exact Y]. Qed.
Lemma stored_same p st st' : same_state st st' -> same_state (stored p st) (stored p st').
Proof. intros (E1 & E2 & E3). unfold stored. split; [|split]; intros k; cbn [st_vps st_sps st_pps]; rewrite ?E1, ?E2, ?E3; reflexivity. Qed.
Lemma in_effect_same us : forall st st', same_state st st' -> same_state (in_effect st us) (in_effect st' us).
Proof. induction us as [|u us IH]; intros st st' H; [exact H|]. unfold in_effect in *. cbn [fold_left]. apply IH, stored_same, H. Qed.
Lemma sets_tail st u us sp : sets_right st (u :: us) sp -> sets_right (stored' (nu_payload u) st) us (fun k => sp (S k)).
Proof.
  intros H k v E. specialize (H (S k) v E). cbn [firstn] in H. unfold in_effect in H. cbn [fold_left] in H. eapply right_same; [|exact H]. apply in_effect_same.
  destruct (stored_eq (nu_payload u) st) as (E1 & E2 & E3). repeat split; intros j; symmetry; auto.
Qed.
Lemma related_stored st st' p p' : related st st' -> seen p = seen p' -> related (stored' p st) (stored' p' st').
Proof.
  intros R E k. destruct (stored_eq p st) as (_ & -> & ->), (stored_eq p' st') as (_ & -> & ->). unfold stored. cbn [st_sps st_pps]. unfold seen in E.
  assert (Es : option_map (fun v => (sps_stored (fst v), 0)) (np_sps p) = option_map (fun v => (sps_stored (fst v), 0)) (np_sps p')) by congruence.
  assert (Ep : option_map (fun v => (pps_shown (fst v), 0)) (np_pps p) = option_map (fun v => (pps_shown (fst v), 0)) (np_pps p')) by congruence. clear E. destruct (R k) as [R1 R2]. split.
  - destruct (np_sps p) as [[s x]|], (np_sps p') as [[s' x']|]; cbn [option_map fst] in *; try discriminate Es; [|exact R1].
    assert (K : sps_stored s = sps_stored s') by congruence. pose proof (f_equal sps_seq_parameter_set_id K) as I. cbn [sps_stored sps_seq_parameter_set_id] in I. rewrite <- I.
    destruct (k =? sps_seq_parameter_set_id s); [cbn [option_map fst]; congruence | exact R1].
  - destruct (np_pps p) as [[s x]|], (np_pps p') as [[s' x']|]; cbn [option_map fst] in *; try discriminate Ep; [|exact R2].
    assert (K : pps_shown s = pps_shown s') by congruence. pose proof (f_equal pps_pic_parameter_set_id K) as I. cbn [pps_shown pps_pic_parameter_set_id] in I. rewrite <- I.
    destruct (k =? pps_pic_parameter_set_id s); [cbn [option_map fst]; congruence | exact R2].
Qed.

(** The bytes of a unit as --add-contents shows them *)
Definition shown_bytes (buffer : list Z) (u : nal_unit) : list Z := firstn (Z.to_nat (nu_length u)) (skipn (Z.to_nat (nu_offset u)) buffer).
Lemma pr_x_word n x : words (pr_x (S n) x) = [pr_x (S n) x].
Proof.
  apply words_word; [|apply hex_word]. unfold pr_x. destruct (Nat.max (S n) (hex_len x)) as [|k] eqn:E; [lia|]. cbn [hex_digits]. destruct (hex_digits k _); discriminate.
Qed.
Lemma pr_x_brace n x : pr_x n x <> "}".
Proof.
  intros E. unfold pr_x in E. destruct (Nat.max n (hex_len x)) as [|k]; [discriminate E|]. cbn [hex_digits] in E.
  pose proof (land15 x) as Hd. revert Hd E. generalize (Z.land x 15). intros d Hd E.
  assert (K : forallb (fun k => negb (Ascii.eqb (ascii_of_nat (Z.to_nat (hex_char (Z.of_nat k)))) "}")) (List.seq 0 16) = true) by (vm_compute; reflexivity).
  rewrite forallb_forall in K. specialize (K (Z.to_nat d) ltac:(apply in_seq; lia)). rewrite Z2Nat.id in K by lia.
  destruct (hex_digits k _) as [|c r]; cbn [String.append] in E; [|destruct r; discriminate E]. injection E as E. rewrite E in K. discriminate K.
Qed.
Lemma hex_bytes_words l : forall i t, headed t -> words (hex_bytes i l ++ t) = (map (pr_x 2) l ++ words t)%list /\ headed (hex_bytes i l ++ t).
Proof.
  induction l as [|x l IH]; intros i t H; [split; [reflexivity | exact H]|]. cbn [hex_bytes map]. destruct (IH (i + 1) t H) as [E Hd].
  split; [|reflexivity]. rewrite !sapp_assoc. change (" " ++ ?a) with (String " " a). rewrite words_space by reflexivity. cbn [app].
  destruct ((i + 1) mod 16 =? 0).
  - change (" " ++ ?a) with (String " " a). rewrite words_cut, pr_x_word, E. reflexivity.
  - change ("" ++ ?a) with a. rewrite words_headed, pr_x_word, E by exact Hd. reflexivity.
Qed.
Lemma contents_words buffer u t : headed t -> words (contents buffer u ++ t) = (["contents"; "{"] ++ map (pr_x 2) (shown_bytes buffer u) ++ "}" :: words t)%list /\ headed (contents buffer u ++ t).
Proof.
  intros H. split; [|reflexivity]. unfold contents. fold (shown_bytes buffer u). rewrite !sapp_assoc. destruct (hex_bytes_words (shown_bytes buffer u) 0 (" }" ++ t)) as [E Hd]; [reflexivity|].
  rewrite words_headed by exact Hd. rewrite E. assert (Eb : words (" }" ++ t) = "}" :: words t) by (transitivity (words ("}" ++ t)); [apply words_space; reflexivity | apply (words_headed "}"); exact H]). rewrite Eb. reflexivity.
Qed.
Lemma hex_map l : forall l', Forall is_byte l -> Forall is_byte l' -> map (pr_x 2) l = map (pr_x 2) l' -> l = l'.
Proof.
  induction l as [|x l IH]; intros [|y l'] F F' E; try discriminate E; [reflexivity|]. apply Forall_cons_iff in F, F'. destruct F as [[X _] F], F' as [[Y _] F'].
  cbn [map] in E. assert (E1 : pr_x 2 x = pr_x 2 y) by congruence. assert (E2 : map (pr_x 2) l = map (pr_x 2) l') by congruence. apply pr_x_inj in E1; [|assumption|assumption]. subst y. f_equal. apply IH; assumption.
Qed.
Lemma shown_bytes_ok buffer u : Forall is_byte buffer -> Forall is_byte (shown_bytes buffer u).
Proof. intros F. apply Forall_firstn, Forall_skipn, F. Qed.

(** The units agree, and with --add-contents the bytes shown do. *)
Definition same_shown (o : arg_options) (buffer buffer' : list Z) (u u' : nal_unit) : Prop :=
  same_unit (parsing_options o) u u' /\ (a_add_contents o = true -> shown_bytes buffer u = shown_bytes buffer' u').
Lemma dump_unit_words o buffer sp u t t2 : dump_unit o buffer sp u = Done t -> exists c, text_nal sp (parsing_options o) u = Done c /\
  words (t ++ t2) = (toks c ++ (if a_add_contents o then ["contents"; "{"] ++ map (pr_x 2) (shown_bytes buffer u) ++ ["}"] else []) ++ words t2)%list.
Proof.
  intros E. unfold dump_unit, fdumped in E. destruct (text_nal sp (parsing_options o) u) as [c|e] eqn:T; [|discriminate E]. exists c. split; [reflexivity|].
  apply done_inj1 in E. subst t. rewrite !sapp_assoc. assert (Hn : headed (newline_str ++ t2)) by reflexivity.
  assert (Wn : words (newline_str ++ t2) = words t2) by (unfold newline_str; change (String newline "" ++ t2) with (String newline t2); apply words_space; reflexivity).
  destruct (struct_text c (gs_text (T_nal sp (parsing_options o) u) c T) (if a_as_one_line o then -1 else 0) ltac:(destruct (a_as_one_line o); lia)) as (W & _). unfold text_of in W.
  destruct (a_add_contents o).
  - destruct (contents_words buffer u (newline_str ++ t2) Hn) as [E1 E2]. rewrite words_headed by exact E2. rewrite W, E1, Wn. cbn [app]. rewrite <- app_assoc. reflexivity.
  - change ("" ++ ?a) with a. rewrite words_headed by exact Hn. rewrite W, Wn. reflexivity.
Qed.
Lemma nal_starts sp o u c : text_nal sp o u = Done c -> exists r, toks c = "nal_unit" :: r.
Proof. apply (opens_struct "nal_unit" _ "nal_unit" ["{"]). reflexivity. Qed.
Lemma lockstep o buffer buffer' : Forall is_byte buffer -> Forall is_byte buffer' -> forall us us' st st' sp sp' i i' t t', parsed st us -> parsed st' us' -> related st st' ->
  sets_right st us (fun k => sp (i + k)%nat) -> sets_right st' us' (fun k => sp' (i' + k)%nat) ->
  dump_units o buffer sp i us = Done t -> dump_units o buffer' sp' i' us' = Done t' -> words t = words t' -> Forall2 (same_shown o buffer buffer') us us'.
Proof.
  intros B B'. induction us as [|u us IH]; intros us' st st' sp sp' i i' t t' P P' R X X' E E' W.
  - destruct us' as [|u' us']; [constructor|]. exfalso. cbn [dump_units] in E, E'. apply done_inj1 in E. subst t. destruct (dump_unit o buffer' (sp' i') u') as [t1|e] eqn:E1; [|discriminate E'].
    destruct (dump_units o buffer' sp' (S i') us') as [t2|e]; [|discriminate E']. apply done_inj1 in E'. subst t'. destruct (dump_unit_words _ _ _ _ _ t2 E1) as (c & T & Wc). destruct (nal_starts _ _ _ _ T) as (r & Er).
    rewrite <- W, Er in Wc. discriminate Wc.
  - cbn [dump_units] in E. destruct (dump_unit o buffer (sp i) u) as [t1|e] eqn:E1; [|discriminate E]. destruct (dump_units o buffer sp (S i) us) as [t2|e] eqn:E2; [|discriminate E]. apply done_inj1 in E. subst t.
    destruct (dump_unit_words _ _ _ _ _ t2 E1) as (c & T & Wc). destruct us' as [|u' us'].
    { exfalso. cbn [dump_units] in E'. apply done_inj1 in E'. subst t'. destruct (nal_starts _ _ _ _ T) as (r & Er). rewrite W, Er in Wc. discriminate Wc. }
    cbn [dump_units] in E'. destruct (dump_unit o buffer' (sp' i') u') as [t1'|e] eqn:E1'; [|discriminate E']. destruct (dump_units o buffer' sp' (S i') us') as [t2'|e] eqn:E2'; [|discriminate E']. apply done_inj1 in E'. subst t'.
    destruct (dump_unit_words _ _ _ _ _ t2' E1') as (c' & T' & Wc'). rewrite W, Wc' in Wc. clear W Wc'.
    inversion P as [|st0 b u0 us0 R1 Wb Cb Hb Ob Pb Pt]; subst st0 u0 us0. inversion P' as [|st0' b' u0' us0' R1' Wb' Cb' Hb' Ob' Pb' Pt']; subst st0' u0' us0'.
    assert (Y : right st (sp i) (nu_payload u)) by (specialize (X 0%nat u eq_refl); cbv beta in X; rewrite Nat.add_0_r in X; exact X).
    assert (Y' : right st' (sp' i') (nu_payload u')) by (specialize (X' 0%nat u' eq_refl); cbv beta in X'; rewrite Nat.add_0_r in X'; exact X').
    destruct (tells_nal (parsing_options o) _ _ _ _ _ _ _ _ R1 R1' R Wb Wb' Cb Cb' Hb Hb' Ob Ob' Pb Pb' Y Y' c c' _ _ T T' (eq_sym Wc)) as [Q Rest]. clear Wc.
    assert (Z : (a_add_contents o = true -> shown_bytes buffer u = shown_bytes buffer' u') /\ words t2 = words t2').
    { destruct (a_add_contents o); [|split; [discriminate | exact Rest]]. rewrite <- !app_assoc in Rest. cbn [app] in Rest.
      assert (Rest' : (map (pr_x 2) (shown_bytes buffer u) ++ "}" :: words t2 = map (pr_x 2) (shown_bytes buffer' u') ++ "}" :: words t2')%list) by congruence.
      apply map_inj_end in Rest'; [|intros x; apply pr_x_brace]. destruct Rest' as [Z1 Z2]. split; [intros _|exact Z2]. apply hex_map; [apply shown_bytes_ok, B | apply shown_bytes_ok, B' | exact Z1]. }
    destruct Z as [Z1 Z2]. constructor; [split; assumption|].
    refine (IH us' _ _ sp sp' (S i) (S i') t2 t2' Pt Pt' _ _ _ E2 E2' Z2).
    + apply related_stored; [exact R | apply Q].
    + apply sets_tail in X. intros k v Ev. specialize (X k v Ev). cbv beta in X. rewrite Nat.add_succ_r in X. exact X.
    + apply sets_tail in X'. intros k v Ev. specialize (X' k v Ev). cbv beta in X'. rewrite Nat.add_succ_r in X'. exact X'.
Qed.

(** * The tool *)
(** A run of the tool in its default mode (--dump-all) on one stream and no hvcC file: it reads [bytes], finds the units [us] and prints [t].  [sp] are the parameter
    sets of the slices (what the slice header object has kept of them). *)
Definition dumps (args : list arg) (fs : string -> option file) (stdin : list Z) (bytes : list Z) (us : list nal_unit) (t : string) : Prop :=
  exists o name rest bs st' w spb sp, parse_args args = Ready o /\ a_dumpmode o = dump_all /\ a_hvcc_file o = None /\ a_infile o = Some name /\
    ReadFile fs stdin (Some name) [] = (Some bytes, rest) /\ stream (parsing_options (imply o)) bytes (a_nalu_length_bytes o) empty_state = Done (bs, st') /\ us = bs_units bs /\
    sets_right empty_state us sp /\ main fs w stdin spb sp args = Done (0, t).
Lemma dumps_inv args fs stdin bytes us t : small bytes -> dumps args fs stdin bytes us t -> exists o sp,
  parse_args args = Ready o /\ parsed empty_state us /\ sets_right empty_state us sp /\ dump_units (imply o) bytes sp 0 us = Done t.
Proof.
  intros Sm (o & name & rest & bs & st' & w & spb & sp & A & D & B & I & R & St & U & X & M). exists o, sp. split; [exact A|]. subst us.
  split; [eapply stream_parsed; [exact Sm | eapply parse_args_range; exact A | constructor | exact St]|]. split; [exact X|].
  unfold main in M. rewrite A in M. cbv zeta in M. unfold stream in St. destruct o as [debug mode one off len plen csum res cont lb fps hvcc inf outf].
  cbn [a_dumpmode a_hvcc_file a_infile a_nalu_length_bytes] in *. subst mode hvcc inf.
  unfold load_box, load_units in M. cbn [imply a_dumpmode a_hvcc_file a_infile a_nalu_length_bytes a_frames_per_second] in M, St |- *. rewrite R, St in M.
  destruct w; cbn [negb] in M; [|discriminate M].
  destruct (dump_units _ bytes sp 0 (bs_units bs)) as [t2|e] eqn:Eu; [|discriminate M]. assert (T : t = t2) by (injection M; intros; subst; reflexivity). subst t2. reflexivity.
Qed.
(** If two runs with the same arguments print the same words, they have found the same units: as many, in the same order, and with every field that is shown equal;
    with --add-contents the bytes of the units are the same too. *)
Theorem C85_tool : forall args o fs fs' stdin stdin' bytes bytes' us us' t t', parse_args args = Ready o -> small bytes -> small bytes' ->
  dumps args fs stdin bytes us t -> dumps args fs' stdin' bytes' us' t' -> words t = words t' -> Forall2 (same_shown (imply o) bytes bytes') us us'.
Proof.
  intros args o fs fs' stdin stdin' bytes bytes' us us' t t' A S S' H H' W.
  destruct (dumps_inv _ _ _ _ _ _ S H) as (o1 & sp & A1 & P & X & U). destruct (dumps_inv _ _ _ _ _ _ S' H') as (o2 & sp' & A2 & P' & X' & U').
  assert (o1 = o) by congruence. assert (o2 = o) by congruence. subst o1 o2.
  refine (lockstep (imply o) bytes bytes' _ _ us us' empty_state empty_state sp sp' 0 0 t t' P P' _ X X' U U' W); [apply S | apply S'|].
  intros k. split; reflexivity.
Qed.
(** In particular the number of units, their headers, and the slice headers, SEI messages and access unit delimiters; the header and the payload need no option. *)
Theorem C85_units : forall args fs fs' stdin stdin' bytes bytes' us us' t, small bytes -> small bytes' ->
  dumps args fs stdin bytes us t -> dumps args fs' stdin' bytes' us' t ->
  map nu_header us = map nu_header us' /\ map (fun u => seen (nu_payload u)) us = map (fun u => seen (nu_payload u)) us'.
Proof.
  intros args fs fs' stdin stdin' bytes bytes' us us' t S S' H H'. pose proof H as (o & _ & _ & _ & _ & _ & _ & _ & A & _).
  pose proof (C85_tool args o fs fs' stdin stdin' bytes bytes' us us' t t A S S' H H' eq_refl) as F. clear - F.
  induction F as [|v v' us us' (Q & _) F IH]; [split; reflexivity|]. destruct IH as [I1 I2]. destruct Q as (Q1 & Q2 & _). cbn [map]. split; congruence.
Qed.

(** * Examples *)
(** The parameter sets of the slices can always be given: they are the ones in effect. *)
Definition kept (us : list nal_unit) (k : nat) : sps * pps :=
  match nth_error us k with
  | Some u => match np_slice (nu_payload u) with
    | Some h => let st := in_effect empty_state (firstn k us) in
      match st_pps st (slice_pic_parameter_set_id h) with
      | Some (q, _) => match st_sps st (pps_seq_parameter_set_id q) with Some (s, _) => (s, q) | None => no_sp end
      | None => no_sp end
    | None => no_sp end
  | None => no_sp end.
Lemma kept_right us : sets_right empty_state us (kept us).
Proof.
  intros k u E h q s Eh [[x X] [y Y]]. unfold kept. rewrite E, Eh. cbv zeta. rewrite X, Y. reflexivity.
Qed.
Definition C85_args : list arg := [O_infile "in"; O_add_contents true; O_add_checksum true; O_as_one_line false].
Definition C85_units_of (opts : options) (data : list Z) : list nal_unit := match stream opts data (-1) empty_state with Done (bs, _) => bs_units bs | Bad _ => [] end.
Definition C85_run (data : list Z) (args : list arg) : outcome (Z * string) :=
  match parse_args args with
  | Ready o => main (tool_fs data) true [] (fun _ _ => no_sp) (kept (C85_units_of (parsing_options (imply o)) data)) args
  | Exit c => Done (c, "") end.
Lemma C85_dumps data args o : parse_args args = Ready o -> a_dumpmode o = dump_all -> a_hvcc_file o = None -> a_infile o = Some "in" -> a_nalu_length_bytes o = -1 ->
  ReadFile (tool_fs data) [] (Some "in") [] = (Some data, []) -> forall t, C85_run data args = Done (0, t) ->
  dumps args (tool_fs data) [] data (C85_units_of (parsing_options (imply o)) data) t.
Proof.
  intros A D B I N R t M. unfold C85_run in M. rewrite A in M. pose proof M as M0. unfold main in M. rewrite A in M. cbv zeta in M.
  assert (B' : a_hvcc_file (imply o) = None) by (destruct o; exact B). assert (I' : a_infile (imply o) = Some "in") by (destruct o; exact I). assert (N' : a_nalu_length_bytes (imply o) = -1) by (destruct o; exact N).
  unfold load_box in M. rewrite B' in M. unfold load_units in M. rewrite I', R, N' in M. cbn [Z.ltb Z.compare] in M.
  destruct (ParseBitstream (parsing_options (imply o)) data empty_state) as [[bs st']|e] eqn:E; [|discriminate M]. clear M.
  assert (E' : stream (parsing_options (imply o)) data (-1) empty_state = Done (bs, st')) by exact E.
  assert (U : C85_units_of (parsing_options (imply o)) data = bs_units bs) by (unfold C85_units_of; rewrite E'; reflexivity). rewrite U in *.
  exists o, "in", (@nil Z), bs, st', true, (fun _ _ => no_sp), (kept (bs_units bs)).
  split; [exact A|]. split; [exact D|]. split; [exact B|]. split; [exact I|]. split; [exact R|]. split; [rewrite N; exact E'|]. split; [reflexivity|]. split; [apply kept_right | exact M0].
Qed.
(** The hypotheses are met by the stream of C70_case: ten units, three pictures. *)
Example C85_hypotheses : small tool_stream /\ exists us t, dumps C85_args (tool_fs tool_stream) [] tool_stream us t /\ List.length us = 10%nat /\ (2000 < String.length t)%nat.
Proof.
  split; [split; [apply bytesb_ok; vm_compute; reflexivity | vm_compute; reflexivity]|].
  assert (H : match C85_run tool_stream C85_args with Done (0, t) => (2000 <? String.length t)%nat | _ => false end = true) by (vm_compute; reflexivity).
  destruct (C85_run tool_stream C85_args) as [[[|z|z] t]|e] eqn:E; try discriminate H.
  eexists. exists t. split; [eapply C85_dumps; [reflexivity | reflexivity | reflexivity | reflexivity | reflexivity | vm_compute; reflexivity | exact E]|]. split; [vm_compute; reflexivity | apply Nat.ltb_lt; exact H].
Qed.
(** Two different inputs with the same output: start codes of three and of four bytes.  The units are the same;
    with --add-contents the offsets are printed too, and they differ. *)
Definition C85_short : list Z := [0; 0; 1; 0x46; 1; 0x50; 0; 0; 1; 0x46; 1; 0x30].
Definition C85_long : list Z := [0; 0; 0; 1; 0x46; 1; 0x50; 0; 0; 1; 0x46; 1; 0x30].
Definition C85_opts : options := mkOpts false false false false false.
Example C85_case : exists t, dumps [O_infile "in"] (tool_fs C85_short) [] C85_short (C85_units_of C85_opts C85_short) t /\
  dumps [O_infile "in"] (tool_fs C85_long) [] C85_long (C85_units_of C85_opts C85_long) t /\ List.length (C85_units_of C85_opts C85_long) = 2%nat /\
  (exists t1 t2, C85_run C85_short [O_infile "in"; O_add_contents true] = Done (0, t1) /\ C85_run C85_long [O_infile "in"; O_add_contents true] = Done (0, t2) /\ t1 <> t2).
Proof.
  eexists. split; [refine (C85_dumps C85_short [O_infile "in"] _ eq_refl eq_refl eq_refl eq_refl eq_refl _ _ _); vm_compute; reflexivity|].
  split; [refine (C85_dumps C85_long [O_infile "in"] _ eq_refl eq_refl eq_refl eq_refl eq_refl _ _ _); vm_compute; reflexivity|]. split; [vm_compute; reflexivity|].
  eexists. eexists. split; [vm_compute; reflexivity|]. split; [vm_compute; reflexivity|]. vm_compute. discriminate.
Qed.
