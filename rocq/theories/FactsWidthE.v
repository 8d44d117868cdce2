(** Bounds on the length of the text: what is parsed fits the bounds of FactsWidthD.v. *)
From Coq Require Import ZArith List Bool Lia ZifyBool ZifyNat String Ascii.
From Verif Require Import MBase MBitBuffer Spec BitsFacts Reader Rules ReaderFacts PropsBits Syntax SyntaxSe MCommon PropsCommon MFraming FramingFacts PropsFraming MSyntaxA SpecA Api MProfile MSyntaxB SpecB MSps SpecSps FactsSps MPps SpecPps FactsPps
  MSlice SpecSlice FactsSlice MSei SpecSei MNal FactsNal PropsNal PropsSlice MRtp FactsRtp MText SpecSize SpecTool FactsText PropsText PropsToolD PropsQp FactsTame PropsSafe FactsLocal FactsGrow PropsGrow FactsWidth FactsWidthB FactsWidthC FactsWidthD.
Import ListNotations.
Open Scope string_scope.
Open Scope Z_scope.

(** A unit parsed from [d]: its fields have the widths the text needs, and it holds 16 elements per byte, less 32 for the header. *)
Definition unit_fits (d : list Z) (u : nal_unit) : Prop := payload_text_ok (nu_payload u) /\ 0 <= nu_parsed_length u < 2 ^ 32 /\ 32 + unit_elements u <= 16 * len d.
Lemma parsed_fits opts data st u st' : byte_string data -> store_ok st -> ParseNalUnit opts data st = Done (Some u, st') -> unit_fits data u /\ nu_offset u = 0 /\ nu_length u = 0.
Proof.
  intros D S E. pose proof (unit_twice _ _ _ _ _ D S E) as [_ G]. destruct (Unescape_byte_string data D) as (rbsp & Er & D'). rewrite (nal_unit_unesc _ _ _ _ Er) in E.
  destruct (le_lt_dec 2 (List.length rbsp)) as [H|H]; [|rewrite (nal_unit_short opts rbsp st D' H) in E; discriminate E].
  destruct (nal_unit_long opts rbsp st D' (store_state_ok _ S) H) as (h & _ & _ & W & E2). rewrite E2 in E.
  destruct (payload_fault _ _ _) eqn:F; [discriminate E|]. injection E as <- <-. unfold unit_fits. split; [|split; reflexivity]. unfold unit_of at 1 2 3. cbn [nu_payload nu_parsed_length].
  split; [apply payload_of_text; [exact W | apply store_state_ok, S]|]. split; [|lia].
  destruct (payload_stop_steps _ _ _ W (store_state_ok _ S) F) as (bs & T). pose proof (steps_pos _ _ _ W T) as P. rewrite pos_adv in P. change (pos (mk_bb rbsp)) with 0 in P. cbn [adv mk_bb bb_bytes] in P.
  destruct D' as [_ L]. unfold ceil_bytes. split; [apply Z.div_pos; lia|]. apply Z.div_lt_upper_bound; lia.
Qed.
Lemma all_fit opts : forall ds st us st', Forall byte_string ds -> store_ok st -> parse_all opts ds st = Done (us, st') ->
  Forall2 (fun d o => forall u, o = Some u -> unit_fits d u) ds us.
Proof.
  induction ds as [|d ds IH]; intros st us st' F S E; cbn [parse_all] in E; [injection E as <- <-; constructor|]. inversion F as [|? ? D F']; subst.
  destruct (ParseNalUnit opts d st) as [[u st1]|e] eqn:E1; [|discriminate E]. destruct (parse_all opts ds st1) as [[us1 st2]|e] eqn:E2; [|discriminate E]. injection E as <- <-.
  pose proof (C22_invariant _ _ _ _ _ D S E1) as S1. constructor; [|eapply IH; eassumption]. intros v ->. apply (parsed_fits _ _ _ _ _ D S E1).
Qed.
(** The units of a stream *)
Definition stream_fits (n : Z) (us : list nal_unit) : Prop := Forall unit_text_ok us /\ total (fun u => 32 + unit_elements u) us <= 16 * n.
Lemma total_app2 {A} (g : A -> Z) l l' : total g (l ++ l')%list = total g l + total g l'.
Proof. unfold total. induction l as [|x l IH]; cbn [fold_right app]; lia. Qed.
Lemma set_range_fits off n d u : 0 <= off < 2 ^ 64 -> 0 <= n < 2 ^ 64 -> unit_fits d u -> unit_text_ok (set_range off n u) /\ 32 + unit_elements (set_range off n u) <= 16 * len d.
Proof. intros O N (H1 & H2 & H3). unfold unit_text_ok, unit_elements, set_range, small64 in *. cbn [nu_payload nu_offset nu_length nu_parsed_length]. split; [split; [exact H1 | lia] | exact H3]. Qed.
Lemma placed_fits data ixs us : len data < 2 ^ 63 -> Forall (in_bounds data) ixs -> Forall2 (fun d o => forall u, o = Some u -> unit_fits d u) (map (payload data) ixs) us ->
  stream_fits (total (fun ix => len (payload data ix)) ixs) (placed ixs us).
Proof.
  intros L. revert us. induction ixs as [|ix ixs IH]; intros us B F; [inversion F; split; [constructor | cbn; lia]|]. inversion F as [|? u ? us' H F']; subst. inversion B as [|? ? (B1 & B2 & B3) B']; subst.
  destruct (IH us' B' F') as [I1 I2]. cbn [placed]. unfold stream_fits. rewrite total_app2. change (total (fun ix => len (payload data ix)) (ix :: ixs)) with (len (payload data ix) + total (fun ix => len (payload data ix)) ixs).
  unfold len in L. destruct u as [u|]; unfold place.
  - destruct (set_range_fits (payload_start_offset ix) (MFraming.payload_size ix) _ u ltac:(lia) ltac:(lia) (H u eq_refl)) as [P Q].
    split; [apply Forall_app; split; [constructor; [exact P | constructor] | exact I1]|].
    match goal with |- total _ [?x] + _ <= _ => change (total (fun u => 32 + unit_elements u) [x]) with (32 + unit_elements x + 0) end. lia.
  - split; [exact I1|]. change (total (fun u => 32 + unit_elements u) []) with 0. pose proof (len_nn (payload data ix)). lia.
Qed.
Lemma annexb_fits opts data st bs st' : byte_string data -> store_ok st -> ParseBitstream opts data st = Done (bs, st') -> stream_fits (len data) (bs_units bs).
Proof.
  intros [F L] S E. rewrite ParseBitstream_spec in E by lia. destruct (parse_all _ _ _) as [[us st1]|e] eqn:P; [|discriminate E]. injection E as <- <-. cbn [bs_units].
  pose proof (annexb_in_bounds data ltac:(lia)) as B.
  assert (Fb : Forall byte_string (map (payload data) (annexb_units data))).
  { apply Forall_map. eapply Forall_impl; [|exact B]. intros ix. apply sub_bytes. split; assumption. }
  destruct (placed_fits data _ _ ltac:(unfold len; lia) B (all_fit _ _ _ _ _ Fb S P)) as [G1 G2]. split; [exact G1|]. pose proof (annexb_total data ltac:(lia)). lia.
Qed.
Lemma placed_nl_fits n nals us : forall off, (n <= 7)%nat -> 0 <= off -> off + len (framed n nals) < 2 ^ 63 -> Forall2 (fun d o => forall u, o = Some u -> unit_fits d u) nals us ->
  stream_fits (len (framed n nals)) (placed_nl (Z.of_nat n) (framed_ranges n off nals) us).
Proof.
  intros off N O L F. revert off O L. induction F as [|d u nals us H F IH]; intros off O L; [split; [constructor | change (0 <= 16 * len (framed n [])); pose proof (len_nn (framed n [])); lia]|].
  cbn [framed_ranges placed_nl fst]. rewrite framed_cons in *. unfold len in L. rewrite !app_length, be_bytes_length in L.
  destruct (IH (off + Z.of_nat n + Z.of_nat (List.length d)) ltac:(lia) ltac:(unfold len; lia)) as [I1 I2]. unfold stream_fits, len in *. rewrite total_app2, !app_length, be_bytes_length.
  destruct u as [u|].
  - destruct (set_range_fits (off + Z.of_nat n) (Z.of_nat n) _ u ltac:(lia) ltac:(lia) (H u eq_refl)) as [P Q]. unfold len in Q.
    split; [apply Forall_app; split; [constructor; [exact P | constructor] | exact I1]|].
    match goal with |- total _ [?x] + _ <= _ => change (total (fun u => 32 + unit_elements u) [x]) with (32 + unit_elements x + 0) end. lia.
  - split; [exact I1|]. change (total (fun u => 32 + unit_elements u) []) with 0. lia.
Qed.
Lemma length_prefixed_fits opts data n st bs st' : byte_string data -> (0 < n <= 7)%nat -> store_ok st -> ParseBitstreamNALULength opts data (Z.of_nat n) st = Done (bs, st') ->
  stream_fits (len data) (bs_units bs).
Proof.
  intros [F L] Hn S E. destruct (C24_length_prefixed opts data n st F ltac:(lia) Hn) as (nals & tail & Ed & Fu & I & Ep). rewrite Ep in E.
  destruct (parse_all _ _ _) as [[us st1]|e] eqn:P; [|discriminate E]. injection E as <- <-. cbn [bs_units].
  assert (Fb : Forall byte_string nals) by (apply (framed_bytes n nals tail); rewrite <- Ed; split; assumption).
  assert (Ln : len data = len (framed n nals) + len tail) by (rewrite Ed; unfold len; rewrite app_length; lia). pose proof (len_nn tail).
  destruct (placed_nl_fits n nals us 0 ltac:(lia) ltac:(lia) ltac:(unfold len in *; lia) (all_fit _ _ _ _ _ Fb S P)) as [G1 G2]. split; [exact G1|]. lia.
Qed.
(** * The text of a stream *)
Definition long_term_squares (us : list nal_unit) : Z := total (fun u => long_term (nu_payload u) * long_term (nu_payload u)) us.
Lemma unit_elements_nn u : 0 <= unit_elements u.
Proof. apply payload_elements_nn. Qed.
Lemma tsz_bitstream o l : Forall unit_text_ok (map snd l) ->
  tsz 0 (2600 * total (fun u => 32 + unit_elements u) (map snd l) + 60 * long_term_squares (map snd l)) (text_bitstream o l).
Proof.
  intros F. unfold text_bitstream, long_term_squares. induction l as [|[sp u] l IH]; [eapply tsz_mono; [apply tsz_nop | cbn; lia]|]. cbn [map snd] in *. inversion F as [|? ? Hu F']; subst.
  cbn [teach fst snd].
  eapply tsz_mono; [apply tsz_seq; [apply tsz_seq; [apply tsz_call, tsz_nal; [lia | exact Hu] | apply tsz_put] | apply IH, F']|].
  change (slen (String newline "")) with 1. unfold total. cbn [fold_right]. pose proof (unit_elements_nn u). lia.
Qed.
Lemma sum_squares (g : nal_unit -> Z) us : (forall u, 0 <= g u) -> total (fun u => g u * g u) us <= total g us * total g us.
Proof. intros G. induction us as [|u us IH]; [cbn; lia|]. unfold total in *. cbn [fold_right]. specialize (G u) as Gu. pose proof (total_nonneg g us G) as T. unfold total in T. nia. Qed.
Lemma long_term_total us : total (fun u => long_term (nu_payload u)) us <= total (fun u => 32 + unit_elements u) us.
Proof. unfold total. induction us as [|u us IH]; cbn [fold_right]; [lia|]. pose proof (long_term_elements (nu_payload u)). unfold unit_elements at 1. lia. Qed.
