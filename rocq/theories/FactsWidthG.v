(** Bounds on the length of the text: the output of the tool. *)
From Coq Require Import ZArith List Bool Lia ZifyBool ZifyNat String Ascii.
From Verif Require Import MBase MBitBuffer Spec BitsFacts Reader Rules ReaderFacts PropsBits Syntax SyntaxSe MCommon PropsCommon MFraming FramingFacts PropsFraming MSyntaxA SpecA Api MProfile MSyntaxB SpecB MSps SpecSps FactsSps MPps SpecPps FactsPps
  MSlice SpecSlice FactsSlice MSei SpecSei MNal FactsNal PropsNal PropsSlice MRtp FactsRtp MText SpecSize SpecTool FactsText PropsText PropsQp FactsTame PropsSafe FactsLocal FactsGrow PropsGrow MTool PropsTool PropsWide PropsToolE FactsWidth FactsWidthB FactsWidthC FactsWidthD FactsWidthE FactsWidthF.
Import ListNotations.
Open Scope string_scope.
Open Scope Z_scope.

(** * The units of a stream, for every way to frame it *)
Definition typed (u : nal_unit) : Prop := small64 (nal_unit_type (nu_header u)).
Lemma parsed_typed opts data st u st' : byte_string data -> store_ok st -> ParseNalUnit opts data st = Done (Some u, st') -> typed u.
Proof.
  intros D S E. destruct (Unescape_byte_string data D) as (rbsp & Er & D'). rewrite (nal_unit_unesc _ _ _ _ Er) in E.
  destruct (le_lt_dec 2 (List.length rbsp)) as [H|H]; [|rewrite (nal_unit_short opts rbsp st D' H) in E; discriminate E].
  destruct (nal_unit_long opts rbsp st D' (store_state_ok _ S) H) as (h & Hh & _ & W & E2). rewrite E2 in E.
  destruct (payload_fault _ _ _) eqn:F; [discriminate E|]. injection E as <- <-. unfold typed, small64, unit_of. cbn [nu_header]. unfold nal_header_ok, u_ok in Hh. lia.
Qed.
Lemma all_typed opts : forall ds st us st', Forall byte_string ds -> store_ok st -> parse_all opts ds st = Done (us, st') -> Forall (fun o => forall u, o = Some u -> typed u) us.
Proof.
  induction ds as [|d ds IH]; intros st us st' F S E; cbn [parse_all] in E; [injection E as <- <-; constructor|]. inversion F as [|? ? D F']; subst.
  destruct (ParseNalUnit opts d st) as [[u st1]|e] eqn:E1; [|discriminate E]. destruct (parse_all opts ds st1) as [[us1 st2]|e] eqn:E2; [|discriminate E]. injection E as <- <-.
  pose proof (C22_invariant _ _ _ _ _ D S E1) as S1. constructor; [|eapply IH; eassumption]. intros v ->. apply (parsed_typed _ _ _ _ _ D S E1).
Qed.
Definition stream_good (n : Z) (us : list nal_unit) : Prop := stream_fits n us /\ total nu_length us <= n /\ Forall typed us.
Lemma good_nil n : 0 <= n -> stream_good n [].
Proof.
  intros H. split; [split; [constructor|]|split; [|constructor]].
  - change (total (fun u => 32 + unit_elements u) []) with 0. lia.
  - change (total nu_length []) with 0. lia.
Qed.
Lemma placed_good data ixs us : Forall (in_bounds data) ixs -> Forall (fun o => forall u, o = Some u -> typed u) us ->
  total nu_length (placed ixs us) <= total (fun ix => len (payload data ix)) ixs /\ Forall typed (placed ixs us).
Proof.
  intros B. revert us. induction B as [|ix ixs (B1 & B2 & B3) B IH]; intros us F.
  - cbn [placed]. split; [cbn; lia | constructor].
  - assert (N : 0 <= total (fun ix => len (payload data ix)) ixs) by (apply total_nonneg; intros x; apply len_nn).
    change (total (fun ix => len (payload data ix)) (ix :: ixs)) with (len (payload data ix) + total (fun ix => len (payload data ix)) ixs). pose proof (len_nn (payload data ix)) as N1.
    destruct us as [|u us]; cbn [placed]; [split; [change (total nu_length []) with 0; lia | constructor]|].
    inversion F as [|? ? H F']; subst. destruct (IH us F') as [I1 I2]. rewrite total_app2. destruct u as [u|]; unfold place.
    + split; [|apply Forall_app; split; [constructor; [exact (H u eq_refl) | constructor] | exact I2]]. rewrite total_one. cbn [set_range nu_length].
      assert (len (payload data ix) = MFraming.payload_size ix); [|lia]. unfold payload, len. rewrite firstn_length_le; [lia|]. rewrite skipn_length. lia.
    + split; [change (total nu_length []) with 0; lia|]. exact I2.
Qed.
Lemma pieces_good n l us : forall off, 0 <= off -> Forall (piece n) l -> off + len (pieces l) < 2 ^ 63 -> Z.of_nat n < 2 ^ 63 ->
  Forall2 (fun d o => forall u, o = Some u -> unit_fits d u) (map snd l) us -> Forall (fun o => forall u, o = Some u -> typed u) us ->
  stream_good (len (pieces l)) (placed_nl (Z.of_nat n) (framed_ranges n off (map snd l)) us).
Proof.
  revert us. induction l as [|[fd x] l IH]; intros us off O P L N F T; cbn [map] in *.
  - inversion F; subst. cbn [framed_ranges placed_nl]. apply good_nil, len_nn.
  - inversion F as [|? u ? us' H F']; subst. inversion T as [|? ? Hu T']; subst. inversion P as [|? ? (P1 & P2 & P3) P']; subst. cbn [fst snd] in *.
    cbn [framed_ranges placed_nl fst]. rewrite pieces_cons in *. cbn [fst snd] in *. unfold len in L. rewrite !app_length in L.
    destruct (IH us' (off + Z.of_nat (List.length fd) + Z.of_nat (List.length x)) ltac:(lia) P' ltac:(unfold len; lia) ltac:(lia) F' T') as ([I1 I2] & I3 & I4).
    unfold stream_good, stream_fits, len in *. rewrite !total_app2, !app_length. destruct u as [u|].
    + destruct (set_range_fits (off + Z.of_nat (List.length fd)) (Z.of_nat (List.length fd)) _ u ltac:(lia) ltac:(lia) (H u eq_refl)) as [Q1 Q2]. unfold len in Q2. rewrite !total_one. cbn [set_range nu_length].
      split; [split; [apply Forall_app; split; [constructor; [exact Q1 | constructor] | exact I1] | lia]|]. split; [lia|]. apply Forall_app; split; [constructor; [exact (Hu u eq_refl) | constructor] | exact I4].
    + change (total (fun u => 32 + unit_elements u) []) with 0. change (total nu_length []) with 0. split; [split; [exact I1 | lia]|]. split; [lia | exact I4].
Qed.
Lemma stream_is_good opts data n st bs st' : byte_string data -> n < 2 ^ 31 -> store_ok st -> stream opts data n st = Done (bs, st') -> stream_good (len data) (bs_units bs).
Proof.
  intros D Hn S E. unfold stream in E. pose proof D as [F L]. destruct (Z.ltb_spec n 0) as [_|Nn].
  - split; [eapply annexb_fits; eassumption|]. rewrite ParseBitstream_spec in E by lia. destruct (parse_all _ _ _) as [[us st1]|e] eqn:P; [|discriminate E]. injection E as <- <-. cbn [bs_units].
    pose proof (annexb_in_bounds data ltac:(lia)) as B. pose proof (annexb_total data ltac:(lia)) as T.
    assert (Fb : Forall byte_string (map (payload data) (annexb_units data))) by (apply Forall_map; eapply Forall_impl; [|exact B]; intros ix; apply sub_bytes, D).
    destruct (placed_good data _ us B (all_typed _ _ _ _ _ Fb S P)) as [G1 G2]. split; [lia | exact G2].
  - destruct (Z.eq_dec n 0) as [->|N0].
    + destruct data as [|x data'].
      { rewrite C79_empty in E. injection E as <- <-. cbn [bs_units]. apply good_nil, len_nn. }
      rewrite C79_no_length in E by (cbn [List.length] in *; lia). destruct (ParseNalUnit opts (x :: data') st) as [[[u|] s1]|e] eqn:E1; [| |discriminate E]; injection E as <- <-; cbn [bs_units].
      * destruct (parsed_fits _ _ _ _ _ D S E1) as (U & _ & _). destruct (set_range_fits 0 0 _ u ltac:(lia) ltac:(lia) U) as [Q1 Q2]. unfold stream_good, stream_fits. rewrite !total_one.
        split; [split; [constructor; [exact Q1 | constructor] | exact Q2]|]. split; [cbn [set_range nu_length]; apply len_nn|]. constructor; [|constructor]. apply (parsed_typed _ _ _ _ _ D S E1).
      * apply good_nil, len_nn.
    + destruct (C79_parse opts data (Z.to_nat n) st ltac:(lia) ltac:(lia) ltac:(lia)) as (l & tail & Ed & Fp & C). rewrite Z2Nat.id in C by lia.
      assert (Fb : Forall byte_string (map snd l)) by (apply (pieces_bytes l tail); rewrite <- Ed; exact D).
      assert (Ln : len data = len (pieces l) + len tail) by (rewrite Ed; unfold len; rewrite app_length; lia). pose proof (len_nn tail).
      destruct C as [[_ C]|[_ (e & C & _)]]; rewrite C in E; [|discriminate E].
      destruct (parse_all opts (map snd l) st) as [[us st1]|e] eqn:P; [|discriminate E]. injection E as <- <-. cbn [bs_units].
      pose proof (pieces_good (Z.to_nat n) l us 0 ltac:(lia) Fp ltac:(unfold len in *; lia) ltac:(lia) (all_fit _ _ _ _ _ Fb S P) (all_typed _ _ _ _ _ Fb S P)) as ((G1 & G2) & G3 & G4).
      rewrite Z2Nat.id in G1, G2, G3, G4 by lia. split; [split; [exact G1 | lia]|]. split; [lia | exact G4].
Qed.

(** * The unit dump *)
Lemma w_hex2 x : is_byte x -> slen (pr_x 2 x) = 2.
Proof.
  unfold is_byte. intros H. unfold pr_x. assert (Nat.max 2 (hex_len x) = 2%nat) as ->; [|reflexivity]. apply Nat.max_l. unfold hex_len.
  assert (Z.log2 x <= 7) by (apply Z.lt_succ_r; destruct (Z.eq_dec x 0) as [->|]; [reflexivity|]; apply Z.log2_lt_pow2; lia).
  assert (Z.log2 x / 4 < 2) by (apply Z.div_lt_upper_bound; lia). lia.
Qed.
Lemma w_hex_bytes l : Forall is_byte l -> forall i, slen (hex_bytes i l) <= 4 * len l.
Proof.
  induction 1 as [|x l H F IH]; intros i; [change (0 <= 4 * len (@nil Z)); pose proof (len_nn (@nil Z)); lia|]. cbn [hex_bytes]. rewrite !slen_app, w_hex2 by exact H. specialize (IH (i + 1)). change (slen " ") with 1.
  assert (slen (if (i + 1) mod 16 =? 0 then " " else "") <= 1) by (destruct (_ =? 0); [reflexivity|]; change (slen "") with 0; lia).
  unfold len in *. cbn [List.length]. lia.
Qed.
Lemma w_contents bytes u : Forall is_byte bytes -> 0 <= nu_length u -> slen (contents bytes u) <= 13 + 4 * nu_length u.
Proof.
  intros F N. unfold contents. rewrite !slen_app. change (slen " contents {") with 11. change (slen " }") with 2.
  pose proof (w_hex_bytes (firstn (Z.to_nat (nu_length u)) (skipn (Z.to_nat (nu_offset u)) bytes)) (Forall_firstn _ _ _ (Forall_skipn _ _ _ F)) 0) as H.
  assert (len (firstn (Z.to_nat (nu_length u)) (skipn (Z.to_nat (nu_offset u)) bytes)) <= nu_length u) by (unfold len; rewrite firstn_length; lia). lia.
Qed.
Lemma fdumped_width k d level t : tsz 0 k d -> -1 <= level -> fdumped d level = Done t -> slen t <= k * (level + 2).
Proof. intros T L E. exact (fdump_width _ _ _ _ T L E). Qed.
Lemma w_dump_units o bytes sp l : Forall is_byte bytes -> Forall unit_text_ok l -> forall i t, dump_units o bytes sp i l = Done t ->
  slen t <= 2 * (2600 * total (fun u => 32 + unit_elements u) l + 60 * long_term_squares l) + 4 * total nu_length l.
Proof.
  intros F U. unfold long_term_squares. induction U as [|u l Hu U IH]; intros i t E; cbn [dump_units] in E; [apply done_inj1 in E; subst t; vm_compute; discriminate|].
  destruct (dump_unit o bytes (sp i) u) as [t1|e] eqn:E1; [|discriminate E]. destruct (dump_units o bytes sp (S i) l) as [t2|e] eqn:E2; [|discriminate E]. apply done_inj1 in E. subst t.
  specialize (IH _ _ E2). unfold dump_unit in E1. destruct (fdumped _ _) as [t0|e] eqn:E0; [|discriminate E1]. apply done_inj1 in E1. subst t1. rewrite !slen_app.
  pose proof (sq_nn u) as Q. unfold sq in Q. pose proof (unit_elements_nn u) as N.
  assert (S0 : slen t0 <= 2 * (27500 + 2600 * unit_elements u + 60 * (long_term (nu_payload u) * long_term (nu_payload u)))).
  { assert (L : -1 <= (if a_as_one_line o then -1 else 0)) by (destruct (a_as_one_line o); lia).
    pose proof (fdumped_width _ _ _ _ (tsz_nal 0 (sp i) (parsing_options o) u ltac:(lia) Hu) L E0) as S0. destruct (a_as_one_line o); lia. }
  destruct Hu as (_ & _ & H3 & _). unfold small64 in H3. pose proof (w_contents bytes u F ltac:(lia)) as C.
  assert (slen (if a_add_contents o then contents bytes u else "") <= 13 + 4 * nu_length u) by (destruct (a_add_contents o); [exact C | change (slen "") with 0; lia]).
  change (slen newline_str) with 1. unfold total in *. cbn [fold_right]. lia.
Qed.

(** * The table of the units *)
Lemma w_name ty : slen (NalUnitTypeToString ty) <= 20.
Proof.
  unfold NalUnitTypeToString. assert (F : Forall (fun e : Z * string => slen (snd e) <= 20) type_names) by (repeat (apply Forall_cons; [vm_compute; discriminate|]); apply Forall_nil).
  induction F as [|[k n] l H F IH]; cbn [lookup]; [vm_compute; discriminate|]. destruct (ty =? k); [exact H | exact IH].
Qed.
Lemma w_opt x b : slen (opt_value x b) <= 12.
Proof. unfold opt_value. destruct b; [pose proof (w_i x) as H; unfold pr_i in H; lia | change (slen "") with 0; lia]. Qed.
Definition count_ok (k : Z) (s : counters) : Prop := 0 <= nal_num s <= k /\ 0 <= frame_num s <= k /\ small64 (last_slice_nal_unit_type s).
Lemma w_frame_row fps k s : count_ok k s -> k < 2 ^ 64 -> slen (frame_row fps s) <= 80.
Proof.
  intros (H1 & H2 & H3) K. unfold frame_row. rewrite !slen_app. change (slen ",") with 1. change (slen ",frame,,") with 8. change (slen ",,,") with 3. change (slen newline_str) with 1.
  unfold pr_u. pose proof (w_dec (frame_num s) ltac:(unfold small64; lia)). pose proof (w_dec _ H3).
  pose proof (w_dec (u64 (u64 (total_bytes s * 8) * fps)) ltac:(unfold small64, u64; apply Z.mod_pos_bound; lia)). lia.
Qed.
Lemma w_nal_row k s u b x y z : count_ok k s -> k < 2 ^ 64 -> typed u -> small64 (nu_length u) -> slen (nal_row s u b x y z) <= 150.
Proof.
  intros (H1 & H2 & H3) K T N. unfold nal_row. rewrite !slen_app. change (slen ",") with 1. change (slen ",,") with 2. change (slen newline_str) with 1. unfold pr_u.
  pose proof (w_dec (nal_num s) ltac:(unfold small64; lia)). pose proof (w_dec (frame_num s) ltac:(unfold small64; lia)). pose proof (w_dec _ T). pose proof (w_dec _ N).
  pose proof (w_name (nal_unit_type (nu_header u))). pose proof (w_opt x b). pose proof (w_opt y b). pose proof (w_opt z b). lia.
Qed.
Lemma w_csv_units fps l : forall k s t s', count_ok k s -> k + len l < 2 ^ 64 -> Forall typed l -> Forall (fun u => small64 (nu_length u)) l -> csv_units fps s l = Done (t, s') ->
  slen t <= 230 * len l /\ count_ok (k + len l) s'.
Proof.
  induction l as [|u l IH]; intros k s t s' C K T N E; cbn [csv_units] in E.
  - assert (t = "" /\ s' = s) as [-> ->] by (split; congruence). split; [vm_compute; discriminate|]. change (len []) with 0. rewrite Z.add_0_r. exact C.
  - destruct (csv_unit fps s u) as [[t1 s1]|e] eqn:E1; [|discriminate E]. destruct (csv_units fps s1 l) as [[t2 s2]|e] eqn:E2; [|discriminate E].
    assert (t = t1 ++ t2 /\ s' = s2) as [-> ->] by (split; congruence). inversion T as [|? ? Tu T']; subst. inversion N as [|? ? Nu N']; subst.
    assert (Ll : len (u :: l) = 1 + len l) by (unfold len; cbn [List.length]; lia). rewrite Ll in *. pose proof (len_nn l) as Nn.
    assert (G : slen t1 <= 230 /\ count_ok (k + 1) s1).
    { unfold csv_unit in E1. cbv zeta in E1. destruct C as (C1 & C2 & C3). destruct (IsSliceSegment _).
      - destruct (np_slice (nu_payload u)) as [h|]; [|discriminate E1]. destruct ((first_slice_segment_in_pic_flag h =? 1) && (0 <? total_bytes s)).
        + match type of E1 with Done (?a, ?b) = _ => assert (t1 = a /\ s1 = b) as [-> ->] by (split; congruence) end. rewrite slen_app.
          pose proof (w_frame_row fps k s ltac:(unfold count_ok; auto) ltac:(lia)).
          match goal with |- slen _ + slen (nal_row ?s _ _ _ _ _) <= _ /\ _ => pose proof (w_nal_row (k + 1) s u true (first_slice_segment_in_pic_flag h) (slice_segment_address h) (slice_pic_order_cnt_lsb h)
            ltac:(unfold count_ok; cbn [nal_num frame_num last_slice_nal_unit_type]; split; [lia | split; [lia | exact Tu]]) ltac:(lia) Tu Nu) end.
          split; [lia|]. unfold count_ok. cbn [nal_num frame_num last_slice_nal_unit_type]. split; [lia | split; [lia | exact Tu]].
        + match type of E1 with Done (?a, ?b) = _ => assert (t1 = a /\ s1 = b) as [-> ->] by (split; congruence) end. rewrite slen_app. change (slen "") with 0.
          match goal with |- _ + slen (nal_row ?s _ _ _ _ _) <= _ /\ _ => pose proof (w_nal_row (k + 1) s u true (first_slice_segment_in_pic_flag h) (slice_segment_address h) (slice_pic_order_cnt_lsb h)
            ltac:(unfold count_ok; cbn [nal_num frame_num last_slice_nal_unit_type]; split; [lia | split; [lia | exact Tu]]) ltac:(lia) Tu Nu) end.
          split; [lia|]. unfold count_ok. cbn [nal_num frame_num last_slice_nal_unit_type]. split; [lia | split; [lia | exact Tu]].
      - match type of E1 with Done (?a, ?b) = _ => assert (t1 = a /\ s1 = b) as [-> ->] by (split; congruence) end.
        pose proof (w_nal_row k s u false 0 0 0 ltac:(unfold count_ok; auto) ltac:(lia) Tu Nu). split; [lia|]. unfold count_ok. cbn [nal_num frame_num last_slice_nal_unit_type]. split; [lia | split; [lia | exact C3]]. }
    destruct G as [G1 G2]. destruct (IH (k + 1) s1 t2 s2 G2 ltac:(lia) T' N' E2) as [G3 G4]. rewrite slen_app. split; [lia|]. replace (k + (1 + len l)) with (k + 1 + len l) by lia. exact G4.
Qed.
Lemma w_csv_dump fps l t : len l < 2 ^ 64 -> Forall typed l -> Forall (fun u => small64 (nu_length u)) l -> csv_dump fps l = Done t -> slen t <= 290 + 230 * len l.
Proof.
  intros L T N E. unfold csv_dump in E. destruct (csv_units fps (mkCount 0 0 0 0) l) as [[t1 s]|e] eqn:E1; [|discriminate E]. apply done_inj1 in E. subst t.
  assert (C0 : count_ok 0 (mkCount 0 0 0 0)) by (unfold count_ok, small64; cbn [nal_num frame_num last_slice_nal_unit_type]; lia).
  destruct (w_csv_units fps l 0 _ t1 s C0 ltac:(lia) T N E1) as [G1 G2]. rewrite !slen_app.
  assert (slen (if 0 <? total_bytes s then frame_row fps s else "") <= 80) by (destruct (0 <? total_bytes s); [eapply w_frame_row; [exact G2 | lia] | change (slen "") with 0; lia]).
  assert (slen csv_header <= 200) by (vm_compute; discriminate). lia.
Qed.
