(** C40: SEI messages. *)
From Coq Require Import ZArith List Bool Lia ZifyBool ZifyNat.
From Verif Require Import MBase MBitBuffer Spec BitsFacts Reader ReaderFacts Rules Syntax SyntaxSe MCommon CommonFacts PropsBits PropsCommon
  MSyntaxA SpecA FactsA Api MSyntaxB SpecB FactsB MSei SpecSei FactsSei.
Import ListNotations.
Open Scope Z_scope.
Ltac Zify.zify_post_hook ::= Z.div_mod_to_equations.

(** * The two header numbers *)
(** Each is read exactly as the standard codes it (ff bytes and a last byte), up to 2^32 - 1. *)
Theorem C40_header_number : reads_exactly read_ff ff_ok enc_ff.
Proof. apply reads_exactly_intro; [apply parses_ff|apply wp_ff]. Qed.
(** The code of a number: its bytes add up to it, all but the last are 255, and it is the only such byte string. *)
Lemma C40_sum_of_bytes : forall n, 0 <= n -> fold_right Z.add 0 (ff_bytes n) = n /\
  exists k l, ff_bytes n = repeat 255 k ++ [l] /\ 0 <= l < 255.
Proof.
  intros n H. split.
  - unfold ff_bytes. rewrite fold_right_app. cbn [fold_right]. assert (G : forall k a, fold_right Z.add a (repeat 255 k) = 255 * Z.of_nat k + a).
    { induction k; intros a; cbn [repeat fold_right]; [lia|]. rewrite IHk. lia. }
    rewrite G. lia.
  - exists (Z.to_nat (n / 255)), (n mod 255). split; [reflexivity|]. apply Z.mod_pos_bound. lia.
Qed.
Lemma C40_code_unique : forall k l n, 0 <= l < 255 -> fold_right Z.add 0 (repeat 255 k ++ [l]) = n -> ff_bytes n = repeat 255 k ++ [l].
Proof.
  intros k l n Hl Hn. rewrite fold_right_app in Hn. cbn [fold_right] in Hn. assert (G : forall k a, fold_right Z.add a (repeat 255 k) = 255 * Z.of_nat k + a).
  { clear. induction k; intros a; cbn [repeat fold_right]; [lia|]. rewrite IHk. lia. }
  rewrite G in Hn. subst n. unfold ff_bytes. f_equal; [f_equal; lia|f_equal; lia].
Qed.

(** * Messages *)
(** What a call returns: the header numbers at the front of the data, and either a payload that satisfies the payload's syntax and is coded
    by the bits after the header (up to the aliases of se(v) codewords, see [agree] and C03), or none, and then no payload of this type is coded
    there.  Nothing is returned iff there are no two header numbers.  Signed overflow (colour remapping matrix) is the only undefined
    behaviour. *)
Theorem C40_message_of_the_code : forall b, wf b ->
  match ParseSei b with
  | Ok m b' => wf b' /\ bb_bytes b' = bb_bytes b /\ ff_ok (payload_type m) /\ ff_ok (payload_size m) /\
      exists rest, rem b = enc_ff (payload_type m) ++ enc_ff (payload_size m) ++ rest /\
      match sei_payload_state m with
      | Some p => payload_ok false (payload_type m) (payload_size m) p /\
          exists bs, rest = bs ++ rem b' /\ agree bs (enc_payload false p)
      | None => forall p rest', payload_ok false (payload_type m) (payload_size m) p -> rest <> enc_payload false p ++ rest'
      end
  | Fail b' => wf b' /\ bb_bytes b' = bb_bytes b /\ forall t s rest, ff_ok t -> ff_ok s -> rem b <> enc_ff t ++ enc_ff s ++ rest
  | Err e => e = SignedOverflow /\ zrun 24 (rem b) /\ exists s rest, ff_ok s /\ rem b = enc_ff 142 ++ enc_ff s ++ rest
  end.
Proof.
  intros b W. unfold ParseSei. unfold bind at 1. pose proof (wp_ff b W) as H1.
  assert (NF : (forall t rest, ff_ok t -> rem b <> enc_ff t ++ rest) -> forall t s rest, ff_ok t -> ff_ok s -> rem b <> enc_ff t ++ enc_ff s ++ rest) by (intros A t s rest Ht Hs E; exact (A t _ Ht E)).
  destruct (read_ff b) as [t b1|b1|e] eqn:E1; [|destruct H1 as [bs S]; destruct (steps_facts _ _ _ W S) as (W1 & B1 & _); split; [exact W1|]; split; [exact B1|]; apply NF; intros t rest Ht E; pose proof (parses_ff t Ht b rest W E); congruence|destruct H1].
  destruct H1 as (bs1 & S1 & Ht & ->). destruct (steps_facts _ _ _ W S1) as (W1 & B1 & _). unfold bind at 1. pose proof (wp_ff b1 W1) as H2.
  destruct (read_ff b1) as [s b2|b2|e] eqn:E2.
  2:{ destruct H2 as [bs S2]. destruct (steps_facts _ _ _ W1 S2) as (W2 & B2 & _). split; [exact W2|]. split; [congruence|]. intros t' s' rest Ht' Hs' E.
      pose proof (parses_ff t' Ht' b _ W E) as P. rewrite E1 in P. injection P as -> Eb.
      assert (E' : rem b1 = enc_ff s' ++ rest) by (destruct S1 as [S1 _]; rewrite S1 in E; apply app_inv_head in E; exact E).
      pose proof (parses_ff s' Hs' b1 rest W1 E'). congruence. }
  2: destruct H2.
  destruct H2 as (bs2 & S2 & Hs & ->). destruct (steps_facts _ _ _ W1 S2) as (W2 & B2 & _).
  assert (Eh : rem b = enc_ff t ++ enc_ff s ++ rem b2) by (destruct S1 as [-> _], S2 as [-> _]; reflexivity).
  unfold bind at 1, attempt. pose proof (wpa_payload t s ltac:(unfold ff_ok in Hs; lia) b2 W2) as H3. cbn beta in H3.
  destruct (parse_payload t s b2) as [p b3|b3|e] eqn:E3; unfold ret.
  - destruct H3 as (bs3 & S3 & O & A). destruct (steps_facts _ _ _ W2 S3) as (W3 & B3 & _). cbn. split; [exact W3|]. split; [congruence|]. split; [exact Ht|]. split; [exact Hs|].
    exists (rem b2). split; [exact Eh|]. split; [exact O|]. exists bs3. split; [apply S3|exact A].
  - destruct H3 as (bs3 & S3). destruct (steps_facts _ _ _ W2 S3) as (W3 & B3 & _). cbn. split; [exact W3|]. split; [congruence|]. split; [exact Ht|]. split; [exact Hs|].
    exists (rem b2). split; [exact Eh|]. intros p rest' O E. pose proof (parses_payload t s p O b2 rest' W2 E). congruence.
  - destruct H3 as [H3 Z3]. split; [exact H3|]. split; [rewrite Eh; apply zrun_app_r, zrun_app_r, Z3|]. exists s, (rem b2). split; [exact Hs|]. destruct (Z.eq_dec t 142) as [->|N]; [exact Eh|exfalso].
    assert (NE : wp no_err (parse_payload t s) (fun _ _ => True)).
    { assert (FM : forall A B (f : A -> B) (m : M A) P (enc : A -> list bool), wp no_err m (fun a bs => P a /\ bs = enc a) -> wp no_err (fmap f m) (fun _ _ => True))
        by (intros A B f m P enc Hm; unfold fmap; eapply wp_bind; [exact Hm|]; intros; apply wp_ret; exact I).
      clear - N FM Hs. unfold parse_payload. replace (t =? 142) with false by lia.
      repeat (apply wp_if; intros ?); eapply FM.
      - apply wp_t35. unfold ff_ok in Hs. lia.
      - apply wp_unregistered.
      - apply wp_mastering.
      - apply wp_light.
      - apply wp_knee.
      - apply wp_ccv.
      - apply (wp_u_ok 8). lia.
      - apply wp_ambient.
      - apply wp_alpha.
      - unfold parse_unknown. apply wp_guard. intros _. apply wp_bytes. }
    specialize (NE b2 W2). rewrite E3 in NE. exact NE.
Qed.
(** Every message of a known layout is returned. *)
Theorem C40_layout : forall b t s p rest, wf b -> ff_ok t -> ff_ok s -> payload_ok false t s p ->
  rem b = enc_ff t ++ enc_ff s ++ enc_payload false p ++ rest ->
  ParseSei b = Ok (mkSEI t s (Some p)) (adv b (length (enc_ff t ++ enc_ff s ++ enc_payload false p))).
Proof.
  intros b t s p rest W Ht Hs O E.
  assert (P : parses ParseSei (enc_ff t ++ enc_ff s ++ enc_payload false p ++ []) (mkSEI t s (Some p))).
  { unfold ParseSei. eapply parses_bind; [apply parses_ff, Ht|]. eapply parses_bind; [apply parses_ff, Hs|].
    eapply parses_bind; [apply parses_attempt, parses_payload, O|]. apply parses_ret. }
  rewrite app_nil_r in P. apply (P b rest W). rewrite E, <- !app_assoc. reflexivity.
Qed.
(** The standard's layout, where the code's one deviation does not matter. *)
Definition remap_depths_agree (p : sei_payload) : Prop :=
  forall s, p = P_remap s -> lut_bits (colour_remap_input_bit_depth s) = lut_bits (colour_remap_output_bit_depth s) \/ Forall (fun l => fst l = 0) (pre_lut s).
Lemma payload_std t s p : remap_depths_agree p -> payload_ok true t s p -> payload_ok false t s p /\ enc_payload true p = enc_payload false p.
Proof.
  intros D O. destruct p as [| | | | | | r | | | |]; try (split; [exact O|reflexivity]). cbn [payload_ok enc_payload] in *. destruct O as [Et O]. specialize (D r eq_refl).
  destruct D as [D|D].
  - assert (Q : pre_target_bits true r = pre_target_bits false r) by (unfold pre_target_bits; congruence). split; [split; [exact Et|]|].
    + unfold remap_ok in *. cbv zeta in *. rewrite <- Q. exact O.
    + unfold enc_remap. cbv zeta. rewrite Q. reflexivity.
  - assert (Q1 : flat_map (enc_lut (lut_bits (colour_remap_input_bit_depth r)) (pre_target_bits true r)) (pre_lut r) =
                 flat_map (enc_lut (lut_bits (colour_remap_input_bit_depth r)) (pre_target_bits false r)) (pre_lut r)).
    { clear O. induction D as [|l ls Hl D IH]; [reflexivity|].
      change (enc_lut (lut_bits (colour_remap_input_bit_depth r)) (pre_target_bits true r) l ++ flat_map (enc_lut (lut_bits (colour_remap_input_bit_depth r)) (pre_target_bits true r)) ls =
              enc_lut (lut_bits (colour_remap_input_bit_depth r)) (pre_target_bits false r) l ++ flat_map (enc_lut (lut_bits (colour_remap_input_bit_depth r)) (pre_target_bits false r)) ls).
      rewrite IH. f_equal. unfold enc_lut. rewrite Hl. reflexivity. }
    assert (Q2 : vec 3 (lut_ok (lut_bits (colour_remap_input_bit_depth r)) (pre_target_bits true r)) (pre_lut r) ->
                 vec 3 (lut_ok (lut_bits (colour_remap_input_bit_depth r)) (pre_target_bits false r)) (pre_lut r)).
    { intros [L F]. split; [exact L|]. rewrite Forall_forall in *. intros l Hl. specialize (F l Hl). specialize (D l Hl). unfold lut_ok in *. rewrite D in *. exact F. }
    split; [split; [exact Et|]|].
    + unfold remap_ok in *. cbv zeta in *. unfold optf in *. destruct (negb (nz (colour_remap_cancel_flag r))); tauto.
    + unfold enc_remap. cbv zeta. rewrite Q1. reflexivity.
Qed.
(** Not for colour remapping with pre-LUT values whose input and output depths need a different number of bytes (refuted below). *)
Theorem C40_standard_layout : forall b t s p rest, wf b -> ff_ok t -> ff_ok s -> payload_ok true t s p -> remap_depths_agree p ->
  rem b = enc_ff t ++ enc_ff s ++ enc_payload true p ++ rest ->
  ParseSei b = Ok (mkSEI t s (Some p)) (adv b (length (enc_ff t ++ enc_ff s ++ enc_payload true p))).
Proof.
  intros b t s p rest W Ht Hs O D E. destruct (payload_std t s p D O) as [O' E']. rewrite E' in *. eapply C40_layout; eassumption.
Qed.

(** * Extents *)
(** The bytes kept by the types stored as bytes. *)
Definition kept_bytes (p : sei_payload) : option (Z * list Z) :=
  match p with
  | P_t35 s => Some (1 + (if itu_t_t35_country_code s =? 255 then 1 else 0), t35_payload s)
  | P_unregistered s => Some (16, ur_payload s)
  | P_unknown l => Some (0, l)
  | _ => None
  end.
(** User data (and unknown types): header bytes and payload bytes together are exactly the announced size, all of them from the data. *)
Theorem C40_user_data_extent : forall b m b' p k l, wf b -> ParseSei b = Ok m b' -> sei_payload_state m = Some p -> kept_bytes p = Some (k, l) ->
  k + Z.of_nat (length l) = payload_size m /\ Forall is_byte l /\
  exists hdr, pos b' = pos b + 8 * Z.of_nat (length (ff_bytes (payload_type m)) + length (ff_bytes (payload_size m))) + 8 * payload_size m /\
  rem b = enc_ff (payload_type m) ++ enc_ff (payload_size m) ++ hdr ++ flat_map (enc_u 8) l ++ rem b' /\ Z.of_nat (length hdr) = 8 * k.
Proof.
  intros b m b' p k l W E Ep Ek. unfold ParseSei, bind at 1 in E. pose proof (wp_ff b W) as H1.
  destruct (read_ff b) as [t b1|b1|e]; try discriminate. destruct H1 as (bs1 & S1 & Ht & ->). pose proof (steps_wf _ _ _ W S1) as W1.
  unfold bind at 1 in E. pose proof (wp_ff b1 W1) as H2. destruct (read_ff b1) as [s b2|b2|e]; try discriminate. destruct H2 as (bs2 & S2 & Hs & ->).
  pose proof (steps_wf _ _ _ W1 S2) as W2. unfold bind, attempt in E.
  assert (H3 : match parse_payload t s b2 with Ok p b3 => forall k l, kept_bytes p = Some (k, l) -> payload_ok false t s p /\ steps b2 b3 (enc_payload false p) | _ => True end).
  { pose proof (wpa_payload t s ltac:(unfold ff_ok in Hs; lia) b2 W2) as H3. cbn beta in H3.
    assert (FM : forall A (f : A -> sei_payload) (m : M A) P (enc : A -> list bool), wp no_err m (fun a bs => P a /\ bs = enc a) -> (forall a, enc_payload false (f a) = enc a) ->
       wp no_err (fmap f m) (fun p bs => bs = enc_payload false p)).
    { intros A f m0 P enc Hm He. unfold fmap. eapply wp_bind; [exact Hm|]. cbv beta. intros a bs [_ ->]. apply wp_ret. rewrite app_nil_r, He. reflexivity. }
    destruct (parse_payload t s b2) as [q b3|b3|e] eqn:Eq; [|exact I|exact I]. destruct H3 as (bs3 & S3 & O & A). intros k' l' Hk. split; [exact O|].
    assert (wp no_err (parse_payload t s) (fun p bs => bs = enc_payload false p) \/ t = 142) as [Hw| ->].
    { destruct (Z.eq_dec t 142); [auto|left]. unfold parse_payload. replace (t =? 142) with false by lia. repeat (apply wp_if; intros ?); eapply FM;
        first [apply wp_t35; unfold ff_ok in Hs; lia | apply wp_unregistered | apply wp_mastering | apply wp_light | apply wp_knee | apply wp_ccv | apply wp_ambient | apply wp_alpha
              | apply (wp_u_ok 8); lia | unfold parse_unknown; apply wp_guard; intros _; apply wp_bytes | reflexivity]. }
    - specialize (Hw b2 W2). rewrite Eq in Hw. destruct Hw as (bs4 & S4 & ->). exact S4.
    - destruct q; try discriminate; cbn in O; destruct O as [O1 O2]; try discriminate. exfalso. apply O1. cbn. tauto. }
  destruct (parse_payload t s b2) as [q b3|b3|e]; try discriminate; injection E as <- <-; cbn in Ep; [injection Ep as ->|discriminate]. cbn [payload_type payload_size].
  destruct (H3 k l Ek) as [O S3]. clear H3.
  assert (P3 : pos b3 = pos b + 8 * Z.of_nat (length (ff_bytes t) + length (ff_bytes s)) + Z.of_nat (length (enc_payload false p))).
  { destruct S1 as [_ ->], S2 as [_ ->], S3 as [_ ->]. rewrite !pos_adv. unfold enc_ff.
    assert (G : forall l, length (flat_map (enc_u 8) l) = (8 * length l)%nat).
    { clear. induction l as [|a l IH]; [reflexivity|]. change (length (enc_u 8 a ++ flat_map (enc_u 8) l) = (8 * S (length l))%nat). rewrite app_length, length_enc_u, IH. lia. }
    rewrite !G. lia. }
  assert (GL : forall l, length (flat_map (enc_u 8) l) = (8 * length l)%nat).
  { clear. induction l as [|a l IH]; [reflexivity|]. change (length (enc_u 8 a ++ flat_map (enc_u 8) l) = (8 * S (length l))%nat). rewrite app_length, length_enc_u, IH. lia. }
  assert (ER : rem b = enc_ff t ++ enc_ff s ++ enc_payload false p ++ rem b3) by (destruct S1 as [-> _], S2 as [-> _], S3 as [-> _]; reflexivity).
  assert (IB : forall l, Forall (u_ok 8) l -> Forall is_byte l) by (intros l0; apply Forall_impl; intros a; unfold u_ok, is_byte; change (2 ^ 8) with 256; lia).
  destruct p as [q|q| | | | | | | | |q]; try discriminate; cbn [kept_bytes enc_payload payload_ok] in *; injection Ek as <- <-.
  - destruct O as (_ & O1 & O2 & O3 & O4). split; [lia|]. split; [auto|].
    exists (enc_u 8 (itu_t_t35_country_code q) ++ opt (itu_t_t35_country_code q =? 255) (enc_u 8 (itu_t_t35_country_code_extension_byte q))).
    assert (L : enc_t35 q = (enc_u 8 (itu_t_t35_country_code q) ++ opt (itu_t_t35_country_code q =? 255) (enc_u 8 (itu_t_t35_country_code_extension_byte q))) ++ flat_map (enc_u 8) (t35_payload q))
      by (unfold enc_t35, concat; rewrite app_nil_r, <- app_assoc; reflexivity).
    assert (Lh : Z.of_nat (length (enc_u 8 (itu_t_t35_country_code q) ++ opt (itu_t_t35_country_code q =? 255) (enc_u 8 (itu_t_t35_country_code_extension_byte q)))) = 8 * (1 + (if itu_t_t35_country_code q =? 255 then 1 else 0)))
      by (rewrite app_length, length_enc_u; unfold opt; destruct (itu_t_t35_country_code q =? 255); rewrite ?length_enc_u; cbn [length]; lia).
    rewrite L in *. rewrite app_length, GL in P3. split; [lia|]. split; [rewrite ER, <- !app_assoc; reflexivity|exact Lh].
  - destruct O as (_ & O1 & O2 & O3 & O4). split; [lia|]. split; [auto|]. exists (enc_u 64 (uuid_iso_iec_11578_1 q) ++ enc_u 64 (uuid_iso_iec_11578_2 q)).
    assert (L : enc_unregistered q = (enc_u 64 (uuid_iso_iec_11578_1 q) ++ enc_u 64 (uuid_iso_iec_11578_2 q)) ++ flat_map (enc_u 8) (ur_payload q))
      by (unfold enc_unregistered, concat; rewrite app_nil_r, <- app_assoc; reflexivity).
    rewrite L in *. rewrite !app_length, GL, !length_enc_u in P3. split; [lia|]. split; [rewrite ER, <- !app_assoc; reflexivity|rewrite app_length, !length_enc_u; reflexivity].
  - destruct O as (_ & O1 & O2 & O3). split; [lia|]. split; [auto|]. exists []. rewrite GL in P3. split; [lia|]. split; [exact ER|reflexivity].
Qed.
(** The vectors are resized to at most payload_size elements before their bytes are read; payload_size is at most 255 times the number of
    bytes of the input. *)
Theorem C40_allocation : forall b m b', wf b -> ParseSei b = Ok m b' -> payload_size m <= 255 * Z.of_nat (length (bb_bytes b)).
Proof.
  intros b m b' W E. pose proof (C40_message_of_the_code b W) as H. rewrite E in H. destruct H as (_ & _ & Ht & Hs & rest & ER & _).
  pose proof (rem_length b W) as L. rewrite ER, !app_length in L. unfold ff_ok in *.
  pose proof (enc_ff_length (payload_type m) ltac:(lia)). pose proof (enc_ff_length (payload_size m) ltac:(lia)). lia.
Qed.
(** payload_size plays no role for the types with a fixed layout: a content_light_level_info of 4 bytes that announces 200 bytes is accepted. *)
Theorem C40_extent_refuted : on_data ParseSei [144; 200; 0; 100; 0; 50] = Done (Some (mkSEI 144 200 (Some (P_light (mkCL 100 50))))).
Proof. vm_compute. reflexivity. Qed.
(** The pre-LUT target values of a colour remapping are read with the input bit depth. *)
Definition C40_remap : sei_remap :=
  mkRemap 0 0 1 0 0 0 0 0 8 10 [(1, [(0, 0); (255, 1023)]); (0, []); (0, [])] 0 0 [] [(0, []); (0, []); (0, [])].
Theorem C40_remap_refuted : payload_ok true 142 17 (P_remap C40_remap) /\
  exists p, on_data ParseSei (pack (enc_ff 142 ++ enc_ff 17 ++ enc_payload true (P_remap C40_remap) ++ [true])) = Done (Some (mkSEI 142 17 p)) /\ p <> Some (P_remap C40_remap).
Proof.
  split; [|eexists; split; [vm_compute; reflexivity|discriminate]].
  cbn [payload_ok]. split; [reflexivity|]. unfold remap_ok. cbv zeta. repeat (split; [first [solve [unfold C40_remap; solve_ok] | intros _; split; discriminate]|]). unfold C40_remap. solve_ok.
Qed.

(** * Cases *)
Example C40_case : payload_ok true 4 300 (P_t35 (mkT35 255 7 (repeat 9 298))) /\
  on_data ParseSei (pack (enc_ff 4 ++ enc_ff 300 ++ enc_payload true (P_t35 (mkT35 255 7 (repeat 9 298))))) = Done (Some (mkSEI 4 300 (Some (P_t35 (mkT35 255 7 (repeat 9 298)))))).
Proof. split; [split; [reflexivity|]|vm_compute; reflexivity]. unfold t35_ok. split; [solve_ok|]. split; [solve_ok|]. split; [apply Forall_forall; intros x Hx; apply repeat_spec in Hx; subst; solve_ok|reflexivity]. Qed.
Example C40_case_remap : payload_ok true 142 30 (P_remap (mkRemap 3 0 1 1 0 9 16 9 10 12 [(1, [(0, 5); (1023, 4095)]); (0, []); (0, [])] 1 7 [[1; -1; 0]; [2; -2; 5]; [100; 0; 7]] [(0, []); (0, []); (1, [(0, 0); (1, 1)])])) /\
  on_data ParseSei (pack (enc_ff 142 ++ enc_ff 30 ++ enc_payload true (P_remap (mkRemap 3 0 1 1 0 9 16 9 10 12 [(1, [(0, 5); (1023, 4095)]); (0, []); (0, [])] 1 7 [[1; -1; 0]; [2; -2; 5]; [100; 0; 7]] [(0, []); (0, []); (1, [(0, 0); (1, 1)])])) ++ [true])) =
  Done (Some (mkSEI 142 30 (Some (P_remap (mkRemap 3 0 1 1 0 9 16 9 10 12 [(1, [(0, 5); (1023, 4095)]); (0, []); (0, [])] 1 7 [[1; -1; 0]; [2; -2; 5]; [100; 0; 7]] [(0, []); (0, []); (1, [(0, 0); (1, 1)])]))))).
Proof.
  split; [|vm_compute; reflexivity]. cbn [payload_ok]. split; [reflexivity|]. unfold remap_ok. cbv zeta.
  repeat (split; [first [solve [solve_ok] | intros _; split; discriminate]|]). solve_ok.
Qed.
(** Truncated user data: the message is returned without a payload. *)
Example C40_case_truncated : on_data ParseSei [5; 20; 1; 2; 3] = Done (Some (mkSEI 5 20 None)).
Proof. vm_compute. reflexivity. Qed.
