(** C80: whole streams of the standard, structure by structure. *)
From Coq Require Import ZArith List Bool Lia ZifyBool ZifyNat.
From Verif Require Import MBase MBitBuffer Spec BitsFacts Reader ReaderFacts Rules Syntax SyntaxSe MCommon CommonFacts PropsBits PropsCommon
  MFraming FramingFacts PropsFraming MSyntaxA SpecA FactsA Api PropsA MSyntaxB SpecB FactsB FactsRps PropsB MSps SpecSps FactsSps PropsSps
  MPps SpecPps FactsPps PropsPps MSlice SpecSlice FactsSlice PropsSlice SpecSliceStd PropsSliceStd MSei SpecSei FactsSei PropsSei MNal FactsNal PropsNal MRtp FactsRtp PropsQp PropsRel.
From Verif Require PropsSafe.
Import ListNotations.
Open Scope Z_scope.
Ltac Zify.zify_post_hook ::= Z.div_mod_to_equations.

(** * Specification: what is sent *)
(** The contents of a NAL unit.  A slice segment: its PPS and SPS, its header, and the slice data.  An SEI unit: the type, size and payload of its first
    message, and what follows it.  [Other]: a unit of a type without a parser. *)
Inductive item : Type :=
| Vps (v : vps_body) | Sps (s : sps) | Pps (p : pps) | Aud (pic_type : Z)
| Slice (s : sps) (p : pps) (h : std_header) (data : list bool)
| Sei (ty size : Z) (p : sei_payload) (more : list bool)
| Other (bits : list bool).
(** Syntax of the standard (7.3), for the NAL unit type [nut] *)
Definition item_bits (nut : Z) (it : item) : list bool :=
  match it with
  | Vps v => enc_vps true v
  | Sps s => enc_sps true s
  | Pps p => enc_pps true p
  | Aud t => enc_u 3 t
  | Slice s p h data => enc_std nut s p h ++ data
  | Sei ty size p more => enc_ff ty ++ enc_ff size ++ enc_payload true p ++ more
  | Other bits => bits
  end.
(** The bytes of the unit before emulation prevention: header, contents, rbsp_trailing_bits() (a one, then zeros up to the end of the byte) *)
Definition unit_bytes (u : nal_header * item) : list Z := pack (enc_nal_header (fst u) ++ item_bits (nal_unit_type (fst u)) (snd u) ++ [true]).
(** The parameter sets that were sent last with an id *)
Fixpoint last_sps (id : Z) (sent : list item) : option sps :=
  match sent with
  | [] => None
  | Sps s :: r => match last_sps id r with Some q => Some q | None => if id =? sps_seq_parameter_set_id s then Some s else None end
  | _ :: r => last_sps id r
  end.
Fixpoint last_pps (id : Z) (sent : list item) : option pps :=
  match sent with
  | [] => None
  | Pps p :: r => match last_pps id r with Some q => Some q | None => if id =? pps_pic_parameter_set_id p then Some p else None end
  | _ :: r => last_pps id r
  end.
(** The unit conforms to the standard (fields in range, presence as the standard has it), uses none of the syntax on which the parser departs from it
    (C25, C27, C29, C36, C37, C40), has the type of its contents, and a slice refers to parameter sets sent before it. *)
Definition item_ok (nut : Z) (sent : list item) (it : item) : Prop :=
  match it with
  | Vps v => nut = 32 /\ vps_ok true v /\ vps_hrds v = [] /\ same_presence (vps_profile_tier_level v)
  | Sps s => nut = 33 /\ sps_std s /\ sps_no_deviation s
  | Pps p => nut = 34 /\ pps_std p /\ pps_no_deviation p
  | Aud t => nut = 35 /\ u_ok 3 t
  | Slice s p h _ => (0 <= nut <= 9 \/ 16 <= nut <= 21) /\ last_pps (slice_pic_parameter_set_id (base h)) sent = Some p /\ last_sps (pps_seq_parameter_set_id p) sent = Some s /\
      std_ok nut s p h /\ std_no_deviation s p h
  | Sei ty size p _ => (nut = 39 \/ nut = 40) /\ ff_ok ty /\ ff_ok size /\ payload_ok true ty size p /\ remap_depths_agree p
  | Other _ => ~ (0 <= nut <= 9 \/ 16 <= nut <= 21 \/ 32 <= nut <= 35 \/ nut = 39 \/ nut = 40)
  end.
Definition unit_conforms (sent : list item) (u : nal_header * item) : Prop :=
  nal_header_ok (fst u) /\ item_ok (nal_unit_type (fst u)) sent (snd u) /\ Z.of_nat (length (unit_bytes u)) < 2 ^ 32.
Fixpoint conforms (sent : list item) (us : list (nal_header * item)) : Prop :=
  match us with [] => True | u :: r => unit_conforms sent u /\ conforms (sent ++ [snd u]) r end.
(** * Specification: what is returned: exactly what was sent.  (The extension data flag of a parameter set is 0 without extension.) *)
Definition returns (it : item) (p : nal_payload) : Prop :=
  match it with
  | Vps v => exists x, p = mkNP (Some (v, x)) None None None None None /\ (vps_extension_flag v = 0 -> x = 0)
  | Sps s => exists x, p = mkNP None (Some (s, x)) None None None None /\ (sps_extension_4bits s = 0 -> x = 0)
  | Pps s => exists x, p = mkNP None None (Some (s, x)) None None None /\ (pps_extension_4bits s = 0 -> x = 0)
  | Aud t => p = mkNP None None None (Some t) None None
  | Slice _ _ h _ => p = mkNP None None None None (Some (base h)) None
  | Sei ty size m _ => p = mkNP None None None None None (Some (mkSEI ty size (Some m)))
  | Other _ => p = mkNP None None None None None None
  end.
(** Header and contents; the checksum is that of the bytes before emulation prevention, the parsed length counts some of these bytes. *)
Definition unit_returned (opts : options) (u : nal_header * item) (r : nal_header * nal_payload * Z * option Z) : Prop :=
  match r with (h, p, parsed, checksum) =>
    h = fst u /\ returns (snd u) p /\ 2 <= parsed <= Z.of_nat (length (unit_bytes u)) /\
    checksum = (if add_checksum opts then Some (ones_complement_checksum (unit_bytes u)) else None)
  end.

(** * Packing *)
Lemma byte_bits_enc x : is_byte x -> byte_bits x = enc_u 8 x.
Proof. intros _. reflexivity. Qed.
Lemma pack_n_bits n : forall l, (length l <= 8 * n)%nat -> bits_of (pack_n n l) = l ++ repeat false (8 * n - length l).
Proof.
  induction n as [|n IH]; intros l L; [destruct l; [reflexivity | cbn in L; lia]|]. cbn [pack_n]. rewrite BitsFacts.bits_of_cons.
  rewrite IH by (rewrite skipn_length; lia). rewrite skipn_length.
  assert (E : byte_bits (bval (firstn 8 (l ++ repeat false 8))) = firstn 8 (l ++ repeat false 8)).
  { assert (Ll : length (firstn 8 (l ++ repeat false 8)) = 8%nat) by (rewrite firstn_length_le; [reflexivity | rewrite app_length, repeat_length; lia]).
    change (byte_bits (bval (firstn 8 (l ++ repeat false 8)))) with (enc_u 8 (bval (firstn 8 (l ++ repeat false 8)))). rewrite <- Ll at 1. apply enc_u_bval. }
  rewrite E. destruct (le_lt_dec 8 (length l)) as [G|G].
  - rewrite firstn_app. replace (8 - length l)%nat with 0%nat by lia. rewrite firstn_O, app_nil_r, app_assoc, firstn_skipn. f_equal. f_equal. lia.
  - rewrite skipn_all2 by lia. cbn [app]. rewrite firstn_app, firstn_all2 by lia. rewrite <- app_assoc. f_equal.
    replace (firstn (8 - length l) (repeat false 8)) with (repeat false (8 - length l)).
    + rewrite <- repeat_app. f_equal. lia.
    + assert (F : forall a b, firstn a (repeat false (a + b)) = repeat false a) by (induction a as [|a IHa]; intros b; [reflexivity | cbn [Nat.add repeat firstn]; f_equal; apply IHa]).
      rewrite <- (F (8 - length l)%nat (length l)). f_equal. f_equal. lia.
Qed.
Lemma pack_bits l : exists k, (k < 8)%nat /\ bits_of (pack l) = l ++ repeat false k /\ (length l + k = 8 * length (pack l))%nat.
Proof.
  exists (8 * ((length l + 7) / 8) - length l)%nat. pose proof (Nat.div_mod (length l + 7) 8 ltac:(lia)) as D. pose proof (Nat.mod_upper_bound (length l + 7) 8 ltac:(lia)) as M.
  split; [lia|]. split; [apply pack_n_bits; lia|]. assert (Ln : forall n l0, length (pack_n n l0) = n) by (induction n; intros; cbn [pack_n length]; [reflexivity | f_equal; auto]).
  unfold pack. rewrite Ln. lia.
Qed.
Lemma pack_is_bytes l : Forall is_byte (pack l).
Proof.
  unfold pack. generalize ((length l + 7) / 8)%nat. intros n. revert l. induction n as [|n IH]; intros l; cbn [pack_n]; constructor; [|apply IH].
  pose proof (bval_range (firstn 8 (l ++ repeat false 8))) as R. rewrite firstn_length_le in R by (rewrite app_length, repeat_length; lia). exact R.
Qed.
Lemma pack_last l : pack (l ++ [true]) <> [] /\ last (pack (l ++ [true])) 0 <> 0.
Proof.
  destruct (pack_bits (l ++ [true])) as (k & K & E & L). rewrite app_length in L. cbn [length] in L.
  assert (N : pack (l ++ [true]) <> []) by (intros N; rewrite N in L; cbn [length] in L; lia). split; [exact N|].
  intros Z0. pose proof (app_removelast_last 0 N) as Sp. rewrite Z0 in Sp. rewrite Sp, bits_of_app in E. change (bits_of [0]) with (repeat false 8) in E.
  assert (G : forall n (x : list bool), rev (x ++ repeat false n) = repeat false n ++ rev x).
  { intros n x. rewrite rev_app_distr. f_equal. clear. induction n as [|n IH]; [reflexivity|]. cbn [repeat rev]. rewrite IH. clear. induction n; [reflexivity | cbn [repeat app]; f_equal; assumption]. }
  apply (f_equal (@rev bool)) in E. rewrite !G, rev_app_distr in E. cbn [rev app] in E. replace 8%nat with (k + S (7 - k))%nat in E by lia. rewrite repeat_app, <- app_assoc in E.
  apply app_inv_head in E. cbn [repeat app] in E. discriminate E.
Qed.

(** * One unit *)
Lemma last_sps_app id l it : last_sps id (l ++ [it]) = match it with Sps s => if id =? sps_seq_parameter_set_id s then Some s else last_sps id l | _ => last_sps id l end.
Proof.
  induction l as [|a l IH]; [destruct it; reflexivity|]. cbn [app last_sps]. destruct a; rewrite ?IH; try reflexivity. destruct it; try reflexivity. destruct (id =? sps_seq_parameter_set_id s0); reflexivity.
Qed.
Lemma last_pps_app id l it : last_pps id (l ++ [it]) = match it with Pps s => if id =? pps_pic_parameter_set_id s then Some s else last_pps id l | _ => last_pps id l end.
Proof.
  induction l as [|a l IH]; [destruct it; reflexivity|]. cbn [app last_pps]. destruct a; rewrite ?IH; try reflexivity. destruct it; try reflexivity. destruct (id =? pps_pic_parameter_set_id p0); reflexivity.
Qed.
(** The store holds the parameter sets sent last, and these conform. *)
Definition holds (sent : list item) (st : state) : Prop := store_ok st /\
  (forall id, option_map fst (st_sps st id) = last_sps id sent) /\ (forall id, option_map fst (st_pps st id) = last_pps id sent) /\
  (forall id s, last_sps id sent = Some s -> sps_ok_in s).
Lemma result_ok {A} (m : M A) b a b' : m b = Ok a b' -> result m b = Some a /\ fault m b = None.
Proof. unfold result, fault. intros ->. auto. Qed.
Lemma unit_step opts sent st u : holds sent st -> unit_conforms sent u ->
  exists r st', ParseNalUnitUnescaped opts (unit_bytes u) st = Done (Some r, st') /\ unit_returned opts u (contents r) /\ holds (sent ++ [snd u]) st'.
Proof.
  intros (S & Hs & Hp & Hc) (Hh & Hi & Hl). destruct u as [h it]. cbn [fst snd] in *. set (rbsp := unit_bytes (h, it)) in *.
  destruct (pack_bits (enc_nal_header h ++ item_bits (nal_unit_type h) it ++ [true])) as (k & K & E & L). change (pack (enc_nal_header h ++ item_bits (nal_unit_type h) it ++ [true])) with rbsp in E, L.
  assert (D : byte_string rbsp) by (split; [apply pack_is_bytes | exact Hl]). rewrite !app_length, enc_nal_header_length in L. cbn [length] in L.
  destruct (nal_unit_long opts rbsp st D (store_state_ok _ S) ltac:(lia)) as (h' & Hh' & Eh & W & P).
  assert (Eh2 : bits_of (firstn 2 rbsp) = enc_nal_header h).
  { pose proof E as E2. rewrite <- app_assoc in E2. rewrite <- (firstn_skipn 2 rbsp), bits_of_app in E2. apply app_inv_length in E2; [apply E2|].
    rewrite length_bits_of, firstn_length_le, enc_nal_header_length by lia. reflexivity. }
  assert (h' = h) as -> by exact (PropsSafe.same_header rbsp h' h D Hh' Hh Eh Eh2). clear Eh Eh2 Hh'.
  set (b := adv (mk_bb rbsp) 16) in *. set (nut := nal_unit_type h) in *.
  assert (R : rem b = item_bits nut it ++ true :: repeat false k).
  { unfold b. rewrite rem_adv16, E by exact D. rewrite <- !app_assoc. rewrite skipn_app, enc_nal_header_length, Nat.sub_diag, skipn_all2 by (rewrite enc_nal_header_length; lia). reflexivity. }
  assert (G : payload_fault nut st b = None /\ returns it (payload_of nut st b) /\
              np_sps (payload_of nut st b) = match it with Sps s => Some (s, match np_sps (payload_of nut st b) with Some r => snd r | None => 0 end) | _ => None end /\
              np_pps (payload_of nut st b) = match it with Pps s => Some (s, match np_pps (payload_of nut st b) with Some r => snd r | None => 0 end) | _ => None end).
  { unfold payload_fault, payload_of. destruct it as [v|s|p|t|s p hd data|ty size m more|bits]; cbn [item_ok item_bits returns np_sps np_pps] in *.
    - destruct Hi as (-> & O & N & Q). destruct (vps_std v N Q) as [E1 E2]. rewrite E1 in R. apply E2 in O.
      destruct (C29_whole_parser b W) as [_ C]. destruct (C v _ O R) as (x & b' & Ep & X0 & _). destruct (result_ok _ _ _ _ Ep) as [E3 E4]. cbn [slice_nut Z.eqb Pos.eqb Z.leb Z.compare Pos.compare Pos.compare_cont andb orb]. change (slice_nut 32) with false. cbv iota. rewrite E3, E4.
      split; [reflexivity|]. split; [|auto]. exists x. split; [reflexivity|]. intros V0. apply X0. rewrite V0. reflexivity.
    - destruct Hi as (-> & O & N). destruct (C31_standard_layout b s _ W N O R) as (x & b' & Ep & X0). destruct (result_ok _ _ _ _ Ep) as [E3 E4]. change (slice_nut 33) with false. cbn [Z.eqb Pos.eqb orb]. rewrite E3, E4.
      split; [reflexivity|]. split; [exists x; auto | auto].
    - destruct Hi as (-> & O & N). destruct (C36_standard_layout b p _ W N O R) as (x & b' & Ep & X0). destruct (result_ok _ _ _ _ Ep) as [E3 E4]. change (slice_nut 34) with false. cbn [Z.eqb Pos.eqb orb]. rewrite E3, E4.
      split; [reflexivity|]. split; [exists x; auto | auto].
    - destruct Hi as (-> & O). pose proof (C41_pic_type b W) as C. rewrite R in C. change (slice_nut 35) with false. cbn [Z.eqb Pos.eqb orb].
      destruct (ParseAud b) as [pt b'|b'|e] eqn:Ep; [| |destruct C].
      + destruct (result_ok _ _ _ _ Ep) as [E3 E4]. rewrite E3, E4. destruct C as (Op & Eq & _). rewrite firstn_app, length_enc_u, Nat.sub_diag, firstn_O, app_nil_r, firstn_all2 in Eq by (rewrite length_enc_u; lia).
        assert (t = pt). { unfold u_ok in *. rewrite <- (enc_u_small 3 t), <- (enc_u_small 3 pt) by assumption. rewrite Eq. reflexivity. } subst pt. auto.
      + destruct C as [C _]. rewrite remaining_spec in C by exact W. rewrite R, app_length, length_enc_u in C. lia.
    - destruct Hi as (Hn & Lp & Ls & O & N).
      assert (Rf : refers_to st (slice_pic_parameter_set_id (base hd)) p s).
      { rewrite <- Hp in Lp. rewrite <- Hs in Ls. split; [destruct (st_pps st _) as [[q x]|] | destruct (st_sps st _) as [[q x]|]]; cbn in *; try discriminate; exists x; congruence. }
      assert (Op : pps_ok_out p) by (destruct (proj1 Rf) as (x & Ex); exact (proj2 (store_state_ok _ S) _ _ _ Ex)).
      rewrite <- app_assoc in R. pose proof (C37_standard_layout st nut b s p hd _ W (Hc _ _ Ls) Op Rf O N R) as Ep. destruct (result_ok _ _ _ _ Ep) as [E3 E4].
      assert (Sn : slice_nut nut = true) by (unfold slice_nut; lia). rewrite Sn, E3, E4. assert (Z1 : nut =? 32 = false) by lia. assert (Z2 : nut =? 33 = false) by lia. assert (Z3 : nut =? 34 = false) by lia.
      assert (Z4 : nut =? 35 = false) by lia. assert (Z5 : (nut =? 39) || (nut =? 40) = false) by lia. rewrite Z1, Z2, Z3, Z4, Z5. auto.
    - destruct Hi as (Hn & O1 & O2 & O3 & O4). rewrite <- !app_assoc in R. pose proof (C40_standard_layout b ty size m _ W O1 O2 O3 O4 R) as Ep. destruct (result_ok _ _ _ _ Ep) as [E3 E4].
      assert (Sn : slice_nut nut = false) by (unfold slice_nut; lia). rewrite Sn, E3, E4. assert (Z1 : nut =? 32 = false) by lia. assert (Z2 : nut =? 33 = false) by lia. assert (Z3 : nut =? 34 = false) by lia.
      assert (Z4 : nut =? 35 = false) by lia. assert (Z5 : (nut =? 39) || (nut =? 40) = true) by lia. rewrite Z1, Z2, Z3, Z4, Z5. auto.
    - assert (Sn : slice_nut nut = false) by (unfold slice_nut; lia). rewrite Sn. assert (Z1 : nut =? 32 = false) by lia. assert (Z2 : nut =? 33 = false) by lia. assert (Z3 : nut =? 34 = false) by lia.
      assert (Z4 : nut =? 35 = false) by lia. assert (Z5 : (nut =? 39) || (nut =? 40) = false) by lia. rewrite Z1, Z2, Z3, Z4, Z5. auto. }
  destruct G as (Fa & Rt & Gs & Gp). rewrite Fa in P. eexists _, _. split; [exact P|].
  assert (S' : store_ok (stored' (payload_of nut st b) st)) by (apply payload_store_ok; assumption). split.
  - unfold unit_returned, contents, unit_of. cbn [nu_header nu_payload nu_parsed_length nu_checksum fst snd]. split; [reflexivity|]. split; [exact Rt|]. split; [|reflexivity].
    unfold ceil_bytes. destruct (payload_stop_steps _ _ _ W (store_state_ok _ S) Fa) as (bs & St). pose proof (steps_wf _ _ _ W St) as (_ & W1 & _ & _ & _ & W2). fold nut b rbsp.
    destruct St as [_ St]. rewrite St in *. clear St. unfold b in *. rewrite pos_adv in *. rewrite pos_adv in *. change (pos (mk_bb rbsp)) with 0 in *. cbn [adv bb_count bb_bytes mk_bb] in *. lia.
  - destruct (stored_eq (payload_of nut st b) st) as (_ & E2 & E3). split; [exact S'|]. split; [|split].
    + intros id. rewrite E2. cbn [stored st_sps]. rewrite last_sps_app, Gs. destruct it; try apply Hs. cbn [fst]. destruct (id =? sps_seq_parameter_set_id s); [reflexivity | apply Hs].
    + intros id. rewrite E3. cbn [stored st_pps]. rewrite last_pps_app, Gp. destruct it; try apply Hp. cbn [fst]. destruct (id =? pps_pic_parameter_set_id p); [reflexivity | apply Hp].
    + intros id s'. rewrite last_sps_app. destruct it; try apply Hc. destruct (id =? sps_seq_parameter_set_id s); [|apply Hc]. intros Eq. assert (s' = s) as -> by congruence.
      destruct Hi as (_ & O & N). apply (sps_std_in s N O).
Qed.
Lemma stream_steps opts : forall us sent st, holds sent st -> conforms sent us ->
  exists l st', parse_all_unescaped opts (map unit_bytes us) st = Done (l, st') /\ Forall2 (unit_returned opts) us (found l) /\ holds (sent ++ map snd us) st'.
Proof.
  induction us as [|u us IH]; intros sent st H C; [exists [], st; split; [reflexivity|]; split; [constructor | rewrite app_nil_r; exact H]|].
  destruct C as [C1 C2]. destruct (unit_step opts sent st u H C1) as (r & st1 & E1 & R1 & H1). destruct (IH _ _ H1 C2) as (l & st2 & E2 & R2 & H2).
  cbn [map parse_all_unescaped]. rewrite E1, E2. exists (Some r :: l), st2. split; [reflexivity|]. split; [constructor; assumption|]. rewrite <- app_assoc in H2. exact H2.
Qed.
Lemma conforms_app us : forall sent us', conforms sent (us ++ us') -> conforms sent us /\ conforms (sent ++ map snd us) us'.
Proof.
  induction us as [|u us IH]; intros sent us' C; [rewrite app_nil_r; split; [exact I | exact C]|]. destruct C as [C1 C2]. destruct (IH _ _ C2) as [C3 C4]. rewrite <- app_assoc in C4. split; [split; assumption | exact C4].
Qed.
Lemma holds_empty : holds [] empty_state.
Proof. split; [apply empty_store_ok|]. split; [reflexivity|]. split; [reflexivity | discriminate]. Qed.

(** * C80 *)
(** Start codes of 3 or 4 bytes as the booleans say. *)
Definition sent_annexb (fin : bool) (us : list (bool * (nal_header * item))) : list Z := annexb_stream (map (fun u => (fst u, escape fin 0 (unit_bytes (snd u)))) us).
Lemma annexb_from opts fin us sent st0 : holds sent st0 -> conforms sent (map snd us) -> Z.of_nat (length (sent_annexb fin us)) < 2 ^ 64 ->
  exists bs st, ParseBitstream opts (sent_annexb fin us) st0 = Done (bs, st) /\ Forall2 (unit_returned opts) (map snd us) (map contents (bs_units bs)) /\ holds (sent ++ map snd (map snd us)) st.
Proof.
  intros H C L. destruct (stream_steps opts (map snd us) sent st0 H C) as (l & st & E & R & H').
  pose proof (C61_stream opts fin (map (fun u => (fst u, unit_bytes (snd u))) us) st0) as G. rewrite !map_map in G. cbn [fst snd] in G. rewrite map_map in E. rewrite E in G.
  unfold sent_annexb in *. specialize (G ltac:(apply Forall_map, Forall_forall; intros u _; cbn [snd]; split; [apply pack_is_bytes|]; unfold unit_bytes; rewrite app_assoc; apply pack_last) L).
  destruct (ParseBitstream opts _ st0) as [[bs st']|e]; [|destruct G]. destruct G as [G ->]. exists bs, st. rewrite G. auto.
Qed.
Theorem C80_annexb : forall opts fin us, conforms [] (map snd us) -> Z.of_nat (length (sent_annexb fin us)) < 2 ^ 64 ->
  exists bs st, ParseBitstream opts (sent_annexb fin us) empty_state = Done (bs, st) /\ Forall2 (unit_returned opts) (map snd us) (map contents (bs_units bs)) /\
    forall id, option_map fst (st_sps st id) = last_sps id (map snd (map snd us)) /\ option_map fst (st_pps st id) = last_pps id (map snd (map snd us)).
Proof.
  intros opts fin us C L. destruct (annexb_from opts fin us [] empty_state holds_empty C L) as (bs & st & E & R & (_ & H1 & H2 & _)). exists bs, st. auto.
Qed.
(** In two calls: the first part of the stream, then the rest with the state left by the first call *)
Theorem C80_two_calls : forall opts opts' fin us us', conforms [] (map snd (us ++ us')) -> Z.of_nat (length (sent_annexb fin us)) < 2 ^ 64 -> Z.of_nat (length (sent_annexb fin us')) < 2 ^ 64 ->
  exists bs st bs' st', ParseBitstream opts (sent_annexb fin us) empty_state = Done (bs, st) /\ ParseBitstream opts' (sent_annexb fin us') st = Done (bs', st') /\
    Forall2 (unit_returned opts) (map snd us) (map contents (bs_units bs)) /\ Forall2 (unit_returned opts') (map snd us') (map contents (bs_units bs')).
Proof.
  intros opts opts' fin us us' C L L'. rewrite map_app in C. apply conforms_app in C. destruct C as [C C'].
  destruct (annexb_from opts fin us [] empty_state holds_empty C L) as (bs & st & E & R & H). destruct (annexb_from opts' fin us' _ st H C' L') as (bs' & st' & E' & R' & _).
  exists bs, st, bs', st'. auto.
Qed.
(** The parameter sets in a configuration box, the stream after it *)
Theorem C80_box : forall opts opts' fin h arrs data rest us us', conforms [] (us ++ map snd us') -> byte_string data -> box_ok h arrs -> bits_of data = enc_box h arrs ++ rest ->
  flat_map ba_nals arrs = map (fun u => escape fin 0 (unit_bytes u)) us -> Z.of_nat (length (sent_annexb fin (map (pair true) us))) < 2 ^ 64 -> Z.of_nat (length (sent_annexb fin us')) < 2 ^ 64 ->
  exists box st bs st', ParseConfigurationBox opts data empty_state = Done (Some box, st) /\ ParseBitstream opts' (sent_annexb fin us') st = Done (bs, st') /\
    Forall2 (unit_returned opts) us (found (map snd (flat_map nalus (hv_arrays box)))) /\ Forall2 (unit_returned opts') (map snd us') (map contents (bs_units bs)).
Proof.
  intros opts opts' fin h arrs data rest us us' C D B Eb En L L'. apply conforms_app in C. destruct C as [C C']. assert (Es : map snd (map (pair true) us) = us) by (rewrite map_map; apply map_id).
  destruct (annexb_from opts fin (map (pair true) us) [] empty_state holds_empty ltac:(rewrite Es; exact C) L) as (bs & st & E & R & H). rewrite Es in R, H.
  unfold sent_annexb in E, L.
  pose proof (C62_in_band opts data empty_state h arrs rest (map (fun u => (fst u, escape fin 0 (unit_bytes (snd u)))) (map (pair true) us)) D B Eb) as G.
  rewrite !map_map in G. cbn [snd] in G. specialize (G (eq_sym En)). rewrite map_map in E, L. cbn [fst snd] in E, L, G.
  specialize (G ltac:(apply Forall_map, Forall_forall; intros u _; cbn [snd]; unfold unit_bytes; rewrite app_assoc; apply escape_ok; [apply pack_is_bytes | apply pack_last | apply pack_last]) L).
  rewrite E in G. destruct (ParseConfigurationBox opts data empty_state) as [[[box|] s1]|e]; [|destruct G|destruct G]. destruct G as [G ->].
  destruct (annexb_from opts' fin us' _ st H C' L') as (bs' & st' & E' & R' & _). exists box, st, bs', st'. rewrite G. auto.
Qed.
(** Lengths of any number of bytes in which the lengths of the units can be written *)
Theorem C80_length_prefixed : forall opts fin us n, conforms [] us -> (0 < n)%nat -> Z.of_nat n < 2 ^ 63 ->
  let nals := map (fun u => escape fin 0 (unit_bytes u)) us in
  Forall (fun x => Z.of_nat (length x) < 256 ^ Z.of_nat n) nals -> Z.of_nat (length (framed n nals)) < 2 ^ 63 -> Z.of_nat (length (sent_annexb fin (map (pair true) us))) < 2 ^ 64 ->
  exists bs st, ParseBitstreamNALULength opts (framed n nals) (Z.of_nat n) empty_state = Done (bs, st) /\ Forall2 (unit_returned opts) us (map contents (bs_units bs)).
Proof.
  intros opts fin us n C Hn Ln nals F L1 L2. assert (Es : map snd (map (pair true) us) = us) by (rewrite map_map; apply map_id).
  destruct (C80_annexb opts fin (map (pair true) us) ltac:(rewrite Es; exact C) L2) as (bs & st & E & R & _). rewrite Es in R.
  pose proof (C57_annexb_is_length_prefixed opts (map (fun u => (fst u, escape fin 0 (unit_bytes (snd u)))) (map (pair true) us)) n empty_state) as G.
  rewrite !map_map in G. cbn [fst snd] in G. unfold sent_annexb in E, L2. rewrite map_map in E, L2. cbn [fst snd] in E, L2.
  assert (Fn : Forall (fun u : bool * list Z => nal_ok (snd u) /\ Z.of_nat (length (snd u)) < 256 ^ Z.of_nat n) (map (fun x => (true, escape fin 0 (unit_bytes x))) us)).
  { apply Forall_map. rewrite Forall_forall in F |- *. intros u I. cbn [snd]. split; [|apply F, in_map_iff; eauto]. unfold unit_bytes. rewrite app_assoc. apply escape_ok; [apply pack_is_bytes | apply pack_last | apply pack_last]. }
  specialize (G Fn Hn Ln L2 L1). rewrite E in G. unfold same_stream in G. destruct (ParseBitstreamNALULength _ _ _ _) as [[bs' st']|e] eqn:E'; [|destruct G]. fold nals in E'. destruct G as [G _].
  exists bs', st'. split; [reflexivity|]. rewrite <- G. exact R.
Qed.

(** * A conforming stream: VPS, SPS, PPS, an SEI message, a slice, an access unit delimiter, a unit of a reserved type, with start codes of both lengths *)
Definition C80_units : list (bool * (nal_header * item)) :=
  [(true, (mkNH 0 32 0 1, Vps (C29_vps 0 []))); (true, (mkNH 0 33 0 1, Sps C31_sps)); (false, (mkNH 0 34 0 1, Pps C37_pps));
   (false, (mkNH 0 39 0 1, Sei 4 300 (P_t35 (mkT35 255 7 (repeat 9 298))) [])); (true, (mkNH 0 1 0 1, Slice C31_sps C37_pps (plain C37_header 2) (repeat false 40 ++ [true])));
   (true, (mkNH 0 35 0 1, Aud 2)); (false, (mkNH 0 41 0 1, Other (repeat true 17)))].
Lemma C37_pps_std : pps_std C37_pps /\ pps_no_deviation C37_pps.
Proof.
  split; [unfold pps_std, pps_ok; cbv zeta; repeat (split; [unfold C37_pps; solve_ok|]); unfold C37_pps; solve_ok|].
  split; intros e E; [discriminate E | injection E as <-; left; reflexivity].
Qed.
Example C80_case : conforms [] (map snd C80_units) /\ Z.of_nat (length (sent_annexb true C80_units)) < 2 ^ 64.
Proof.
  split; [|vm_compute; reflexivity]. cbn [C80_units map snd conforms app].
  split; [split; [unfold nal_header_ok; cbn [fst]; solve_ok|]; split; [|vm_compute; reflexivity]; destruct C29_case as (H1 & H2 & H3); cbn [fst snd nal_unit_type item_ok]; auto|].
  split; [split; [unfold nal_header_ok; cbn [fst]; solve_ok|]; split; [|vm_compute; reflexivity]; destruct C31_case as (H1 & H2 & _); cbn [fst snd nal_unit_type item_ok]; auto|].
  split; [split; [unfold nal_header_ok; cbn [fst]; solve_ok|]; split; [|vm_compute; reflexivity]; destruct C37_pps_std as (H1 & H2); cbn [fst snd nal_unit_type item_ok]; auto|].
  split; [split; [unfold nal_header_ok; cbn [fst]; solve_ok|]; split; [|vm_compute; reflexivity]; destruct C40_case as (H1 & _); cbn [fst snd nal_unit_type item_ok];
    split; [lia|]; split; [unfold ff_ok; lia|]; split; [unfold ff_ok; lia|]; split; [exact H1 | intros r Er; discriminate Er]|].
  split; [split; [unfold nal_header_ok; cbn [fst]; solve_ok|]; split; [|vm_compute; reflexivity]; destruct C37_case as (H1 & H2 & _); cbn [fst snd nal_unit_type item_ok];
    split; [lia|]; split; [reflexivity|]; split; [reflexivity|]; auto|].
  split; [split; [unfold nal_header_ok; cbn [fst]; solve_ok|]; split; [|vm_compute; reflexivity]; cbn [fst snd nal_unit_type item_ok]; split; [reflexivity | solve_ok]|].
  split; [split; [unfold nal_header_ok; cbn [fst]; solve_ok|]; split; [|vm_compute; reflexivity]; cbn [fst snd nal_unit_type item_ok]; lia|].
  exact I.
Qed.
(** The parameter sets of this stream in a configuration box, the rest after it *)
Definition C80_box_units : list (nal_header * item) := [(mkNH 0 33 0 1, Sps C31_sps); (mkNH 0 34 0 1, Pps C37_pps)].
Definition C80_arrays : list box_array := [mkBA 1 33 [escape true 0 (unit_bytes (mkNH 0 33 0 1, Sps C31_sps))]; mkBA 0 34 [escape true 0 (unit_bytes (mkNH 0 34 0 1, Pps C37_pps))]].
Example C80_box_case : conforms [] (C80_box_units ++ map snd (skipn 3 C80_units)) /\ box_ok C62_header C80_arrays /\
  byte_string (pack (enc_box C62_header C80_arrays)) /\ bits_of (pack (enc_box C62_header C80_arrays)) = enc_box C62_header C80_arrays ++ [] /\
  flat_map ba_nals C80_arrays = map (fun u => escape true 0 (unit_bytes u)) C80_box_units.
Proof.
  split; [|split; [|split; [split; [apply pack_is_bytes | vm_compute; reflexivity]|split; [vm_compute; reflexivity | reflexivity]]]].
  - destruct C80_case as [(_ & (A1 & A2 & A3) & (B1 & B2 & B3) & (G1 & G2 & G3) & (D1 & D2 & D3) & (E1 & E2 & E3) & (F1 & F2 & F3) & _) _].
    cbn [C80_box_units skipn C80_units map snd conforms app]. split; [split; [exact A1|]; split; [exact A2 | exact A3]|]. split; [split; [exact B1|]; split; [exact B2 | exact B3]|].
    split; [split; [exact G1|]; split; [exact G2 | exact G3]|]. split; [split; [exact D1|]; split; [exact D2 | exact D3]|]. split; [split; [exact E1|]; split; [exact E2 | exact E3]|].
    split; [split; [exact F1|]; split; [exact F2 | exact F3]|]. exact I.
  - unfold box_ok, hvcc_header_ok, C62_header. split; [solve_ok|]. split; [reflexivity|]. unfold C80_arrays, box_array_ok, box_nal_ok.
    assert (N : forall x, forallb (fun x => (0 <=? x) && (x <? 256)) x = true -> (Z.of_nat (length x) <? 2 ^ 16) = true -> Forall is_byte x /\ Z.of_nat (length x) < 2 ^ 16) by (intros x H1 H2; split; [apply bytes_check, H1|lia]).
    constructor; [|constructor; [|constructor]]; cbn [ba_completeness ba_type ba_nals]; (split; [unfold u_ok; lia|]); (split; [unfold u_ok; lia|]); (split; [vm_compute; reflexivity|]).
    + constructor; [apply N; vm_compute; reflexivity|constructor].
    + constructor; [apply N; vm_compute; reflexivity|constructor].
Qed.
