(** C92: the quadratic part of the bound on the printed text is needed: short streams with long texts. *)
From Coq Require Import ZArith List Bool Lia ZifyBool ZifyNat String Ascii.
From Verif Require PropsTool.
From Verif Require Import MBase MBitBuffer Spec BitsFacts Reader Rules ReaderFacts PropsBits Syntax SyntaxSe MCommon PropsCommon MFraming FramingFacts PropsFraming MSyntaxA SpecA Api MProfile MSyntaxB SpecB MSps SpecSps FactsSps PropsSps MPps SpecPps FactsPps PropsPps
  MSlice SpecSlice FactsSlice MSei SpecSei MNal FactsNal PropsNal PropsSlice SpecSliceStd PropsSliceStd MRtp FactsRtp MText SpecSize SpecTool FactsText PropsText MDump PropsDump FactsTextDump PropsTextSafe PropsSafe PropsStream PropsRel FactsWidth PropsEnd PropsWidth.
Import ListNotations.
Open Scope string_scope.
Open Scope Z_scope.

(** * The stream *)
Definition quad_pps : pps :=
  mkPPS 3 0 0 0 0 0 0 0 0 0 0 0 0 0 0 0 0 0 0 0 0 0 0 0 0 [] [] 0 0 0 0 0 0 0 0 None 0 0 0 0 0 0 0 0 0 None None.
(** A slice header with [n] long-term pictures *)
Definition quad (n : nat) : slice_header :=
  mkSH 1 0 3 0 0 [] 2 0 0 200 1 None 0 0 (Z.of_nat n) (repeat (mkLT 0 0 0 0 0) n) 0 0 0 0 0 0 0 0 1 0 None 0 0 5 0 0 0 0 0 0 0 0 0 0 0 0 [] 0 [] 0 0.
Definition quad_units (n : nat) : list (bool * (nal_header * item)) :=
  [(true, (mkNH 0 33 0 1, Sps C31_sps)); (true, (mkNH 0 34 0 1, Pps quad_pps)); (true, (mkNH 0 1 0 1, Slice C31_sps quad_pps (PropsSliceStd.plain (quad n) 0) []))].
Lemma enc_quad n : enc_std 1 C31_sps quad_pps (PropsSliceStd.plain (quad n) 0) =
  (enc_u 1 1 ++ enc_ue 3 ++ enc_ue 2 ++ enc_u 8 200 ++ enc_u 1 1 ++ enc_u 1 0 ++ enc_ue 0 ++ enc_ue (Z.of_nat n) ++ enc_from 0%Z (enc_lt_entry C31_sps 0%Z) (repeat (mkLT 0 0 0 0 0) n) ++
   enc_u 1 0 ++ enc_u 1 0 ++ enc_u 1 0 ++ enc_se 5)%list.
Proof. reflexivity. Qed.
Lemma enc_entries n : forall i, 0 <= i -> List.length (enc_from i (enc_lt_entry C31_sps 0) (repeat (mkLT 0 0 0 0 0) n)) = (10 * n)%nat.
Proof.
  induction n as [|n IH]; intros i I; [reflexivity|]. change (repeat (mkLT 0 0 0 0 0) (S n)) with (mkLT 0 0 0 0 0 :: repeat (mkLT 0 0 0 0 0) n)%list. change (enc_from i ?f (?a :: ?r)) with (f i a ++ enc_from (i + 1) f r)%list. rewrite app_length, IH by lia. unfold enc_lt_entry. cbv zeta. replace (i <? 0) with false by lia.
  change (List.length _) with 10%nat at 1. lia.
Qed.
Lemma escape_length fin : forall l z, (List.length (escape fin z l) <= 2 * List.length l + 1)%nat.
Proof.
  induction l as [|x r IH]; intros z; cbn [escape]; [destruct (fin && Nat.eqb z 2); cbn; lia|].
  destruct (Nat.eqb z 2); [destruct (x <=? 3)|]; cbn [List.length]; [pose proof (IH (if x =? 0 then 1%nat else 0%nat)) | pose proof (IH 0%nat) | pose proof (IH (if x =? 0 then S z else 0%nat))]; lia.
Qed.
Lemma pack_length l : (8 * List.length (pack l) <= List.length l + 7)%nat.
Proof. destruct (pack_bits l) as (k & K & _ & L). lia. Qed.
Lemma quad_slice_length n : Z.of_nat n < 2 ^ 24 -> (8 * List.length (unit_bytes (mkNH 0 1 0 1, Slice C31_sps quad_pps (PropsSliceStd.plain (quad n) 0) [])) <= 10 * n + 200)%nat.
Proof.
  intros N. unfold unit_bytes. cbn [fst snd nal_unit_type item_bits]. rewrite enc_quad.
  match goal with |- context [pack ?x] => pose proof (pack_length x) as L; set (y := pack x) in *; clearbody y end.
  rewrite !app_length in L. rewrite enc_nal_header_length, enc_entries in L by lia.
  assert (E : (List.length (enc_ue (Z.of_nat n)) <= 49)%nat).
  { rewrite length_enc_ue. unfold ue_zeros. assert (Z.log2 (Z.of_nat n + 1) <= 24) by (assert (Z.log2 (Z.of_nat n + 1) < 25); [apply Z.log2_lt_pow2; lia | lia]). lia. }
  repeat match type of L with context [List.length (?f ?a ?b)] => lazymatch f with enc_u => let c := eval vm_compute in (List.length (f a b)) in change (List.length (f a b)) with c in L end end.
  repeat match type of L with context [List.length (?f ?a)] => lazymatch a with Z.of_nat _ => fail | _ => lazymatch f with enc_ue => idtac | enc_se => idtac end; let c := eval vm_compute in (List.length (f a)) in change (List.length (f a)) with c in L end end.
  cbn [List.length] in L. lia.
Qed.
Lemma quad_pps_std : pps_std quad_pps /\ pps_no_deviation quad_pps.
Proof.
  split; [unfold pps_std, pps_ok; cbv zeta; repeat (split; [unfold quad_pps; solve_ok|]); unfold quad_pps; solve_ok|].
  split; intros e E; discriminate E.
Qed.
Lemma quad_entries_ok n : forall i, 0 <= i -> all_from i (lt_entry_ok C31_sps 0) (repeat (mkLT 0 0 0 0 0) n).
Proof.
  induction n as [|n IH]; intros i I; [exact Logic.I|]. split; [|apply IH; lia]. unfold lt_entry_ok. cbv zeta. replace (i <? 0) with false by lia. solve_ok.
Qed.
Lemma quad_slice_ok n : Z.of_nat n < 2 ^ 24 -> slice_ok true (own_rps_std C31_sps) 1 C31_sps quad_pps (quad n).
Proof.
  intros N. assert (E1 : optf (negb (nz 0) && negb ((1 =? 19) || (1 =? 20)) && nz (long_term_ref_pics_present_flag C31_sps)) ue_ok 0 (Z.of_nat n)) by (change (ue_ok (Z.of_nat n)); unfold ue_ok; lia).
  assert (E2 : veci (0 + Z.of_nat n) (lt_entry_ok C31_sps 0) (repeat (mkLT 0 0 0 0 0) n)) by (split; [rewrite repeat_length; lia | apply quad_entries_ok; lia]).
  unfold slice_ok. cbv zeta.
  repeat (split; [lazymatch goal with
    | |- optf _ (veci _ _) _ (sh_lt _) => exact E2
    | |- optf _ _ _ (num_long_term_pics _) => exact E1
    | |- _ => unfold quad; solve_ok end|]). unfold quad; solve_ok.
Qed.
Lemma quad_conforms n : Z.of_nat n < 2 ^ 24 -> conforms [] (map snd (quad_units n)).
Proof.
  intros N. cbn [quad_units map snd conforms app].
  split; [split; [unfold nal_header_ok; cbn [fst]; solve_ok|]; split; [|vm_compute; reflexivity]; destruct C31_case as (H1 & H2 & _); cbn [fst snd nal_unit_type item_ok]; auto|].
  split; [split; [unfold nal_header_ok; cbn [fst]; solve_ok|]; split; [|vm_compute; reflexivity]; destruct quad_pps_std as (H1 & H2); cbn [fst snd nal_unit_type item_ok]; auto|].
  split; [|exact I]. split; [unfold nal_header_ok; cbn [fst]; solve_ok|]. split; [|pose proof (quad_slice_length n N); lia].
  cbn [fst snd nal_unit_type item_ok]. split; [lia|]. split; [reflexivity|]. split; [reflexivity|]. split.
  - split; [exact (quad_slice_ok n N)|]. split; [discriminate|]. split; [reflexivity|]. split; [reflexivity|]. split; [reflexivity|]. split; intros ? E; discriminate E.
  - split; [reflexivity|]. split; [reflexivity|]. split; [intros X; destruct X; reflexivity|]. split; [left; discriminate|]. split; [intros _ [X|X]; discriminate X|]. split; [reflexivity|]. vm_compute. discriminate.
Qed.
Lemma annexb_cons_length u us : (List.length (annexb_stream (u :: us)) <= 4 + List.length (snd u) + List.length (annexb_stream us))%nat.
Proof. change (annexb_stream (u :: us)) with ((start_code (fst u) ++ snd u) ++ annexb_stream us)%list. rewrite !app_length. destruct (fst u); cbn; lia. Qed.
Lemma quad_length n : Z.of_nat n < 2 ^ 24 -> (List.length (sent_annexb true (quad_units n)) <= 3 * n + 400)%nat.
Proof.
  intros N. unfold sent_annexb, quad_units. cbn [map fst snd]. eapply Nat.le_trans; [apply annexb_cons_length|]. cbn [snd].
  match goal with |- (_ + _ + List.length (annexb_stream (?u :: ?v :: ?w)) <= _)%nat => pose proof (annexb_cons_length u (v :: w)) as L1; pose proof (annexb_cons_length v w) as L2 end. cbn [snd] in L1, L2. change (List.length (annexb_stream [])) with 0%nat in L2.
  set (a := unit_bytes (mkNH 0 1 0 1, Slice C31_sps quad_pps (PropsSliceStd.plain (quad n) 0) [])). pose proof (quad_slice_length n N) as L. fold a in L. pose proof (escape_length true a 0) as E.
  set (x := List.length (escape true 0 (unit_bytes (mkNH 0 33 0 1, Sps C31_sps)))) in *. set (y := List.length (escape true 0 (unit_bytes (mkNH 0 34 0 1, Pps quad_pps)))) in *. fold a in L1, L2.
  assert (x + y <= 250)%nat by (apply Nat.leb_le; vm_compute; reflexivity). clearbody x y. lia.
Qed.

(** * The text *)
Fixpoint puts (cs : list cmd) : Z := match cs with [] => 0 | Put s :: r => slen s + puts r | _ :: r => puts r end.
Lemma puts_nn cs : 0 <= puts cs.
Proof. induction cs as [|c cs IH]; [cbn; lia|]. destruct c; cbn [puts]; try exact IH. pose proof (slen_nonneg s). lia. Qed.
Lemma puts_app a b : puts (a ++ b)%list = puts a + puts b.
Proof. induction a as [|c a IH]; [reflexivity|]. destruct c; cbn [app puts]; lia. Qed.
Lemma puts_run cs : forall l st, puts cs <= slen (run l st cs).
Proof.
  induction cs as [|c cs IH]; intros l st; [apply slen_nonneg|]. destruct c; cbn [puts run]; rewrite ?slen_app; try apply IH; [specialize (IH l st); lia | pose proof (IH l st); pose proof (slen_nonneg (fdump_indent_level l)); lia |].
  destruct st as [|l' st]; apply IH.
Qed.
Lemma done_cmds_inj (a b : list cmd) : Done a = Done b -> a = b.
Proof. intros E. exact (f_equal (fun o => match o with Done x => x | Bad _ => a end) E). Qed.
Definition at_least (k : Z) (t : txt) : Prop := forall cs, t = Done cs -> k <= puts cs.
Lemma al_seq a b d1 d2 : at_least a d1 -> at_least b d2 -> at_least (a + b) (tseq d1 d2).
Proof.
  intros H1 H2 cs E. unfold tseq in E. destruct d1 as [c1|e]; [|discriminate E]. destruct d2 as [c2|e]; [|discriminate E]. apply done_cmds_inj in E. subst cs. rewrite puts_app. pose proof (H1 _ eq_refl). pose proof (H2 _ eq_refl). lia.
Qed.
Lemma al_any d : at_least 0 d.
Proof. intros cs _. apply puts_nn. Qed.
Lemma al_l k d1 d2 : at_least k d1 -> at_least k (tseq d1 d2).
Proof. intros H. replace k with (k + 0) by lia. apply al_seq; [exact H | apply al_any]. Qed.
Lemma al_r k d1 d2 : at_least k d2 -> at_least k (tseq d1 d2).
Proof. intros H. replace k with (0 + k) by lia. apply al_seq; [apply al_any | exact H]. Qed.
Lemma al_struct k n d : at_least k d -> at_least k (struct n d).
Proof. intros H. unfold struct. apply al_r, al_l, H. Qed.
Lemma al_call k d : at_least k d -> at_least k (MText.call d).
Proof. intros H. unfold MText.call. apply al_r, al_l, H. Qed.
Lemma al_sub k d : at_least k d -> at_least k (MText.sub d).
Proof. intros H. unfold MText.sub. apply al_r, al_call, H. Qed.
Lemma al_upto k n d : (forall i, (i < n)%nat -> at_least k (d i)) -> at_least (Z.of_nat n * k) (tupto n d).
Proof. intros H. induction n as [|n IH]; [apply al_any|]. cbn [tupto]. replace (Z.of_nat (S n) * k) with (Z.of_nat n * k + k) by lia. apply al_seq; [apply IH; auto | apply H; lia]. Qed.
Lemma slen_list l : Z.of_nat (List.length l) <= slen (pr_list pr_i " " "" l).
Proof.
  induction l as [|x l IH]; [apply slen_nonneg|]. unfold pr_list in *. cbn [fold_right List.length]. rewrite !slen_app. change (slen " ") with 1. pose proof (slen_nonneg (pr_i x)). pose proof (slen_nonneg ""). lia.
Qed.
Lemma al_vec n l : at_least (Z.of_nat (List.length l)) (MText.vec n l).
Proof. intros cs E. unfold MText.vec, line in E. apply done_cmds_inj in E. subst cs. cbn [puts]. rewrite !slen_app. pose proof (slen_list l). pose proof (slen_nonneg n). pose proof (slen_nonneg " {"). pose proof (slen_nonneg " }"). lia. Qed.
(** Every slice header with long-term pictures: the list is printed once for each of its elements. *)
Lemma al_header s p nut h : dependent_slice_segment_flag h = 0 -> nut <> 19 -> nut <> 20 -> long_term_ref_pics_present_flag s <> 0 -> u32 (num_long_term_sps h + num_long_term_pics h) = Z.of_nat (List.length (sh_lt h)) ->
  at_least (Z.of_nat (List.length (sh_lt h)) * Z.of_nat (List.length (sh_lt h))) (text_slice_header s p nut h).
Proof.
  intros D N1 N2 L U. unfold text_slice_header. cbv zeta. apply al_struct. do 5 apply al_r. apply al_l. rewrite D. change (negb (nz 0)) with true. unfold tif at 1. do 4 apply al_r. apply al_l.
  change IDR_W_RADL with 19. change IDR_N_LP with 20. replace (nut =? 19) with false by lia. replace (nut =? 20) with false by lia. cbn [negb andb]. unfold tif at 1. do 3 apply al_r. apply al_l.
  unfold nz. replace (long_term_ref_pics_present_flag s =? 0) with false by lia. cbn [negb]. unfold tif at 1. do 2 apply al_r. rewrite U, Nat2Z.id. apply al_upto. intros i _.
  unfold text_lt. cbv zeta. apply al_r, al_l. eapply eq_rect with (x := Z.of_nat (List.length (map delta_poc_msb_present_flag (sh_lt h)))) (P := fun k => at_least k _); [apply al_vec | rewrite map_length; reflexivity].
Qed.
Lemma al_nal s p o u h : np_slice (nu_payload u) = Some h -> nal_unit_type (nu_header u) = 1 -> at_least (Z.of_nat (List.length (sh_lt h)) * Z.of_nat (List.length (sh_lt h))) (text_slice_header s p 1 h) ->
  at_least (Z.of_nat (List.length (sh_lt h)) * Z.of_nat (List.length (sh_lt h))) (text_nal (s, p) o u).
Proof.
  intros E T H. unfold text_nal. apply al_struct. do 5 apply al_r. apply al_sub. rewrite T. unfold text_payload. apply al_struct, al_r. change (case_of _ 1 || case_of _ 1) with true. cbn iota. rewrite E. unfold tchecked, fst, snd.
  apply al_call. unfold text_slice. apply al_struct, al_sub, H.
Qed.

Lemma F2_cons {A B} (R : A -> B -> Prop) a l b m : Forall2 R (a :: l) (b :: m) -> R a b /\ Forall2 R l m.
Proof. intros H. inversion H. auto. Qed.
(** For every number [n] of long-term pictures a stream of at most 3n + 400 bytes (an SPS, a PPS and a slice, all as the standard has them, but for the limit on
    long-term pictures) whose text, on one line per unit, has n * n characters or more. *)
Theorem C92_quadratic : forall n, Z.of_nat n < 2 ^ 24 -> exists data bs st, byte_string data /\ (List.length data <= 3 * n + 400)%nat /\
  ParseBitstream default_options data empty_state = Done (bs, st) /\ map (fun u => long_term_pics (nu_payload u)) (bs_units bs) = [0; 0; Z.of_nat n] /\
  exists t, fdump (text_bitstream default_options (map (fun u => ((C31_sps, quad_pps), u)) (bs_units bs))) (-1) = Done t /\ Z.of_nat n * Z.of_nat n <= Z.of_nat (String.length t).
Proof.
  intros n N. pose proof (quad_length n N) as L. destruct (C80_annexb default_options true (quad_units n) (quad_conforms n N) ltac:(lia)) as (bs & st & E & R & _).
  assert (D : byte_string (sent_annexb true (quad_units n))).
  { split; [|lia]. unfold sent_annexb, annexb_stream. rewrite Forall_flat_map. apply Forall_map, Forall_forall. intros [f x] _. cbn [fst snd]. apply Forall_app. split.
    - destruct f; cbn; repeat constructor; unfold is_byte; lia.
    - apply escape_bytes, pack_is_bytes. }
  exists (sent_annexb true (quad_units n)), bs, st. split; [exact D|]. split; [exact L|]. split; [exact E|].
  assert (U : exists u1 u2 u3, bs_units bs = [u1; u2; u3] /\ unit_returned default_options (mkNH 0 33 0 1, Sps C31_sps) (contents u1) /\ unit_returned default_options (mkNH 0 34 0 1, Pps quad_pps) (contents u2) /\
    unit_returned default_options (mkNH 0 1 0 1, Slice C31_sps quad_pps (PropsSliceStd.plain (quad n) 0) []) (contents u3)).
  { clear E D L. unfold quad_units in R. cbn [map snd] in R. destruct (bs_units bs) as [|u1 [|u2 [|u3 [|u4 us]]]]; cbn [map] in R.
    - inversion R.
    - inversion R as [|? ? ? ? _ R1]. inversion R1.
    - inversion R as [|? ? ? ? _ R1]. inversion R1 as [|? ? ? ? _ R2]. inversion R2.
    - apply F2_cons in R. destruct R as [A R]. apply F2_cons in R. destruct R as [B R]. apply F2_cons in R. destruct R as [C R]. exists u1, u2, u3. auto.
    - apply F2_cons in R. destruct R as [A R]. apply F2_cons in R. destruct R as [B R]. apply F2_cons in R. destruct R as [C R]. inversion R. }
  destruct U as (u1 & u2 & u3 & Eu & U1 & U2 & U3). unfold unit_returned, PropsRel.contents in U1, U2, U3. cbn [fst snd returns] in U1, U2, U3.
  destruct U1 as (H1 & (x1 & P1 & _) & _), U2 as (H2 & (x2 & P2 & _) & _), U3 as (H3 & P3 & _). rewrite Eu. cbn [map]. split; [rewrite P1, P2, P3; unfold long_term_pics; cbn [np_slice base PropsSliceStd.plain quad sh_lt]; rewrite repeat_length; reflexivity|].
  destruct (C51_annexb default_options _ _ _ _ D (reached_new _) E) as [O Pr].
  assert (A : all_printable default_options default_options (bs_units bs)).
  { split; [right; right; reflexivity|]. rewrite Eu. intros u [<-|[<-|[<-|[]]]]; rewrite ?H1, ?H2, ?H3, ?P1, ?P2, ?P3; reflexivity. }
  rewrite O in Pr. assert (Dn : dump_bitstream bs = Done tt) by (destruct Pr as [[X _]|[_ X]]; [exact X | contradiction]).
  destruct (agree_done (text_bitstream default_options [((C31_sps, quad_pps), u1); ((C31_sps, quad_pps), u2); ((C31_sps, quad_pps), u3)]) (dump_bitstream bs) (-1)) as (t & Ht); [|exact Dn|].
  { destruct bs as [o us]. cbn [bs_options bs_units] in *. subst o us. apply ag_units. reflexivity. }
  exists t. split; [exact Ht|].
  assert (Al : at_least (Z.of_nat n * Z.of_nat n) (text_bitstream default_options [((C31_sps, quad_pps), u1); ((C31_sps, quad_pps), u2); ((C31_sps, quad_pps), u3)])).
  { unfold text_bitstream. cbn [teach fst snd]. apply al_r, al_r, al_l, al_l, al_call.
    pose proof (al_nal C31_sps quad_pps default_options u3 (quad n)) as G. rewrite P3, H3 in G. cbn [np_slice base PropsSliceStd.plain nal_unit_type] in G.
    assert (Ln : List.length (sh_lt (quad n)) = n) by apply repeat_length. rewrite Ln in G. apply G; [reflexivity | reflexivity|].
    rewrite <- Ln at 1 2. apply al_header; [reflexivity | discriminate | discriminate | discriminate|]. rewrite Ln. change (u32 (Z.of_nat n) = Z.of_nat n). unfold u32. apply Z.mod_small. clear -N. lia. }
  unfold fdump in Ht. destruct (text_bitstream _ _) as [cs|e]; [|discriminate Ht]. specialize (Al cs eq_refl). apply PropsTool.done_inj1 in Ht. subst t. pose proof (puts_run cs (-1) []) as Q. unfold slen in Q. clear - Al Q. eapply Z.le_trans; [exact Al | exact Q].
Qed.
