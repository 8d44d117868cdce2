(** C77: what the options add to the text of a NAL unit. *)
From Coq Require Import ZArith List Bool Lia String Ascii.
From Verif Require Import MBase MBitBuffer Spec BitsFacts Reader ReaderFacts Syntax MCommon CommonFacts PropsCommon MFraming MSyntaxA SpecA Api MSps SpecSps PropsSps MPps MSlice MNal
  MRtp MText SpecText FactsText PropsText MTool SpecTool FactsTool PropsTool PropsToolB PropsToolC PropsExact FactsTells.
Import ListNotations.
Open Scope string_scope.
Open Scope Z_scope.

Lemma checksum_line c : text_checksum c = line ("checksum: 0x" ++ String.concat "" (map two_hex (checksum_bytes c))).
Proof.
  assert (B : Forall is_byte (checksum_bytes c)) by (unfold checksum_bytes; repeat (apply Forall_cons; [unfold u8, is_byte; apply Z.mod_pos_bound; lia|]); apply Forall_nil).
  destruct (fdump_loop_spec (checksum_bytes c) [] (repeat 0 64) 64 B) as (out & E & _ & Eo); [reflexivity | cbn; lia |].
  destruct Eo as (q & ->); [cbn; lia | discriminate |]. cbn [List.app] in E.
  unfold text_checksum, checksum_fdump. change (Z.of_nat (List.length (@nil Z))) with 0 in E. rewrite E.
  rewrite c_string_nonzero by apply hex_nonzero, B. f_equal. f_equal.
  assert (H : forall x, is_byte x -> two_hex x = string_of_list_ascii (map (fun x => ascii_of_nat (Z.to_nat x)) (hex2 x))).
  { intros x [H0 H1]. assert (G : forallb (fun n => String.eqb (two_hex (Z.of_nat n)) (string_of_list_ascii (map (fun x => ascii_of_nat (Z.to_nat x)) (hex2 (Z.of_nat n))))) (seq 0 256) = true) by (vm_compute; reflexivity).
    rewrite forallb_forall in G. specialize (G (Z.to_nat x) ltac:(apply in_seq; lia)). rewrite Z2Nat.id in G by lia. apply String.eqb_eq, G. }
  revert B. unfold checksum_bytes. intros B. cbn [map flat_map]. repeat match goal with |- context [two_hex ?x] => rewrite (H x) by (rewrite Forall_forall in B; apply B; cbn; auto) end.
  unfold hex2. cbn [map List.app string_of_list_ascii String.concat String.append]. reflexivity.
Qed.
Lemma hex_no_space n : forall x, sall (fun c => negb (is_space c)) (hex_digits n x) = true.
Proof.
  induction n as [|n IH]; intros x; [reflexivity|]. cbn [hex_digits]. rewrite sall_app, IH. cbn [sall]. pose proof (land15 x) as Hd. revert Hd. generalize (Z.land x 15). intros d Hd.
  assert (K : forallb (fun k => negb (is_space (ascii_of_nat (Z.to_nat (hex_char (Z.of_nat k)))))) (seq 0 16) = true) by (vm_compute; reflexivity).
  rewrite forallb_forall in K. specialize (K (Z.to_nat d) ltac:(apply in_seq; lia)). rewrite Z2Nat.id in K by lia. rewrite K. reflexivity.
Qed.
Definition field (n v : string) : list string := [n ++ ":"; v].
(** With any options the text is that without options, with the fields asked for inserted after "nal_unit {". *)
Theorem C77_fields : forall sp o u level t, -1 <= level -> fdump (text_nal sp o u) level = Done t ->
  exists t0 body, fdump (text_nal sp (mkOpts false false false false (add_resolution o)) u) (-1) = Done t0 /\ words t0 = (["nal_unit"; "{"] ++ body)%list /\
    exists sum, (add_checksum o = true -> nu_checksum u = Some sum) /\
    words t = (["nal_unit"; "{"] ++ (if add_offset o then field "offset" ("0x" ++ pr_x 8 (nu_offset u)) else []) ++ (if add_length o then field "length" (dec (nu_length u)) else []) ++
      (if add_parsed_length o then field "parsed_length" (dec (nu_parsed_length u)) else []) ++
      (if add_checksum o then field "checksum" ("0x" ++ String.concat "" (map two_hex (checksum_bytes sum))) else []) ++ body)%list.
Proof.
  intros sp o u level t Hl. unfold fdump. destruct (text_nal sp o u) as [c|e] eqn:T; [|discriminate]. intros E. apply done_inj1 in E. subst t.
  pose proof (gs_text (T_nal sp o u) c T) as G. destruct (struct_text c G _ Hl) as (W & _). rewrite W. clear W G.
  unfold text_nal in T. unfold struct in T.
  destruct (tseq_done _ _ _ T) as (c1 & c2 & T1 & T2 & ->). destruct (tseq_done _ _ _ T2) as (c3 & c4 & T3 & T4 & ->). destruct (tseq_done _ _ _ T3) as (c5 & c6 & T5 & T6 & ->).
  destruct (tseq_done _ _ _ T6) as (c7 & c8 & T7 & T8 & ->). destruct (tseq_done _ _ _ T8) as (c9 & c10 & T9 & T10 & ->). destruct (tseq_done _ _ _ T10) as (c11 & c12 & T11 & T12 & ->).
  apply done_inj1 in T1. subst c1.
  assert (T0 : exists c0, text_nal sp (mkOpts false false false false (add_resolution o)) u = Done c0 /\ toks c0 = (["nal_unit"; "{"] ++ toks (c12 ++ c4))%list).
  { exists ([Put ("nal_unit" ++ " {"); Incr] ++ (c12 ++ c4))%list. split; [|rewrite toks_app; reflexivity]. unfold text_nal, struct. cbn [add_offset add_length add_parsed_length add_checksum tif].
    destruct (tseq_done _ _ _ T12) as (d1 & d2 & D1 & D2 & ->). rewrite D1.
    change (text_payload sp (mkOpts false false false false (add_resolution o))) with (text_payload sp o). rewrite D2, T4. reflexivity. }
  destruct T0 as (c0 & T0 & K0). rewrite T0. exists (text_of (-1) c0), (toks (c12 ++ c4)%list). split; [reflexivity|].
  pose proof (gs_text (T_nal sp (mkOpts false false false false (add_resolution o)) u) c0 T0) as G0. destruct (struct_text c0 G0 (-1) ltac:(lia)) as (W0 & _).
  split; [rewrite W0; exact K0|].
  assert (S0 : forall n x cc, tif (n : bool) (fu x 0) = Done cc -> True) by auto. clear S0.
  assert (F1 : toks c5 = if add_offset o then field "offset" ("0x" ++ pr_x 8 (nu_offset u)) else []).
  { unfold tif in T5. destruct (add_offset o); apply done_inj1 in T5; subst c5; [|reflexivity]. rewrite PropsToolB.toks_line. unfold field.
    change ("offset: 0x" ++ pr_x 8 (nu_offset u)) with ("offset:" ++ String " " ("0x" ++ pr_x 8 (nu_offset u))). rewrite words_app by reflexivity.
    rewrite (words_word ("0x" ++ pr_x 8 (nu_offset u))); [reflexivity | discriminate |]. cbn [String.append sall]. unfold pr_x. rewrite hex_no_space. reflexivity. }
  assert (F2 : toks c7 = if add_length o then field "length" (dec (nu_length u)) else []).
  { unfold tif in T7. destruct (add_length o); apply done_inj1 in T7; subst c7; [|reflexivity]. rewrite PropsToolB.toks_line. unfold field.
    change ("length" ++ ": " ++ pr_u (nu_length u)) with ("length:" ++ String " " (dec (nu_length u))). rewrite words_app, dec_word by reflexivity. reflexivity. }
  assert (F3 : toks c9 = if add_parsed_length o then field "parsed_length" (dec (nu_parsed_length u)) else []).
  { unfold tif in T9. destruct (add_parsed_length o); apply done_inj1 in T9; subst c9; [|reflexivity]. rewrite PropsToolB.toks_line. unfold field.
    change ("parsed_length" ++ ": " ++ pr_u (nu_parsed_length u)) with ("parsed_length:" ++ String " " (dec (nu_parsed_length u))). rewrite words_app, dec_word by reflexivity. reflexivity. }
  assert (F4 : exists sum, (add_checksum o = true -> nu_checksum u = Some sum) /\ toks c11 = if add_checksum o then field "checksum" ("0x" ++ String.concat "" (map two_hex (checksum_bytes sum))) else []).
  { unfold tif in T11. destruct (add_checksum o); [|apply done_inj1 in T11; subst c11; exists 0; split; [discriminate | reflexivity]]. unfold tderef in T11. destruct (nu_checksum u) as [sum|]; [|discriminate T11].
    exists sum. split; [reflexivity|]. rewrite checksum_line in T11. apply done_inj1 in T11. subst c11. rewrite PropsToolB.toks_line. unfold field.
    change ("checksum: 0x" ++ ?s) with ("checksum:" ++ String " " ("0x" ++ s)). rewrite words_app by reflexivity. rewrite (words_word ("0x" ++ _)); [reflexivity | discriminate |].
    cbn [String.append sall]. change (negb (is_space "0")) with true. change (negb (is_space "x")) with true. cbn [andb].
    assert (B : Forall is_byte (checksum_bytes sum)) by (unfold checksum_bytes; repeat (apply Forall_cons; [unfold u8, is_byte; apply Z.mod_pos_bound; lia|]); apply Forall_nil).
    assert (H : forall x, is_byte x -> sall (fun c => negb (is_space c)) (two_hex x) = true).
    { intros x [H0 H1]. assert (K : forallb (fun n => sall (fun c => negb (is_space c)) (two_hex (Z.of_nat n))) (seq 0 256) = true) by (vm_compute; reflexivity).
      rewrite forallb_forall in K. specialize (K (Z.to_nat x) ltac:(apply in_seq; lia)). rewrite Z2Nat.id in K by lia. exact K. }
    revert B. unfold checksum_bytes. intros B. cbn [map String.concat]. rewrite !sall_app. rewrite Forall_forall in B. repeat (rewrite H by (apply B; cbn; auto)). reflexivity. }
  destruct F4 as (sum & N4 & F4). exists sum. split; [exact N4|]. rewrite !toks_app, F1, F2, F3, F4. rewrite <- !app_assoc. reflexivity.
Qed.
Lemma tseq_assoc a b c : (a +> b) +> c = a +> (b +> c).
Proof. unfold tseq. destruct a as [a|]; [|reflexivity]. destruct b as [b|]; [|reflexivity]. destruct c as [c|]; [|reflexivity]. rewrite app_assoc. reflexivity. Qed.
Definition ends (R : txt) (f : bool -> txt) : Prop := exists X, forall res, f res = X +> tif res R.
Lemma ends_last R : ends R (fun res => tif res R).
Proof. exists tnop. intros res. unfold tnop, tseq. destruct (tif res R); reflexivity. Qed.
Lemma ends_cons R d f : ends R f -> ends R (fun res => d +> f res).
Proof. intros (X & H). exists (d +> X). intros res. rewrite H, tseq_assoc. reflexivity. Qed.
Lemma sps_ends s : exists X, forall res, text_sps res s = Done [Put ("sps" ++ " {"); Incr] +> (X +> tif res (text_resolution s)) +> close.
Proof.
  assert (H : exists f, ends (text_resolution s) f /\ forall res, text_sps res s = struct "sps" (f res)).
  { eexists. split; [|intros res; unfold text_sps; match goal with |- struct "sps" ?d = _ => pattern res at 1; reflexivity end].
    cbv beta. repeat match goal with |- ends _ (fun res => ?d +> _) => refine (ends_cons _ d _ _) end. apply ends_last. }
  destruct H as (f & (X & HX) & Hf). exists X. intros res. rewrite Hf, HX. reflexivity.
Qed.
(** --add-resolution: the standard's cropped size, as the last two fields of every SPS that was accepted. *)
Theorem C77_resolution : forall b s x b' level t, wf b -> ParseSps b = Ok (s, x) b' -> -1 <= level -> fdump (text_sps true s) level = Done t ->
  exists t0 body, fdump (text_sps false s) (-1) = Done t0 /\ words t0 = (body ++ ["}"])%list /\
    words t = (body ++ field "width" (dec (pic_width_in_luma_samples s - SubWidthC s * (conf_win_left_offset s + conf_win_right_offset s))) ++
                       field "height" (dec (pic_height_in_luma_samples s - SubHeightC s * (conf_win_top_offset s + conf_win_bottom_offset s))) ++ ["}"])%list.
Proof.
  intros b s x b' level t Wf P Hl. destruct (C66_resolution b s x b' (mk_bb []) Wf P) as (w & h & R & Ew & Eh & Bw & Bh & _). rewrite <- Ew, <- Eh. clear Ew Eh P.
  destruct (sps_ends s) as (X & HX). unfold fdump. destruct (text_sps true s) as [c|e] eqn:T; [|discriminate]. intros E. apply done_inj1 in E. subst t.
  pose proof (gs_text (T_sps (mkOpts false false false false true) s) c T) as G. destruct (struct_text c G _ Hl) as (W & _). rewrite W. clear W G.
  rewrite HX in T. destruct (tseq_done _ _ _ T) as (c1 & c2 & T1 & T2 & ->). destruct (tseq_done _ _ _ T2) as (c3 & c4 & T3 & T4 & ->). destruct (tseq_done _ _ _ T3) as (c5 & c6 & T5 & T6 & ->).
  cbn [tif] in T6. unfold text_resolution in T6. rewrite R in T6. destruct (tseq_done _ _ _ T6) as (c7 & c8 & T7 & T8 & ->). apply done_inj1 in T1, T4, T7, T8. subst c1 c4 c7 c8.
  assert (T0 : text_sps false s = Done ([Put ("sps" ++ " {"); Incr] ++ c5 ++ [Decr; Ind; Put "}"])%list) by (rewrite HX, T5; cbn [tif tnop tseq]; unfold close; cbn [tseq]; rewrite app_nil_r; reflexivity).
  rewrite T0. eexists. exists (["sps"; "{"] ++ toks c5)%list. split; [reflexivity|].
  pose proof (gs_text (T_sps (mkOpts false false false false false) s) _ T0) as G0. destruct (struct_text _ G0 (-1) ltac:(lia)) as (W0 & _). rewrite W0.
  split; [rewrite !toks_app, <- app_assoc; reflexivity|]. rewrite !toks_app, !PropsToolB.toks_line. unfold pr_i. rewrite !FactsTells.to_i32_id by lia. unfold field.
  change ("width" ++ ": " ++ dec w) with ("width:" ++ String " " (dec w)). change ("height" ++ ": " ++ dec h) with ("height:" ++ String " " (dec h)).
  rewrite !words_app, !dec_word by reflexivity. rewrite <- !app_assoc. reflexivity.
Qed.
Definition all_options : list arg := [O_infile "in"; O_add_offset true; O_add_length true; O_add_parsed_length true; O_add_checksum true; O_add_resolution true].
Example C77_case : exists t, run_on tool_stream all_options = Done (0, t) /\
  map (fun l => firstn 12 (words l)) (firstn 2 (lines t)) =
    [["nal_unit"; "{"; "offset:"; "0x00000004"; "length:"; "33"; "parsed_length:"; "30"; "checksum:"; "0xdc685c0c"; "nal_unit_header"; "{"];
     ["nal_unit"; "{"; "offset:"; "0x00000029"; "length:"; "230"; "parsed_length:"; "227"; "checksum:"; "0xe30b1623"; "nal_unit_header"; "{"]] /\
  map (fun l => skipn (List.length (words l) - 7) (words l)) (firstn 1 (skipn 1 (lines t))) = [["width:"; "1920"; "height:"; "1080"; "}"; "}"; "}"]].
Proof.
  pose (f := fun t => (map (fun l => firstn 12 (words l)) (firstn 2 (lines t)), map (fun l => skipn (List.length (words l) - 7) (words l)) (firstn 1 (skipn 1 (lines t))))).
  assert (H : match run_on tool_stream all_options with Done (0, t) => Some (f t) | _ => None end = Some (
    [["nal_unit"; "{"; "offset:"; "0x00000004"; "length:"; "33"; "parsed_length:"; "30"; "checksum:"; "0xdc685c0c"; "nal_unit_header"; "{"];
     ["nal_unit"; "{"; "offset:"; "0x00000029"; "length:"; "230"; "parsed_length:"; "227"; "checksum:"; "0xe30b1623"; "nal_unit_header"; "{"]],
    [["width:"; "1920"; "height:"; "1080"; "}"; "}"; "}"]])) by (vm_compute; reflexivity).
  destruct (run_on tool_stream all_options) as [[[|p|p] t]|e]; try discriminate H. exists t. split; [reflexivity|].
  assert (F : f t = ([["nal_unit"; "{"; "offset:"; "0x00000004"; "length:"; "33"; "parsed_length:"; "30"; "checksum:"; "0xdc685c0c"; "nal_unit_header"; "{"];
     ["nal_unit"; "{"; "offset:"; "0x00000029"; "length:"; "230"; "parsed_length:"; "227"; "checksum:"; "0xe30b1623"; "nal_unit_header"; "{"]],
    [["width:"; "1920"; "height:"; "1080"; "}"; "}"; "}"]])) by congruence.
  split; [exact (f_equal fst F) | exact (f_equal snd F)].
Qed.
