(** C72-C75: the command line tool: contents, numbers, files, options. *)
From Coq Require Import ZArith List Bool Lia String Ascii.
From Verif Require Import MBase MBitBuffer Spec BitsFacts Reader ReaderFacts Syntax MCommon CommonFacts MFraming FramingFacts PropsFraming MSyntaxA SpecA FactsA Api MSps MPps MSlice MNal FactsNal PropsNal PropsLocal
  MRtp MText SpecText FactsText PropsText MTool SpecTool FactsTool PropsTool.
Import ListNotations.
Open Scope string_scope.
Open Scope Z_scope.

(** * C72: --add-contents *)
Lemma pr_byte x : is_byte x -> pr_x 2 x = two_hex x.
Proof.
  intros [H0 H1]. assert (G : forallb (fun n => String.eqb (pr_x 2 (Z.of_nat n)) (two_hex (Z.of_nat n))) (seq 0 256) = true) by (vm_compute; reflexivity).
  rewrite forallb_forall in G. specialize (G (Z.to_nat x) ltac:(apply in_seq; lia)). rewrite Z2Nat.id in G by lia. apply String.eqb_eq, G.
Qed.
Lemma two_hex_word x : is_byte x -> words (two_hex x) = [two_hex x].
Proof.
  intros [H0 H1]. assert (G : forallb (fun n => match words (two_hex (Z.of_nat n)) with [w] => String.eqb w (two_hex (Z.of_nat n)) | _ => false end) (seq 0 256) = true) by (vm_compute; reflexivity).
  rewrite forallb_forall in G. specialize (G (Z.to_nat x) ltac:(apply in_seq; lia)). rewrite Z2Nat.id in G by lia. destruct (words (two_hex x)) as [|w [|]]; try discriminate G.
  apply String.eqb_eq in G. rewrite G. reflexivity.
Qed.
Lemma two_hex_inj x y : is_byte x -> is_byte y -> two_hex x = two_hex y -> x = y.
Proof.
  intros [H0 H1] [H2 H3] E.
  assert (G : forallb (fun n => Z.eqb (let d c := let k := Z.of_nat (nat_of_ascii c) in if k <? 58 then k - 48 else k - 87 in match two_hex (Z.of_nat n) with String a (String b _) => 16 * d a + d b | _ => -1 end) (Z.of_nat n)) (seq 0 256) = true) by (vm_compute; reflexivity).
  rewrite forallb_forall in G. pose proof (G (Z.to_nat x) ltac:(apply in_seq; lia)) as Gx. pose proof (G (Z.to_nat y) ltac:(apply in_seq; lia)) as Gy. rewrite Z2Nat.id in Gx, Gy by lia.
  apply Z.eqb_eq in Gx, Gy. rewrite <- Gx, <- Gy, E. reflexivity.
Qed.
Lemma hex_headed l : forall i, headed (hex_bytes i l ++ " }").
Proof. destruct l; intros i; reflexivity. Qed.
Lemma hex_words l : Forall is_byte l -> forall i, words (hex_bytes i l ++ " }") = (map two_hex l ++ ["}"])%list.
Proof.
  induction 1 as [|x l B F IH]; intros i; [reflexivity|]. cbn [hex_bytes map List.app]. rewrite !sapp_assoc. cbn [String.append]. rewrite words_space by reflexivity. rewrite pr_byte by exact B.
  assert (H : forall s, headed s -> headed ((if (i + 1) mod 16 =? 0 then " " else "") ++ s)) by (intros s Hs; destruct ((i + 1) mod 16 =? 0); [reflexivity | exact Hs]).
  rewrite words_headed by apply H, hex_headed. rewrite two_hex_word by exact B. cbn [List.app]. f_equal. destruct ((i + 1) mod 16 =? 0); cbn [String.append]; [rewrite words_space by reflexivity|]; apply IH.
Qed.
Definition unit_bytes (data : list Z) (u : nal_unit) : list Z := firstn (Z.to_nat (nu_length u)) (skipn (Z.to_nat (nu_offset u)) data).
Lemma Forall_part {A} (P : A -> Prop) n m l : Forall P l -> Forall P (firstn n (skipn m l)).
Proof. rewrite !Forall_forall. intros H x I. apply H. rewrite <- (firstn_skipn m l). apply in_or_app. right. rewrite <- (firstn_skipn n (skipn m l)). apply in_or_app. left. exact I. Qed.
Lemma contents_words data u : Forall is_byte data -> words (contents data u) = ("contents" :: "{" :: map two_hex (unit_bytes data u) ++ ["}"])%list.
Proof.
  intros F. unfold contents. change (" contents {" ++ ?x) with (String " " ("contents {" ++ x)). rewrite words_space by reflexivity. rewrite words_headed by apply hex_headed.
  rewrite hex_words by apply Forall_part, F. reflexivity.
Qed.
(** The words between the braces are the bytes of the NAL unit (its escaped bytes without the start code: exactly what the unit parser was given), two
    digits each; so the text shows which bytes they were. *)
Theorem C72_annexb : forall opts data st bs st' u, Forall is_byte data -> Z.of_nat (List.length data) < 2 ^ 64 -> ParseBitstream opts data st = Done (bs, st') -> In u (bs_units bs) ->
  exists bytes st0 st1 u0, ParseNalUnit opts bytes st0 = Done (Some u0, st1) /\ u = set_range (nu_offset u) (Z.of_nat (List.length bytes)) u0 /\
    (exists before after, data = (before ++ bytes ++ after)%list /\ Z.of_nat (List.length before) = nu_offset u) /\
    words (contents data u) = (["contents"; "{"] ++ map two_hex bytes ++ ["}"])%list.
Proof.
  intros opts data st bs st' u F L E I. destruct (C19_ranges_annexb _ _ _ _ _ _ L E I) as (H1 & H2 & H3 & st0 & st1 & u0 & P & S).
  exists (unit_bytes data u), st0, st1, u0. split; [exact P|].
  assert (Len : Z.of_nat (List.length (unit_bytes data u)) = nu_length u) by (unfold unit_bytes; rewrite firstn_length, skipn_length; lia). rewrite Len. split; [exact S|].
  split; [|apply contents_words, F]. exists (firstn (Z.to_nat (nu_offset u)) data), (skipn (Z.to_nat (nu_length u)) (skipn (Z.to_nat (nu_offset u)) data)).
  unfold unit_bytes. rewrite firstn_skipn, firstn_skipn. split; [reflexivity|]. rewrite firstn_length. lia.
Qed.
Theorem C72_faithful : forall data u data' u', Forall is_byte data -> Forall is_byte data' -> words (contents data u) = words (contents data' u') -> unit_bytes data u = unit_bytes data' u'.
Proof.
  intros data u data' u' F F' E. rewrite !contents_words in E by assumption. injection E as E. apply app_inj_tail in E. destruct E as [E _].
  assert (G : Forall is_byte (unit_bytes data u)) by apply Forall_part, F. assert (G' : Forall is_byte (unit_bytes data' u')) by apply Forall_part, F'.
  revert G' E. generalize (unit_bytes data' u'). revert G. generalize (unit_bytes data u). induction 1 as [|x l B Fl IH]; intros [|y m] G E; try discriminate E; [reflexivity|].
  cbn [map] in E. inversion G; subst. pose proof (f_equal (hd "") E) as E1. pose proof (f_equal (@tl string) E) as E2. cbn [hd tl] in E1, E2. f_equal; [apply two_hex_inj; assumption | apply IH; assumption].
Qed.
(** Length-prefixed streams: the two bytes of a length field, but not the whole unit 46 01 50 *)
Theorem C72_length_prefixed_refuted : exists bs st u, ParseBitstreamNALULength default_options [0; 3; 0x46; 1; 0x50] 2 empty_state = Done (bs, st) /\ bs_units bs = [u] /\
  contents [0; 3; 0x46; 1; 0x50] u = " contents { 46 01 }".
Proof. do 3 eexists. repeat (apply conj; [vm_compute; reflexivity|]). vm_compute. reflexivity. Qed.

(** With --add-contents each unit is printed with its offset and length, whatever the other options. *)
Lemma toks_line s : toks [Ind; Put s] = words s.
Proof. unfold toks. cbn [flat_map List.app]. apply app_nil_r. Qed.
Theorem C72_with_range : forall o buffer sp u t, a_add_contents o = true -> dump_unit (imply o) buffer sp u = Done t ->
  exists body, words t = (["nal_unit"; "{"; "offset:"; ("0x" ++ pr_x 8 (nu_offset u))%string; "length:"; dec (nu_length u)] ++ body ++ words (contents buffer u))%list.
Proof.
  intros o buffer sp u t A E. unfold dump_unit in E. destruct o as [debug mode one off len plen csum res cont lb fps hvcc inf outf]. cbn [a_add_contents] in A. subst cont.
  unfold imply, parsing_options in E. cbn [a_as_one_line a_add_contents a_add_offset a_add_length a_add_parsed_length a_add_checksum a_add_resolution orb] in E.
  unfold fdumped in E. destruct (text_nal sp (mkOpts true true plen csum res) u) as [c|e] eqn:T; [|discriminate E].
  apply done_inj1 in E. subst t. pose proof (gs_text (T_nal sp (mkOpts true true plen csum res) u) c T) as G.
  assert (L : -1 <= (if one then -1 else 0)) by (destruct one; lia). destruct (struct_text c G _ L) as (W & _). unfold text_of in W.
  assert (H1 : headed (contents buffer u ++ newline_str)) by reflexivity. rewrite words_headed by exact H1. rewrite W. rewrite words_headed by reflexivity. change (words newline_str) with (@nil string). rewrite app_nil_r.
  unfold text_nal in T. unfold struct in T. cbn [add_offset add_length tif] in T.
  destruct (tseq_done _ _ _ T) as (c1 & c2 & T1 & T2 & ->). destruct (tseq_done _ _ _ T2) as (c3 & c4 & T3 & T4 & ->). destruct (tseq_done _ _ _ T3) as (c5 & c6 & T5 & T6 & ->).
  destruct (tseq_done _ _ _ T6) as (c7 & c8 & T7 & T8 & ->). apply done_inj1 in T1, T5, T7. subst c1 c5 c7. exists (toks (c8 ++ c4)%list). rewrite !toks_app, !toks_line, <- !app_assoc.
  change (toks [Put ("nal_unit" ++ " {"); Incr]) with ["nal_unit"; "{"].
  change ("offset: 0x" ++ pr_x 8 (nu_offset u)) with ("offset:" ++ String " " ("0x" ++ pr_x 8 (nu_offset u))). rewrite words_app by reflexivity.
  change ("length" ++ ": " ++ pr_u (nu_length u)) with ("length:" ++ String " " (dec (nu_length u))). rewrite words_app, dec_word by reflexivity.
  rewrite (words_word ("0x" ++ pr_x 8 (nu_offset u))); [reflexivity | discriminate |].
  cbn [String.append sall]. assert (D : forall n x, sall (fun c => negb (is_space c)) (hex_digits n x) = true).
  { induction n as [|n IH]; intros x; [reflexivity|]. cbn [hex_digits]. rewrite sall_app, IH. cbn [sall]. pose proof (land15 x) as Hd. revert Hd. generalize (Z.land x 15). intros d Hd.
    assert (K : forallb (fun k => negb (is_space (ascii_of_nat (Z.to_nat (hex_char (Z.of_nat k)))))) (seq 0 16) = true) by (vm_compute; reflexivity).
    rewrite forallb_forall in K. specialize (K (Z.to_nat d) ltac:(apply in_seq; lia)). rewrite Z2Nat.id in K by lia. rewrite K. reflexivity. }
  unfold pr_x. rewrite D. reflexivity.
Qed.

(** * C73: numbers on the command line *)
Lemma white_char c : is_white c = true <-> is_blank_char c.
Proof.
  unfold is_white, is_blank_char. cbv zeta. rewrite orb_true_iff, andb_true_iff, Nat.eqb_eq, !Nat.leb_le. tauto.
Qed.
Lemma digit_char c : is_digit c = true <-> is_digit_char c.
Proof. unfold is_digit, is_digit_char. cbv zeta. rewrite andb_true_iff, !Nat.leb_le. tauto. Qed.
Lemma skip_split s : exists w, s = w ++ skip_white s /\ every is_blank_char w /\ match skip_white s with String c _ => is_white c = false | "" => True end.
Proof.
  induction s as [|c s IH]; [exists ""; cbn; auto|]. cbn [skip_white]. destruct (is_white c) eqn:E.
  - destruct IH as (w & H1 & H2 & H3). exists (String c w). cbn [String.append every]. split; [rewrite <- H1; reflexivity|]. split; [split; [apply white_char, E | exact H2] | exact H3].
  - exists "". cbn [String.append every]. auto.
Qed.
Lemma skip_blanks w t : every is_blank_char w -> match t with String c _ => is_white c = false | "" => True end -> skip_white (w ++ t) = t.
Proof.
  induction w as [|c w IH]; cbn [every String.append skip_white]; intros H N.
  - destruct t as [|c t]; [reflexivity|]. cbn [skip_white]. rewrite N. reflexivity.
  - destruct H as [H1 H2]. apply white_char in H1. rewrite H1. exact (IH H2 N).
Qed.
Lemma scan_split s : forall acc, exists d, s = d ++ snd (scan_digits acc s) /\ every is_digit_char d /\ fst (scan_digits acc s) = value acc d.
Proof.
  induction s as [|c s IH]; intros acc; [exists ""; cbn; auto|]. cbn [scan_digits]. destruct (is_digit c) eqn:E.
  - destruct (IH (10 * acc + (Z.of_nat (nat_of_ascii c) - 48))) as (d & H1 & H2 & H3). exists (String c d). cbn [String.append every value].
    split; [rewrite <- H1; reflexivity|]. split; [split; [apply digit_char, E | exact H2] | exact H3].
  - exists "". cbn [String.append every value fst snd]. auto.
Qed.
Lemma scan_all d : every is_digit_char d -> forall acc, scan_digits acc d = (value acc d, "").
Proof. induction d as [|c d IH]; intros H acc; [reflexivity|]. destruct H as [H1 H2]. cbn [scan_digits value]. apply digit_char in H1. rewrite H1. apply IH, H2. Qed.
Lemma value_nonneg d : every is_digit_char d -> forall acc, 0 <= acc -> 0 <= value acc d.
Proof. induction d as [|c d IH]; intros H acc A; [exact A|]. destruct H as [[H1 _] H2]. cbn [value]. apply IH; [exact H2 | lia]. Qed.
Lemma digit_not_white c : is_digit c = true -> is_white c = false /\ Ascii.eqb c "-" = false /\ Ascii.eqb c "+" = false.
Proof. destruct c as [[] [] [] [] [] [] [] []]; vm_compute; auto; discriminate. Qed.

(** The argument is accepted exactly if it is empty (as 0!) or writes, after optional blanks and sign, a number from 0 to INT_MAX and nothing else. *)
Theorem C73_accepted : forall s n, number s = Some n <-> (s = "" /\ n = 0) \/ (writes_number s n /\ 0 <= n <= 2 ^ 31 - 1).
Proof.
  intros s n. split.
  - unfold number. destruct (strtol s) as [[v rest] errno] eqn:E. intros H. destruct errno; [discriminate H|]. cbn [orb] in H.
    destruct (String.eqb_spec rest "") as [->|]; [|discriminate H]. cbn [negb orb] in H. destruct (Z.ltb_spec v 0); [discriminate H|]. destruct (Z.ltb_spec (2 ^ 31 - 1) v); [discriminate H|].
    cbn [orb] in H. injection H as <-. unfold strtol in E. destruct (skip_split s) as (w & Hs & Hw & Hn). remember (skip_white s) as t eqn:Et. clear Et.
    assert (D : forall (neg : bool) r, match r with String c _ => if is_digit c then let (n0, rest) := scan_digits 0 r in let v := if neg then - n0 else n0 in
        if v <? - 2 ^ 63 then (- 2 ^ 63, rest, true) else if 2 ^ 63 - 1 <? v then (2 ^ 63 - 1, rest, true) else (v, rest, false) else (0, s, false) | "" => (0, s, false) end = (v, "", false) ->
        (s = "" /\ v = 0) \/ (every is_digit_char r /\ r <> "" /\ v = if neg then - value 0 r else value 0 r)).
    { intros neg r. destruct r as [|c r]; [intros X; injection X as <- ->; left; auto|]. destruct (is_digit c) eqn:Dc; [|intros X; injection X as <- ->; left; auto].
      destruct (scan_split (String c r) 0) as (d & K1 & K2 & K3). destruct (scan_digits 0 (String c r)) as [n0 rest]. cbn [fst snd] in K1, K3. cbv zeta.
      destruct (_ <? - 2 ^ 63); [discriminate|]. destruct (2 ^ 63 - 1 <? _); [discriminate|]. intros X. assert (rest = "" /\ v = if neg then - n0 else n0) as [-> ->] by (split; congruence).
      rewrite sapp_nil in K1. subst d. right. split; [exact K2|]. split; [discriminate|]. rewrite K3. reflexivity. }
    destruct t as [|c t].
    + destruct (D false "" E) as [X|(_ & X & _)]; [left; exact X | congruence].
    + destruct (Ascii.eqb_spec c "-") as [->|N1]; [|destruct (Ascii.eqb_spec c "+") as [->|N2]].
      * destruct (D true t E) as [X|(X1 & X2 & X3)]; [left; exact X|]. right. split; [|lia]. exists w, "-", t. auto 10.
      * destruct (D false t E) as [X|(X1 & X2 & X3)]; [left; exact X|]. right. split; [|lia]. exists w, "+", t. auto 10.
      * destruct (D false (String c t) E) as [X|(X1 & X2 & X3)]; [left; exact X|]. right. split; [|lia]. exists w, "", (String c t). auto 10.
  - intros [[-> ->]|[(w & sign & ds & -> & Hw & Hd & N & V) R]]; [reflexivity|]. destruct ds as [|c ds]; [congruence|]. pose proof Hd as [Hc _]. apply digit_char in Hc. destruct (digit_not_white c Hc) as (W & M & P).
    unfold number, strtol. pose proof (value_nonneg _ Hd 0 ltac:(lia)) as Pos. pose proof (scan_all _ Hd 0) as Sc.
    destruct V as [[-> Vn]|[[->| ->] Vn]].
    + rewrite skip_blanks by (assumption || reflexivity). cbn [String.append Ascii.eqb Bool.eqb]. rewrite Hc, Sc. assert (Z0 : value 0 (String c ds) = 0) by lia. rewrite Z0 in *. subst n. reflexivity.
    + cbn [String.append]. rewrite skip_blanks by assumption. rewrite M, P, Hc, Sc. cbv zeta. rewrite <- Vn. destruct (Z.ltb_spec n (- 2 ^ 63)); [lia|]. destruct (Z.ltb_spec (2 ^ 63 - 1) n); [lia|].
      cbn [negb orb String.eqb]. destruct (Z.ltb_spec n 0); [lia|]. destruct (Z.ltb_spec (2 ^ 31 - 1) n); [lia|]. reflexivity.
    + rewrite skip_blanks by (assumption || reflexivity). cbn [String.append Ascii.eqb Bool.eqb]. rewrite Hc, Sc. cbv zeta. rewrite <- Vn. destruct (Z.ltb_spec n (- 2 ^ 63)); [lia|]. destruct (Z.ltb_spec (2 ^ 63 - 1) n); [lia|].
      cbn [negb orb String.eqb]. destruct (Z.ltb_spec n 0); [lia|]. destruct (Z.ltb_spec (2 ^ 31 - 1) n); [lia|]. reflexivity.
Qed.
(** Every number of the range can be given in plain decimal. *)
Lemma uint_value d : forall p, every is_digit_char (DecimalString.NilEmpty.string_of_uint d) /\ value (Z.pos p) (DecimalString.NilEmpty.string_of_uint d) = Z.pos (Pos.of_uint_acc d p).
Proof.
  induction d; intros p; cbn [DecimalString.NilEmpty.string_of_uint every value Pos.of_uint_acc]; [split; [exact I | reflexivity]|..];
    (split; [split; [unfold is_digit_char; vm_compute; lia | apply (IHd 1%positive)]|]);
    match goal with |- value ?x _ = Z.pos (Pos.of_uint_acc _ ?q) => replace x with (Z.pos q); [apply IHd|] end;
    cbn [nat_of_ascii]; match goal with |- context [nat_of_ascii ?c] => let v := eval vm_compute in (Z.of_nat (nat_of_ascii c)) in change (Z.of_nat (nat_of_ascii c)) with v end; lia.
Qed.
Lemma uint_value0 d : every is_digit_char (DecimalString.NilEmpty.string_of_uint d) /\ value 0 (DecimalString.NilEmpty.string_of_uint d) = Z.of_N (Pos.of_uint d).
Proof.
  induction d; cbn [DecimalString.NilEmpty.string_of_uint every value Pos.of_uint]; [split; [exact I | reflexivity]|..];
    (split; [split; [unfold is_digit_char; vm_compute; lia | first [apply IHd | apply (uint_value d 1)]]|]).
  1: exact (proj2 IHd).
  all: match goal with |- value ?x _ = Z.of_N (N.pos (Pos.of_uint_acc _ ?q)) => change x with (Z.pos q); apply (uint_value d q) end.
Qed.
Theorem C73_decimal : forall n, 0 <= n <= 2 ^ 31 - 1 -> number (dec n) = Some n.
Proof.
  intros n H. apply C73_accepted. right. split; [|exact H]. exists "", "", (dec n). split; [reflexivity|]. split; [exact I|].
  assert (G : every is_digit_char (dec n) /\ value 0 (dec n) = n).
  { unfold dec. pose proof (DecimalZ.of_to n) as E. unfold Z.to_int in *. destruct n as [|p|p]; [split; [unfold is_digit_char; vm_compute; lia | reflexivity]| |lia].
    cbn [DecimalString.NilZero.string_of_int] in *. cbn [Z.of_int Z.of_uint] in E. assert (X : DecimalString.NilZero.string_of_uint (Pos.to_uint p) = DecimalString.NilEmpty.string_of_uint (Pos.to_uint p)).
    { destruct (Pos.to_uint p); [discriminate E|..]; reflexivity. }
    rewrite X. destruct (uint_value0 (Pos.to_uint p)) as [G1 G2]. split; [exact G1 | rewrite G2; exact E]. }
  split; [apply G|]. split; [apply dec_digit|]. right. split; [left; reflexivity | symmetry; apply G].
Qed.
(** The help text says "use -1 for explicit NALU separators"; -1 ends the program.  An empty argument is taken for 0. *)
Theorem C73_minus_one_refuted : forall f, parse_args [O_nalu_length_bytes "-1"; O_infile f] = Exit (-1) /\ parse_args [O_nalu_length_bytes ""; O_infile f] =
  Ready (mkArgs 0 dump_all true false false false false false false 0 30 None (Some f) None).
Proof. intros f. split; reflexivity. Qed.

(** * C74: reading files *)
Lemma read_all fuel : forall stdin buffer, (List.length stdin < fuel)%nat -> ReadStdinToBuffer fuel stdin buffer = ((buffer ++ stdin)%list, []).
Proof.
  induction fuel as [|fuel IH]; intros stdin buffer H; [lia|]. cbn [ReadStdinToBuffer]. destruct stdin as [|x r]; [rewrite firstn_nil, app_nil_r; reflexivity|].
  assert (N : firstn chunk_size (x :: r) = x :: firstn (pred chunk_size) r) by reflexivity. rewrite N. rewrite IH.
  - rewrite <- app_assoc. rewrite <- N, firstn_skipn. reflexivity.
  - rewrite skipn_length. unfold chunk_size. cbn [List.length] in *. lia.
Qed.
(** Standard input is read to its end, whatever its size, and is appended. *)
Theorem C74_stdin : forall fs stdin buffer, ReadFile fs stdin (Some "-") buffer = (Some (buffer ++ stdin)%list, []) /\ ReadFile fs stdin None buffer = (Some (buffer ++ stdin)%list, []).
Proof. intros fs stdin buffer. unfold ReadFile. cbn [String.eqb Ascii.eqb Bool.eqb]. rewrite read_all by lia. auto. Qed.
(** A file is read completely or not at all, replacing the buffer; empty files are refused. *)
Theorem C74_file : forall fs stdin name buffer, name <> "-" ->
  snd (ReadFile fs stdin (Some name) buffer) = stdin /\
  (forall b, fst (ReadFile fs stdin (Some name) buffer) = Some b -> exists f rest, fs name = Some f /\ file_bytes f = (b ++ rest)%list /\ Z.of_nat (List.length b) = file_size f /\ b <> []) /\
  (forall bytes, fs name = Some (mkFile (Z.of_nat (List.length bytes)) bytes) -> fst (ReadFile fs stdin (Some name) buffer) = match bytes with [] => None | _ => Some bytes end).
Proof.
  intros fs stdin name buffer N. unfold ReadFile. destruct (String.eqb_spec name "-") as [|_]; [congruence|]. destruct (fs name) as [f|].
  - split; [destruct (file_size f <=? 0); [reflexivity|]; destruct (negb _); reflexivity|]. split.
    + intros b. destruct (Z.leb_spec (file_size f) 0); [discriminate|]. destruct (Z.eqb_spec (Z.of_nat (List.length (firstn (Z.to_nat (file_size f)) (file_bytes f)))) (file_size f)) as [E|]; [|discriminate].
      cbn [negb fst]. intros X. assert (b = firstn (Z.to_nat (file_size f)) (file_bytes f)) by congruence. subst b. exists f, (skipn (Z.to_nat (file_size f)) (file_bytes f)).
      split; [reflexivity|]. split; [symmetry; apply firstn_skipn|]. split; [exact E|]. intros Z0. rewrite Z0 in E. cbn [List.length] in E. lia.
    + intros bytes E. assert (f = mkFile (Z.of_nat (List.length bytes)) bytes) by congruence. subst f. cbn [file_size file_bytes]. rewrite Nat2Z.id, firstn_all, Z.eqb_refl. cbn [negb].
      destruct bytes as [|x r]; [reflexivity|]. destruct (Z.leb_spec (Z.of_nat (List.length (x :: r))) 0) as [H|]; [cbn [List.length] in H; lia | reflexivity].
  - split; [reflexivity|]. split; [discriminate|]. intros bytes E. discriminate E.
Qed.
(** Whenever the tool ends with an error it has written nothing; it ends without one only if every input it was given was read and the output could be opened. *)
Theorem C74_exit : forall fs w stdin spb sp args c t, main fs w stdin spb sp args = Done (c, t) ->
  (c <> 0 -> t = "") /\
  (c = 0 -> t = "" \/ (w = true /\ exists o, parse_args args = Ready o /\
     (forall f, a_hvcc_file o = Some f -> fst (ReadFile fs stdin (Some f) []) <> None) /\
     (forall f, a_infile o = Some f -> exists stdin', fst (ReadFile fs stdin' (Some f) []) <> None))).
Proof.
  intros fs w stdin spb sp args c t M. unfold main in M. destruct (parse_args args) as [o|x] eqn:P; [|apply done_inj in M; destruct M as [<- <-]; auto].
  cbv zeta in M. unfold load_box, load_units in M. assert (Eh : a_hvcc_file (imply o) = a_hvcc_file o /\ a_infile (imply o) = a_infile o) by (destruct o; split; reflexivity). destruct Eh as [Eh Ei]. rewrite Eh, Ei in M.
  assert (Fin : forall (r : outcome string), match r with Bad e => Bad e | Done t2 => Done (0, t2) end = Done (c, t) -> c = 0) by (intros [|]; [intros X; apply done_inj in X; symmetry; apply X | discriminate]).
  destruct (a_hvcc_file o) as [f|] eqn:Hb.
  - destruct (ReadFile fs stdin (Some f) []) as [[bytes|] rest] eqn:R; [|apply done_inj in M; destruct M as [<- <-]; split; [reflexivity | intros X; discriminate X]].
    destruct (ParseConfigurationBox _ bytes empty_state) as [[[box|] st]|e]; [| apply done_inj in M; destruct M as [<- <-]; split; [reflexivity | intros X; discriminate X] | discriminate M].
    destruct (a_infile o) as [g|] eqn:Hi.
    + destruct (ReadFile fs rest (Some g) []) as [[bytes2|] rest2] eqn:R2; [|apply done_inj in M; destruct M as [<- <-]; split; [reflexivity | intros X; discriminate X]].
      destruct (if _ <? 0 then _ else _) as [[bs st2]|e]; [|discriminate M]. destruct w; cbn [negb] in M; [|apply done_inj in M; destruct M as [<- <-]; split; [reflexivity | intros X; discriminate X]].
      destruct (match fdumped _ _ with Bad e => Bad e | Done t0 => Done (t0 ++ newline_str) end) as [t1|e]; [|discriminate M].
      destruct (match a_dumpmode (imply o) with dump_all => _ | dump_length => _ end) as [t2|e]; [|discriminate M]. apply done_inj in M. destruct M as [<- <-].
      split; [congruence|]. intros _. right. split; [reflexivity|]. exists o. split; [reflexivity|]. rewrite Hb, Hi. split; [intros f' X; injection X as <-; rewrite R; discriminate|].
      intros g' X. injection X as <-. exists rest. rewrite R2. discriminate.
    + destruct w; cbn [negb] in M; [|apply done_inj in M; destruct M as [<- <-]; split; [reflexivity | intros X; discriminate X]].
      destruct (match fdumped _ _ with Bad e => Bad e | Done t0 => Done (t0 ++ newline_str) end) as [t1|e]; [|discriminate M]. apply done_inj in M. destruct M as [<- <-].
      split; [congruence|]. intros _. right. split; [reflexivity|]. exists o. split; [reflexivity|]. rewrite Hb, Hi. split; [intros f' X; injection X as <-; rewrite R; discriminate | discriminate].
  - destruct (a_infile o) as [g|] eqn:Hi.
    + destruct (ReadFile fs stdin (Some g) []) as [[bytes2|] rest2] eqn:R2; [|apply done_inj in M; destruct M as [<- <-]; split; [reflexivity | intros X; discriminate X]].
      destruct (if _ <? 0 then _ else _) as [[bs st2]|e]; [|discriminate M]. destruct w; cbn [negb] in M; [|apply done_inj in M; destruct M as [<- <-]; split; [reflexivity | intros X; discriminate X]].
      destruct (match a_dumpmode (imply o) with dump_all => _ | dump_length => _ end) as [t2|e]; [|discriminate M]. apply done_inj in M. destruct M as [<- <-].
      split; [congruence|]. intros _. right. split; [reflexivity|]. exists o. split; [reflexivity|]. rewrite Hb, Hi. split; [discriminate|].
      intros g' X. injection X as <-. exists stdin. rewrite R2. discriminate.
    + destruct w; cbn [negb] in M; apply done_inj in M; destruct M as [<- <-]; (split; [congruence | auto]).
Qed.
