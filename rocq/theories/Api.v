(** How the layout of a parser is stated: at the level of a reader in the middle of a buffer ([reads_exactly]) and at the
    level of the (data, length) entry points ([data_exactly]). *)
From Coq Require Import ZArith List Bool Lia ZifyBool ZifyNat.
From Verif Require Import MBase MBitBuffer Spec BitsFacts Reader ReaderFacts Rules Syntax MCommon CommonFacts PropsBits PropsCommon MSyntaxA.
Import ListNotations.
Open Scope Z_scope.

(** [reads_exactly m ok enc]: started in any valid reader state, [m] has no undefined behaviour, only moves the position forward within the
    buffer and leaves the bytes alone; and it returns [s] if and only if [s] is a valid structure ([ok s]) whose encoding is the next
    bits, in which case it consumes exactly these bits.  (So it fails iff the next bits encode no valid structure.) *)
Definition reads_exactly {A} (m : M A) (ok : A -> Prop) (enc : A -> list bool) : Prop :=
  forall b, wf b ->
    match m b with
    | Ok _ b' | Fail b' => wf b' /\ bb_bytes b' = bb_bytes b /\ pos b <= pos b'
    | Err _ => False
    end /\
    forall s b', m b = Ok s b' <->
      ok s /\ (exists rest, rem b = enc s ++ rest) /\ b' = adv b (length (enc s)).

(** Any byte string that fits the library's 32-bit sizes. *)
Definition byte_string (data : list Z) : Prop := Forall is_byte data /\ Z.of_nat (length data) < 2 ^ 32.

(** The same for an entry point taking a byte string that still has its emulation prevention bytes. *)
Definition data_exactly {A} (parse : list Z -> outcome (option A)) (ok : A -> Prop) (enc : A -> list bool) : Prop :=
  forall data, byte_string data ->
    exists rbsp, UnescapeRbsp data = Done rbsp /\ exists r, parse data = Done r /\
    forall s, r = Some s <-> ok s /\ exists rest, bits_of rbsp = enc s ++ rest.

Lemma steps_facts b b' bs : wf b -> steps b b' bs -> wf b' /\ bb_bytes b' = bb_bytes b /\ pos b <= pos b'.
Proof.
  intros W S. split; [eapply steps_wf; eassumption|]. destruct S as [_ ->]. split; [reflexivity|]. rewrite pos_adv. lia.
Qed.

Lemma reads_exactly_intro {A} (m : M A) (ok : A -> Prop) (enc : A -> list bool) :
  (forall s, ok s -> parses m (enc s) s) -> wp no_err m (fun s bs => ok s /\ bs = enc s) -> reads_exactly m ok enc.
Proof.
  intros C S b W. split.
  - specialize (S b W). destruct (m b) as [a b'|b'|e].
    + destruct S as (bs & S & _). eapply steps_facts; eassumption.
    + destruct S as (bs & S). eapply steps_facts; eassumption.
    + exact S.
  - intros s b'. split.
    + intros E. specialize (S b W). rewrite E in S. destruct S as (bs & [S1 S2] & Hs & ->).
      split; [exact Hs|]. split; [eexists; exact S1|exact S2].
    + intros (Hs & (rest & E) & ->). apply (C s Hs b rest W E).
Qed.

Lemma on_buffer_exactly {A} (m : M A) (ok : A -> Prop) (enc : A -> list bool) bytes : reads_exactly m ok enc -> byte_string bytes ->
  exists r, on_buffer m bytes = Done r /\ forall s, r = Some s <-> ok s /\ exists rest, bits_of bytes = enc s ++ rest.
Proof.
  intros H [F L]. unfold on_buffer, init_ok.
  replace (Z.of_nat (length bytes) <=? u32_max) with true by (unfold u32_max; lia).
  pose proof (wf_mk bytes F L) as W. destruct (H _ W) as [H1 H2].
  assert (R : rem (mk_bb bytes) = bits_of bytes) by reflexivity. rewrite R in H2.
  destruct (m (mk_bb bytes)) as [a b'|b'|e].
  - exists (Some a). split; [reflexivity|]. intros s. split.
    + intros E. injection E as <-. destruct (H2 a b') as [H3 _]. specialize (H3 eq_refl). tauto.
    + intros (Hs & Hr). destruct (H2 s (adv (mk_bb bytes) (length (enc s)))) as [_ H3].
      assert (E : Ok a b' = Ok s (adv (mk_bb bytes) (length (enc s)))) by (apply H3; auto). injection E as -> _. reflexivity.
  - exists None. split; [reflexivity|]. intros s. split; [discriminate|]. intros (Hs & Hr).
    destruct (H2 s (adv (mk_bb bytes) (length (enc s)))) as [_ H3].
    assert (E : Fail b' = Ok s (adv (mk_bb bytes) (length (enc s)))) by (apply H3; auto). discriminate E.
  - contradiction.
Qed.

Lemma Unescape_byte_string data : byte_string data -> exists rbsp, UnescapeRbsp data = Done rbsp /\ byte_string rbsp.
Proof.
  intros [F L]. exists (unesc data). split; [apply UnescapeRbsp_spec|]. destruct (C10_unescape_only_removes data) as (o & E & R & Ho & _).
  rewrite UnescapeRbsp_spec in E. injection E as <-. split; [|lia].
  clear L Ho. induction R; [constructor| |].
  - inversion F; subst. constructor; auto.
  - inversion F as [|? ? ? F1]; subst. inversion F1 as [|? ? ? F2]; subst. inversion F2; subst. repeat constructor; auto; lia.
Qed.

Lemma on_data_exactly {A} (m : M A) (ok : A -> Prop) (enc : A -> list bool) : reads_exactly m ok enc -> data_exactly (on_data m) ok enc.
Proof.
  intros H data D. destruct (Unescape_byte_string data D) as (rbsp & E & D'). exists rbsp. split; [exact E|].
  unfold on_data. rewrite E. apply on_buffer_exactly; assumption.
Qed.

(** Shows that a concrete structure satisfies its [_ok] predicate. *)
Ltac head_of t := lazymatch t with ?f _ => head_of f | _ => t end.
Ltac solve_ok := repeat lazymatch goal with
  | |- _ /\ _ => split
  | |- True => exact I
  | |- Forall _ [] => apply Forall_nil
  | |- Forall _ (_ :: _) => apply Forall_cons
  | |- Forall ?P ?l => let l' := eval hnf in l in change (Forall P l')
  | |- optf ?c ?P ?d ?a => let c' := eval vm_compute in c in change (optf c' P d a); unfold optf at 1; cbv iota beta
  | |- u_ok _ _ => vm_compute; split; [discriminate|reflexivity]
  | |- is_byte _ => vm_compute; split; [discriminate|reflexivity]
  | |- ue_ok _ => vm_compute; split; discriminate
  | |- ue_le _ _ => vm_compute; split; discriminate
  | |- _ <= _ < _ => vm_compute; split; [discriminate|reflexivity]
  | |- _ <= _ <= _ => vm_compute; split; discriminate
  | |- _ <= _ => vm_compute; discriminate
  | |- _ < _ => vm_compute; reflexivity
  | |- vec _ _ _ => unfold vec at 1; cbv beta
  | |- veci _ _ _ => unfold veci at 1; cbv beta
  | |- all_from _ _ [] => exact I
  | |- all_from ?i ?P (?a :: ?l) => change (P i a /\ all_from (i + 1) P l)
  | |- all_from ?i ?P ?l => let l' := eval hnf in l in change (all_from i P l')
  | |- is_some _ (Some _) => unfold is_some at 1; cbv beta iota
  | |- is_some ?P ?o => let o' := eval hnf in o in change (is_some P o')
  | |- _ = _ => first [reflexivity | vm_compute; reflexivity]
  | |- ?G => let h := head_of G in unfold h; cbv beta zeta
  end.

(** Bytes of a bit string, the last one padded with zeros (to build concrete cases). *)
Fixpoint pack_n (n : nat) (l : list bool) : list Z :=
  match n with
  | O => []
  | S k => bval (firstn 8 (l ++ repeat false 8)) :: pack_n k (skipn 8 l)
  end.
Definition pack (l : list bool) : list Z := pack_n ((length l + 7) / 8) l.
