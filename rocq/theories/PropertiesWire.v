(** PropertiesWire.v: every byte string given to the four message parsers (C78). *)
From Verif Require Import Base Ecc Wire Messages WireGrammarSpec WireGrammarProofs WireFateProofs.
From Coq Require Import ZArith NArith List Lia.
Import ListNotations.
Local Open Scope N_scope.

(** ** C78: NewSignalMessageFromBytes, NewPreKeySignalMessageFromBytes, NewSenderKeyMessageFromBytes and
    NewSenderKeyDistributionMessageFromBytes do with every byte string what the grammar says. *)
Theorem C78_signal_message : forall l o, signal_fate l o <-> sig_from_bytes l = o.
Proof. intros l o. split; [apply signal_fate_sound|intros <-; apply signal_fate_total]. Qed.
Theorem C78_prekey_message : forall l o, prekey_fate l o <-> pk_from_bytes l = o.
Proof. intros l o. split; [apply prekey_fate_sound|intros <-; apply prekey_fate_total]. Qed.
Theorem C78_group_message : forall l o, group_fate l o <-> skm_from_bytes l = o.
Proof. intros l o. split; [apply group_fate_sound|intros <-; apply group_fate_total]. Qed.
Theorem C78_distribution_message : forall l o, distribution_fate l o <-> skd_from_bytes l = o.
Proof. intros l o. split; [apply distribution_fate_sound|intros <-; apply distribution_fate_total]. Qed.

(** Every byte string has exactly one fate. *)
Theorem C78_one_fate : forall l,
  (exists o, signal_fate l o /\ forall o', signal_fate l o' -> o' = o) /\ (exists o, prekey_fate l o /\ forall o', prekey_fate l o' -> o' = o) /\
  (exists o, group_fate l o /\ forall o', group_fate l o' -> o' = o) /\ (exists o, distribution_fate l o /\ forall o', distribution_fate l o' -> o' = o).
Proof.
  intros l. split; [|split; [|split]]; eexists; (split; [|intros o' H; symmetry]).
  - apply signal_fate_total.
  - apply signal_fate_sound. exact H.
  - apply prekey_fate_total.
  - apply prekey_fate_sound. exact H.
  - apply group_fate_total.
  - apply group_fate_sound. exact H.
  - apply distribution_fate_total.
  - apply distribution_fate_sound. exact H.
Qed.

(** The grammar is unambiguous for every schema in which a number has one kind. *)
Theorem C78_unambiguous : forall S l fs fs', (forall t k k', In (t, k) S -> In (t, k') S -> k = k') -> message S l fs -> message S l fs' -> fs = fs'.
Proof.
  intros S l fs fs' F M M'.
  pose (kinds := fun t => match find (fun p => fst p =? t) S with Some (_, k) => Some k | None => None end).
  assert (A : agrees kinds S).
  { intros t k. unfold kinds. split.
    - intros H. destruct (find (fun p => fst p =? t) S) as [[t' k']|] eqn:E; [|discriminate H]. injection H as <-. apply find_some in E. cbn [fst] in E.
      destruct E as (HI & E). apply N.eqb_eq in E. subst. exact HI.
    - intros H. destruct (find (fun p => fst p =? t) S) as [[t' k']|] eqn:E.
      + apply find_some in E. cbn [fst] in E. destruct E as (HI & E). apply N.eqb_eq in E. subst. f_equal. eapply F; eassumption.
      + pose proof (find_none _ _ E _ H) as K. cbn [fst] in K. rewrite N.eqb_refl in K. discriminate K. }
  apply (unmarshal_spec _ _ A) in M. apply (unmarshal_spec _ _ A) in M'. congruence.
Qed.

Lemma numbers_cut : forall S t n n' p p' l l' fs, varint (t * 8) p -> In (t, KUint32) S -> (forall k, In (t, k) S -> k = KUint32) -> t <> 0 ->
  (exists q, varint n q /\ l' = p ++ q ++ l) -> varint n' p' -> n' mod 2 ^ 32 = n mod 2 ^ 32 ->
  message S l' fs -> (forall t k k', In (t, k) S -> In (t, k') S -> k = k') -> message S (p ++ p' ++ l) fs.
Proof.
  intros S t n n' p p' l l' fs V HI HK T (q & Vq & ->) V' E M F.
  assert (X8 : t * 8 / 8 = t) by (apply N.div_mul; lia). assert (X0 : (t * 8) mod 8 = 0) by (apply N.mod_mul; lia).
  assert (B : forall m r, varint m r -> forall gs, message S l gs -> message S (p ++ r ++ l) ((t, FUint (m mod 2 ^ 32)) :: gs)).
  { intros m r Vr gs G. rewrite <- X8. eapply message_known with (k := KUint32); [exact V|rewrite X8; exact T|rewrite X8; exact HI|exact X0|constructor; exact Vr|exact G]. }
  assert (exists gs, message S l gs /\ fs = (t, FUint (n mod 2 ^ 32)) :: gs) as (gs & G & ->).
  { pose (kinds := fun t => match find (fun p => fst p =? t) S with Some (_, k) => Some k | None => None end).
    assert (A : agrees kinds S).
    { intros u k. unfold kinds. split.
      - intros H. destruct (find (fun p => fst p =? u) S) as [[t' k']|] eqn:EF; [|discriminate H]. injection H as <-. apply find_some in EF. cbn [fst] in EF.
        destruct EF as (HJ & EF). apply N.eqb_eq in EF. subst. exact HJ.
      - intros H. destruct (find (fun p => fst p =? u) S) as [[t' k']|] eqn:EF.
        + apply find_some in EF. cbn [fst] in EF. destruct EF as (HJ & EF). apply N.eqb_eq in EF. subst. f_equal. eapply F; eassumption.
        + pose proof (find_none _ _ EF _ H) as K. cbn [fst] in K. rewrite N.eqb_refl in K. discriminate K. }
    pose proof (loop_complete _ _ A _ _ M (Datatypes.S (length (p ++ q ++ l))) (le_S _ _ (le_n _))) as U.
    pose proof (dec_varint_app _ _ (q ++ l) V) as D. pose proof (varint_nonempty _ _ V) as P.
    destruct (p ++ q ++ l) as [|c rest] eqn:EL; [destruct p; [cbn in P; lia|discriminate EL]|].
    cbn [unmarshal_loop] in U. rewrite D in U. cbv zeta in U. rewrite X8, X0 in U.
    destruct (t =? 0) eqn:E0; [apply N.eqb_eq in E0; contradiction|]. apply A in HI. rewrite HI in U. cbn [dec_known] in U. change (0 =? wt_varint) with true in U. cbv iota in U.
    rewrite (dec_varint_app _ _ l Vq) in U. destruct (unmarshal_loop kinds (length (c :: rest)) l) as [gs|] eqn:UL; [|discriminate U].
    exists gs. split; [eapply loop_sound; eassumption|]. exact (eq_sym (f_equal (fun o => match o with Some x => x | None => [] end) U)). }
  rewrite <- E. apply B; assumption.
Qed.

(** Numbers are cut to 32 bits: replacing the encoding of a number, in the first field of what is still to be read, by that of a number larger
    by a multiple of 2^32, or by a longer encoding of the same number, changes nothing of what is read. *)
Theorem C78_numbers_cut : forall S t n n' p q q' l fs, (forall t k k', In (t, k) S -> In (t, k') S -> k = k') -> In (t, KUint32) S -> t <> 0 ->
  varint (t * 8) p -> varint n q -> varint n' q' -> n' mod 2 ^ 32 = n mod 2 ^ 32 ->
  message S (p ++ q ++ l) fs <-> message S (p ++ q' ++ l) fs.
Proof.
  intros S t n n' p q q' l fs F HI T V Vq Vq' E.
  assert (HK : forall k, In (t, k) S -> k = KUint32) by (intros k H; eapply F; eassumption).
  split; intros M; eapply numbers_cut; try eassumption; try (eexists; split; [eassumption|reflexivity]). symmetry. exact E.
Qed.
Example C78_numbers_cut_example : message signal_schema ([x10] ++ [x05] ++ []) [(2, FUint 5)] /\ varint 16 [x10] /\ varint 5 [x05] /\ varint (5 + 2 ^ 32) [x85; x80; x80; x80; x10].
Proof.
  assert (V : forall n l, dec_varint l = Some (n, []) -> varint n l) by (intros n l D; apply dec_varint_spec in D; destruct D as (p & -> & W); rewrite app_nil_r; exact W).
  split; [apply (unmarshal_spec _ _ sig_agrees); reflexivity|]. split; [|split]; apply V; reflexivity.
Qed.

(** A message with a group inside an unknown field, a known field with another wire type, a repeated field, an over-long and over-large counter. *)
Definition odd_body : bytes :=
  [x4b; x08; x01; x53; x54; x4c]              (* field 9: group with a varint and a nested group *)
  ++ [x0d; x01; x02; x03; x04]                (* field 1 as fixed32: skipped *)
  ++ [x22; x01; x61]                          (* field 4: "a" *)
  ++ [x10; x85; x80; x80; x80; x90; x00]      (* field 2: 5 + 2^32, over-long *)
  ++ [x0a; x03; x05; x07; x08]                (* field 1: key 07 08 00 .. *)
  ++ [x22; x02; x62; x63].                    (* field 4 again: "bc" *)
Example C78_example :
  signal_fate (x3f :: odd_body ++ repeat x09 8)
    (Ok {| sm_struct := {| sg_ratchet := Some [x05; x07; x08]; sg_counter := 5; sg_prev := 0; sg_ct := Some [x62; x63]; sg_version := 3; sg_mac := Some (repeat x09 8) |};
           sm_ratchet := to_arr 32 [x07; x08] |}) /\
  signal_fate (x33 :: [x07] ++ repeat x09 8) (Err EProto) /\ prekey_fate [] Panic /\ prekey_fate [x33] (Err EIncomplete) /\ group_fate (x11 :: repeat x00 64) (Err ELegacy) /\
  distribution_fate [x33; x1a; x00; x22; x00] Panic.
Proof. split; [|split; [|split; [|split; [|split]]]]; [apply C78_signal_message|apply C78_signal_message|apply C78_prekey_message|apply C78_prekey_message|apply C78_group_message|apply C78_distribution_message]; reflexivity. Qed.
Example C78_not_in_the_grammar : (forall fs, ~ message signal_schema [x07] fs) /\ (forall fs, ~ message signal_schema [x22; x05; x61] fs) /\ (forall fs, ~ message signal_schema [x00; x00] fs) /\
  message signal_schema odd_body [(4, FBytes [x61]); (2, FUint 5); (1, FBytes [x05; x07; x08]); (4, FBytes [x62; x63])].
Proof.
  split; [|split; [|split]]; [intros fs M; apply (unmarshal_spec _ _ sig_agrees) in M; discriminate M..|]. apply (unmarshal_spec _ _ sig_agrees). reflexivity.
Qed.

Print Assumptions C78_signal_message.
Print Assumptions C78_prekey_message.
Print Assumptions C78_group_message.
Print Assumptions C78_distribution_message.
Print Assumptions C78_one_fate.
Print Assumptions C78_unambiguous.
Print Assumptions C78_numbers_cut.
