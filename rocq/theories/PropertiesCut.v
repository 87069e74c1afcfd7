(** PropertiesCut.v: a conversation in which the process dies in the middle of calls and is started again on its stores (C81). The vocabulary is in
    CutSpec.v: [xrun] (the code run on a schedule in which calls may die after their first writes), [xspec] (what must come out), [xconforms],
    [used_up], [returned], [without_early], [lost_sends]; [strangers] and [fair] are those of ConvSpec.v. *)
From Verif Require Import Base Labels Crypto Ecc Keys X3dh Messages SessionState SessionRecord SessionBuilder
  SessionCipher Address World GroupSpec ConvSpec ConvProofs3 ThreadSpec CutSpec CutProofs Toy ToySession PropertiesConv.
From Coq Require Import String List.
Import ListNotations.
Local Open Scope list_scope.

(** * C81 *)

(** Any schedule of sends and deliveries with loss, duplication and reordering, any call of which may die after any number of its writes. *)
Theorem C81_any_schedule_with_crashes : forall C, crypto_laws C ->
  forall addr wa wb b i sid signed otk g g1 g2 eph ratchet wa1 g' evs,
  strangers C addr wa wb b i sid signed otk ->
  generate_key_pair C g = (Ok eph, g1) -> generate_key_pair C g1 = (Ok ratchet, g2) ->
  w_process_bundle C (addr Bob) b g wa = (Ok tt, wa1, g') ->
  fair C signed ratchet (map event_of evs) ->
  xconforms (xrun C addr (both wa1 wb) (fun _ => []) evs) (xspec start_view (fun _ => []) evs).
Proof.
  intros C L addr wa wb b i sid signed otk g g1 g2 eph ratchet wa1 g' evs HS G1 G2 HP HF.
  apply (any_cut_schedule C L addr wa wb b i sid signed otk g g1 g2 eph ratchet wa1 g' wa1 evs); auto. repeat split.
Qed.

(** The same from a ProcessBundle that died with at least one write made. *)
Theorem C81_after_a_cut_bundle : forall C, crypto_laws C ->
  forall addr wa wb b i sid signed otk g g1 g2 eph ratchet wa1 g' n evs,
  strangers C addr wa wb b i sid signed otk ->
  generate_key_pair C g = (Ok eph, g1) -> generate_key_pair C g1 = (Ok ratchet, g2) ->
  w_process_bundle C (addr Bob) b g wa = (Ok tt, wa1, g') -> (1 <= n)%nat ->
  fair C signed ratchet (map event_of evs) ->
  xconforms (xrun C addr (both (cut_call C (addr Bob) (DoBundle b g) n wa) wb) (fun _ => []) evs) (xspec start_view (fun _ => []) evs).
Proof.
  intros C L addr wa wb b i sid signed otk g g1 g2 eph ratchet wa1 g' n evs HS G1 G2 HP Hn HF.
  apply (any_cut_schedule C L addr wa wb b i sid signed otk g g1 g2 eph ratchet wa1 g' (cut_call C (addr Bob) (DoBundle b g) n wa) evs); auto.
  exact (cut_bundle C (addr Bob) b g wa wa1 g' n HP Hn).
Qed.

(** No message is used up twice: a plaintext that was returned, or that was lost in a death after the session was stored, is never returned (again). *)
Theorem C81_at_most_once : forall C, crypto_laws C ->
  forall addr wa wb b i sid signed otk g g1 g2 eph ratchet wa1 g' evs,
  strangers C addr wa wb b i sid signed otk ->
  generate_key_pair C g = (Ok eph, g1) -> generate_key_pair C g1 = (Ok ratchet, g2) ->
  w_process_bundle C (addr Bob) b g wa = (Ok tt, wa1, g') ->
  fair C signed ratchet (map event_of evs) ->
  tame (xspec start_view (fun _ => []) evs) ->
  NoDup (used_up (xrun C addr (both wa1 wb) (fun _ => []) evs)).
Proof.
  intros C L addr wa wb b i sid signed otk g g1 g2 eph ratchet wa1 g' evs HS G1 G2 HP HF HT.
  rewrite (xconforms_used _ _ (C81_any_schedule_with_crashes C L _ _ _ _ _ _ _ _ _ _ _ _ _ _ _ _ HS G1 G2 HP HF) HT). apply xonce_start.
Qed.

(** Calls that die with at most one write made change nothing: every completed delivery returns what it returns in the run without them. *)
Theorem C81_early_crash_harmless : forall C, crypto_laws C ->
  forall addr wa wb b i sid signed otk g g1 g2 eph ratchet wa1 g' evs,
  strangers C addr wa wb b i sid signed otk ->
  generate_key_pair C g = (Ok eph, g1) -> generate_key_pair C g1 = (Ok ratchet, g2) ->
  w_process_bundle C (addr Bob) b g wa = (Ok tt, wa1, g') ->
  fair C signed ratchet (map event_of evs) ->
  tame (xspec start_view (fun _ => []) evs) ->
  returned (xrun C addr (both wa1 wb) (fun _ => []) evs) = returned (xrun C addr (both wa1 wb) (fun _ => []) (without_early evs)).
Proof.
  intros C L addr wa wb b i sid signed otk g g1 g2 eph ratchet wa1 g' evs HS G1 G2 HP HF HT.
  rewrite (xconforms_returned _ _ (C81_any_schedule_with_crashes C L _ _ _ _ _ _ _ _ _ _ _ _ _ _ _ _ HS G1 G2 HP HF) HT).
  rewrite (xconforms_returned _ _ (C81_any_schedule_with_crashes C L _ _ _ _ _ _ _ _ _ _ _ _ _ _ _ (without_early evs) HS G1 G2 HP (fair_without_early _ _ _ _ HF))
    (tame_without_early _ _ _ HT)).
  symmetry. apply spec_without_early.
Qed.

(** When each party is given the other's messages in the order they were sent (a delivery that dies early may be repeated), and at most 5000 Encrypt calls
    died after storing the session: no completed delivery fails, each returns the plaintext sent, and a delivery that dies late has used up its message. *)
Theorem C81_in_order : forall C, crypto_laws C ->
  forall addr wa wb b i sid signed otk g g1 g2 eph ratchet wa1 g' evs,
  strangers C addr wa wb b i sid signed otk ->
  generate_key_pair C g = (Ok eph, g1) -> generate_key_pair C g1 = (Ok ratchet, g2) ->
  w_process_bundle C (addr Bob) b g wa = (Ok tt, wa1, g') ->
  fair C signed ratchet (map event_of evs) ->
  (lost_sends evs <= 5000)%nat ->
  let calm := xspec start_view (fun _ => []) (without_early evs) in
  let run := xrun C addr (both wa1 wb) (fun _ => []) evs in
  (forall p, delivered p calm = seq 0 (length (delivered p calm))) ->
  Forall (fun y => match snd y with Returned o => exists pt, o = Ok pt | Died _ => True end) run /\
  map seen run = xspec start_view (fun _ => []) evs.
Proof.
  intros C L addr wa wb b i sid signed otk g g1 g2 eph ratchet wa1 g' evs HS G1 G2 HP HF HL calm run HD. subst calm run.
  destruct (xconforms_seen _ _ (C81_any_schedule_with_crashes C L _ _ _ _ _ _ _ _ _ _ _ _ _ _ _ _ HS G1 G2 HP HF) (in_order_reads _ HL HD)) as [A B].
  split; assumption.
Qed.

(** * A concrete conversation *)

(** Alice's second Encrypt dies after storing the session and its message is never sent; her third is repeated after an early death. Bob's first delivery
    dies before the session is stored and is repeated; his second dies after it, and delivering the same bytes again fails. Alice's delivery of the answer
    dies after one write. *)
Definition toy_xevs : list xevent :=
  [Do (Send Alice (str "one")); Cut (Send Alice (str "two")) 2; Cut (Send Alice (str "three")) 1; Do (Send Alice (str "three"));
   Cut (Deliver Bob 0 [tseed x21]) 1; Do (Deliver Bob 0 [tseed x22]); Cut (Deliver Bob 1 [tseed x23]) 2; Do (Deliver Bob 1 [tseed x24]);
   Do (Send Bob (str "hi")); Cut (Deliver Alice 0 [tseed x25]) 1; Do (Deliver Alice 0 [tseed x26]); Do (Send Alice (str "four")); Do (Deliver Bob 2 [tseed x27])].

Example toy_xfair : fair toy (tkey x72) toy_ratchet (map event_of toy_xevs).
Proof.
  split; [apply nodup_by; vm_compute; reflexivity|]. split; [|split; [reflexivity|]].
  - intros g H. cbn in H. repeat (destruct H as [<-|H]; [vm_compute; discriminate|]). destruct H.
  - intros pt H. cbn in H. repeat (destruct H as [<-|H]; [reflexivity|]). destruct H.
Qed.

Example toy_xspec : xspec start_view (fun _ => []) toy_xevs =
  [(Bob, 0%nat, Nothing); (Bob, 0%nat, Seen (Plain (str "one"))); (Bob, 1%nat, Gone); (Bob, 1%nat, Seen Refused); (Alice, 0%nat, Nothing);
   (Alice, 0%nat, Seen (Plain (str "hi"))); (Bob, 2%nat, Seen (Plain (str "four")))].
Proof. vm_compute. reflexivity. Qed.

Example toy_tame : tame (xspec start_view (fun _ => []) toy_xevs).
Proof.
  rewrite toy_xspec. intros p i. split; intros H; repeat (destruct H as [H|H]; [discriminate H|]); destruct H.
Qed.

Example toy_xrun : map (fun y => snd y) (xrun toy toy_addr (both alice1 bob0) (fun _ => []) toy_xevs) =
  [Died false; Returned (Ok (str "one")); Died true; Returned (Err ENoValidSessions); Died false; Returned (Ok (str "hi")); Returned (Ok (str "four"))].
Proof. vm_compute. reflexivity. Qed.

(** The in-order hypothesis is met by the same schedule without the repeated delivery of "three". *)
Definition toy_ordered : list xevent := firstn 7 toy_xevs ++ skipn 8 toy_xevs.
Example toy_ordered_ok : let calm := xspec start_view (fun _ => []) (without_early toy_ordered) in
  (forall p, delivered p calm = seq 0 (length (delivered p calm))) /\ lost_sends toy_ordered = 1%nat.
Proof. split; [intros []; vm_compute; reflexivity|reflexivity]. Qed.

Print Assumptions C81_any_schedule_with_crashes.
Print Assumptions C81_after_a_cut_bundle.
Print Assumptions C81_at_most_once.
Print Assumptions C81_early_crash_harmless.
Print Assumptions C81_in_order.
