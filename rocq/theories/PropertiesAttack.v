(** PropertiesAttack.v: a conversation on a network that hands the parties any packets it likes (C83). The vocabulary is in AttackSpec.v: [arun] (the code run
    on a schedule of sends, deliveries, deaths and injected packets), [reals] (the schedule without the injections), [genuine] (the results of the genuine
    deliveries), [none_taken] (no injected packet made a party store a session), [carries]; [xspec], [xconforms], [tame], [returned] and [used_up] are those of
    CutSpec.v, [strangers] and [fair] those of ConvSpec.v, [authentic] that of SessionCallSpec.v. *)
From Verif Require Import Base Labels Crypto Ecc Keys X3dh Messages SessionState SessionRecord SessionBuilder
  SessionCipher Address World GroupSpec ConvSpec ConvProofs3 ThreadSpec CutSpec CutProofs AttackSpec AttackProofs Toy ToySession PropertiesConv PropertiesCut
  WireGrammarSpec CrashSpec SessionCallSpec PropertiesSessionCall.
From Coq Require Import String List.
Import ListNotations.
Local Open Scope list_scope.

(** * C83 *)

(** As long as no injected packet makes a party store a session, the genuine deliveries give what the reference prescribes for the schedule without the
    injections, and no injected packet gives a plaintext. (Up to the first packet that is taken this holds of any run: end the schedule there.) *)
Theorem C83_injections_harmless : forall C, crypto_laws C ->
  forall addr wa wb b i sid signed otk g g1 g2 eph ratchet wa1 g' evs,
  strangers C addr wa wb b i sid signed otk ->
  generate_key_pair C g = (Ok eph, g1) -> generate_key_pair C g1 = (Ok ratchet, g2) ->
  w_process_bundle C (addr Bob) b g wa = (Ok tt, wa1, g') ->
  fair C signed ratchet (map event_of (reals evs)) ->
  none_taken (arun C addr (both wa1 wb) (fun _ => []) evs) ->
  xconforms (genuine (arun C addr (both wa1 wb) (fun _ => []) evs)) (xspec start_view (fun _ => []) (reals evs)) /\
  none_read (arun C addr (both wa1 wb) (fun _ => []) evs).
Proof.
  intros C L addr wa wb b i sid signed otk g g1 g2 eph ratchet wa1 g' evs HS G1 G2 HP HF HT.
  split; [exact (any_attack C L _ _ _ _ _ _ _ _ _ _ _ _ _ _ _ _ HS G1 G2 HP HF HT)|apply none_taken_read; exact HT].
Qed.

(** Every genuine delivery gives the plaintext, or the failure, that it gives in the run without the injections. *)
Theorem C83_same_results : forall C, crypto_laws C ->
  forall addr wa wb b i sid signed otk g g1 g2 eph ratchet wa1 g' evs,
  strangers C addr wa wb b i sid signed otk ->
  generate_key_pair C g = (Ok eph, g1) -> generate_key_pair C g1 = (Ok ratchet, g2) ->
  w_process_bundle C (addr Bob) b g wa = (Ok tt, wa1, g') ->
  fair C signed ratchet (map event_of (reals evs)) ->
  none_taken (arun C addr (both wa1 wb) (fun _ => []) evs) ->
  tame (xspec start_view (fun _ => []) (reals evs)) ->
  returned (genuine (arun C addr (both wa1 wb) (fun _ => []) evs)) = returned (xrun C addr (both wa1 wb) (fun _ => []) (reals evs)) /\
  used_up (genuine (arun C addr (both wa1 wb) (fun _ => []) evs)) = used_up (xrun C addr (both wa1 wb) (fun _ => []) (reals evs)).
Proof.
  intros C L addr wa wb b i sid signed otk g g1 g2 eph ratchet wa1 g' evs HS G1 G2 HP HF HN HT.
  pose proof (any_attack C L _ _ _ _ _ _ _ _ _ _ _ _ _ _ _ _ HS G1 G2 HP HF HN) as H1.
  pose proof (C81_any_schedule_with_crashes C L _ _ _ _ _ _ _ _ _ _ _ _ _ _ _ _ HS G1 G2 HP HF) as H2. split.
  - rewrite (xconforms_returned _ _ H1 HT), (xconforms_returned _ _ H2 HT). reflexivity.
  - rewrite (xconforms_used _ _ H1 HT), (xconforms_used _ _ H2 HT). reflexivity.
Qed.

(** A packet that gives a plaintext or changes the session, after any history of the stores, carries a message whose MAC is valid under the keys of its place
    (C80 says which ones). *)
Theorem C83_taken_is_authentic : forall C, crypto_laws C -> forall w a k g o w', lived C w -> call_fits (DoReceive k g) ->
  receive C a k g w = (o, w') -> (exists q, o = Ok q) \/ w_sessions w' a <> w_sessions w a ->
  exists m key you me, carries k m /\ authentic C key you me m.
Proof.
  intros C L w a k g o w' HL HF HR HC. destruct (C80_every_packet C L w a k g HL HF) as (o1 & d & w1 & HP & HE & HA & _).
  rewrite HR in HE. assert (E1 : o = o1) by exact (f_equal fst HE). assert (E2 : w' = w1) by exact (f_equal snd HE). subst o1 w1.
  eapply packet_authentic; [exact HP|]. destruct HC as [HC|HC]; [left; exact HC|right]. intros E. apply HC. destruct HA as [HA _]. rewrite HA, E. reflexivity.
Qed.

(** * A concrete run *)

Definition packet_of (c : res ct_msg * world) : packet := match fst c with Ok ct => match pack ct with Ok k => k | _ => PSignal [] end | _ => PSignal [] end.
(** Another last byte: of a message, the last byte of its MAC. *)
Definition spoiled (k : packet) : packet :=
  let f b := removelast b ++ [if Byte.eqb (last b x00) x00 then x01 else x00] in match k with PSignal b => PSignal (f b) | PPreKey b => PPreKey (f b) end.
Definition prekey_one : packet := packet_of (w_encrypt toy (toy_addr Bob) (str "one") alice1).

(** Bob is given garbage of both kinds, Alice's first packet with its last byte changed, and, after reading it, the packet itself once more; Alice is given a
    packet of hers. Later each is given the other's message with a changed MAC, before and after the genuine one. *)
Definition hi_wire : bytes := Eval vm_compute in
  match packet_of (w_encrypt toy (toy_addr Alice) (str "hi") (snd (receive toy (toy_addr Alice) prekey_one [tseed x22] bob0))) with PSignal b | PPreKey b => b end.
Definition toy_aevs : list aevent :=
  [Inject Bob (PSignal []) []; Inject Bob (PPreKey (str "garbage")) []; Real (Do (Send Alice (str "one"))); Inject Bob (spoiled prekey_one) [tseed x31];
   Inject Alice prekey_one [tseed x32]; Real (Cut (Deliver Bob 0 [tseed x21]) 1); Real (Do (Deliver Bob 0 [tseed x22])); Inject Bob prekey_one [tseed x33];
   Real (Do (Send Bob (str "hi"))); Inject Alice (spoiled (PSignal hi_wire)) [tseed x34]; Real (Do (Deliver Alice 0 [tseed x26])); Inject Alice (PSignal hi_wire) [tseed x35];
   Real (Do (Send Alice (str "four"))); Real (Do (Deliver Bob 1 [tseed x27]))].

Example toy_afair : fair toy (tkey x72) toy_ratchet (map event_of (reals toy_aevs)).
Proof.
  split; [apply nodup_by; vm_compute; reflexivity|]. split; [|split; [reflexivity|]].
  - intros g H. cbn in H. repeat (destruct H as [<-|H]; [vm_compute; discriminate|]). destruct H.
  - intros pt H. cbn in H. repeat (destruct H as [<-|H]; [reflexivity|]). destruct H.
Qed.

Definition toy_aresults : list aresult :=
  [Injected Bob (Err EInputTooSmall) false; Injected Bob (Err EProto) false; Injected Bob Panic false; Injected Alice (Err ENoValidSessions) false;
   Genuine (Bob, 0%nat, Died false); Genuine (Bob, 0%nat, Returned (Ok (str "one"))); Injected Bob (Err ENoValidSessions) false;
   Injected Alice (Err ENoValidSessions) false; Genuine (Alice, 0%nat, Returned (Ok (str "hi"))); Injected Alice (Err ENoValidSessions) false;
   Genuine (Bob, 1%nat, Returned (Ok (str "four")))].
Example toy_arun : arun toy toy_addr (both alice1 bob0) (fun _ => []) toy_aevs = toy_aresults.
Proof. vm_compute. reflexivity. Qed.
Example toy_none_taken : none_taken (arun toy toy_addr (both alice1 bob0) (fun _ => []) toy_aevs).
Proof. rewrite toy_arun. unfold none_taken, toy_aresults. repeat constructor. Qed.
Example toy_atame : tame (xspec start_view (fun _ => []) (reals toy_aevs)).
Proof. intros p i. split; intros H; vm_compute in H; repeat (destruct H as [H|H]; [discriminate H|]); destruct H. Qed.

Print Assumptions C83_injections_harmless.
Print Assumptions C83_same_results.
Print Assumptions C83_taken_is_authentic.
