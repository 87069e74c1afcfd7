(** PropertiesTrust.v: conversations under identity stores that trust a key on first use, as the store of tests/stores.go does (C85). The vocabulary is in
    TrustSpec.v: [first_use] and [no_change] (policies), [credulous] (the same stores, trusting every key: "[strangers] but for whom they trust"),
    [knows_no_other], [injected_to]; [xrun], [xspec], [xconforms], [tame] are those of CutSpec.v, [arun], [genuine], [none_taken], [reals] those of
    AttackSpec.v, [nrun], [nspec], [well_cast], [fair_all] those of ManySpec.v, [strangers], [fair] and [start_view] those of ConvSpec.v. *)
From Verif Require Import Base Labels Crypto Ecc Keys X3dh Messages SessionState SessionRecord SessionBuilder
  SessionCipher Address World GroupSpec ConvSpec ConvProofs3 ThreadSpec CutSpec CutProofs AttackSpec AttackProofs ManySpec ManyProofs TrustSpec TrustProofs
  Toy ToySession PropertiesConv PropertiesCut PropertiesAttack PropertiesMany.
From Coq Require Import String List Lia.
Import ListNotations.
Local Open Scope list_scope.

(** The policy of tests/stores.go trusts on first use, and nothing else. *)
Theorem C85_test_store : first_use test_store_policy /\ no_change test_store_policy.
Proof.
  split; intros saved a k; unfold test_store_policy.
  - intros [-> | ->]; [reflexivity|apply arr_eqb_refl].
  - destruct (saved a) as [k'|]; [|left; reflexivity]. intros H. right. f_equal. apply arr_eqb_eq. exact H.
Qed.

(** ProcessBundle succeeds if nothing, or the key of the bundle's owner, is saved for the address. *)
Theorem C85_first_contact : forall C, crypto_laws C ->
  forall addr wa wb b i sid signed otk g g1 g2 eph ratchet,
  strangers C addr (credulous wa) (credulous wb) b i sid signed otk -> verify_signature C (b_identity b) (ser_pub (x_base C signed)) (b_sig b) = true ->
  generate_key_pair C g = (Ok eph, g1) -> generate_key_pair C g1 = (Ok ratchet, g2) ->
  first_use (w_policy wa) -> knows_no_other wa (addr Bob) wb ->
  exists wa1 g', w_process_bundle C (addr Bob) b g wa = (Ok tt, wa1, g').
Proof.
  intros C L addr wa wb b i sid signed otk g g1 g2 eph ratchet HS HV G1 G2 HU HK.
  destruct (bundle_accepted C L _ _ _ _ _ _ _ _ _ _ _ _ _ HS (fun _ => eq_refl) HV G1 G2) as (ea1 & g' & HP).
  assert (HT : w_policy wa (w_saved wa) (addr Bob) (b_identity b) = true) by (apply HU; rewrite (st_b_identity _ _ _ _ _ _ _ _ _ HS); exact HK).
  destruct (bundle_credulous C _ _ _ _ _ _ _ HT HP) as (wa1 & HP' & _). exists wa1, g'. exact HP'.
Qed.

(** The whole conversation, with deaths of the processes: as C06 and C81 say for stores that trust everybody. *)
Theorem C85_conversation : forall C, crypto_laws C ->
  forall addr wa wb b i sid signed otk g g1 g2 eph ratchet wa1 g' evs,
  strangers C addr (credulous wa) (credulous wb) b i sid signed otk -> generate_key_pair C g = (Ok eph, g1) -> generate_key_pair C g1 = (Ok ratchet, g2) ->
  w_process_bundle C (addr Bob) b g wa = (Ok tt, wa1, g') -> fair C signed ratchet (map event_of evs) ->
  first_use (w_policy wb) -> knows_no_other wb (addr Alice) wa ->
  xconforms (xrun C addr (both wa1 wb) (fun _ => []) evs) (xspec start_view (fun _ => []) evs).
Proof. exact trust_schedule. Qed.

(** No message is used twice. *)
Theorem C85_at_most_once : forall C, crypto_laws C ->
  forall addr wa wb b i sid signed otk g g1 g2 eph ratchet wa1 g' evs,
  strangers C addr (credulous wa) (credulous wb) b i sid signed otk -> generate_key_pair C g = (Ok eph, g1) -> generate_key_pair C g1 = (Ok ratchet, g2) ->
  w_process_bundle C (addr Bob) b g wa = (Ok tt, wa1, g') -> fair C signed ratchet (map event_of evs) ->
  first_use (w_policy wb) -> knows_no_other wb (addr Alice) wa -> tame (xspec start_view (fun _ => []) evs) ->
  NoDup (used_up (xrun C addr (both wa1 wb) (fun _ => []) evs)).
Proof.
  intros C L addr wa wb b i sid signed otk g g1 g2 eph ratchet wa1 g' evs HS G1 G2 HP HF HU HK HT.
  rewrite (xconforms_used _ _ (trust_schedule C L _ _ _ _ _ _ _ _ _ _ _ _ _ _ _ _ HS G1 G2 HP HF HU HK) HT). apply xonce_start.
Qed.

(** On a network that hands Alice any packets it likes, or that hands them to both where Alice's key is already saved in Bob's stores: as C83 says for
    stores that trust everybody. *)
Theorem C85_injections_harmless : forall C, crypto_laws C ->
  forall addr wa wb b i sid signed otk g g1 g2 eph ratchet wa1 g' evs,
  strangers C addr (credulous wa) (credulous wb) b i sid signed otk -> generate_key_pair C g = (Ok eph, g1) -> generate_key_pair C g1 = (Ok ratchet, g2) ->
  w_process_bundle C (addr Bob) b g wa = (Ok tt, wa1, g') -> fair C signed ratchet (map event_of (reals evs)) ->
  first_use (w_policy wb) -> knows_no_other wb (addr Alice) wa ->
  ~ injected_to Bob evs \/ (no_change (w_policy wb) /\ w_saved wb (addr Alice) = Some (ip_pub (w_self wa))) ->
  none_taken (arun C addr (both wa1 wb) (fun _ => []) evs) ->
  xconforms (genuine (arun C addr (both wa1 wb) (fun _ => []) evs)) (xspec start_view (fun _ => []) (reals evs)).
Proof. exact trust_attack. Qed.

(** Any number of parties and conversations: as C84 says. *)
Theorem C85_many_conversations : forall C, crypto_laws C -> forall T n w evs, well_cast C T n (fun j => credulous (w j)) -> fair_all C T n evs ->
  (forall c p, (c < n)%nat -> first_use (w_policy (w (who T c p))) /\ knows_no_other (w (who T c p)) (address_in T c (other p)) (w (who T c (other p)))) ->
  nconforms (nrun C T w (fun _ _ => []) evs) (nspec (fun _ => None) evs).
Proof. exact trust_many_start. Qed.

(** * Concrete runs *)

Definition trusting (P : policy) (w : world) : world :=
  {| w_sessions := w_sessions w; w_saved := w_saved w; w_prekeys := w_prekeys w; w_signed := w_signed w; w_self := w_self w; w_reg := w_reg w; w_policy := P |}.
Definition knowing (a : address) (k : arr32) (w : world) : world :=
  {| w_sessions := w_sessions w; w_saved := upd_addr (w_saved w) a (Some k); w_prekeys := w_prekeys w; w_signed := w_signed w; w_self := w_self w; w_reg := w_reg w; w_policy := w_policy w |}.
Definition tofu_alice : world := trusting test_store_policy alice0.
Definition tofu_bob : world := trusting test_store_policy bob0.
(** Bob's stores with Alice's key verified and saved beforehand. *)
Definition sure_bob : world := knowing alice_addr (tkey xa0) tofu_bob.
Definition tofu_alice1 : world := snd (fst (w_process_bundle toy bob_addr bob_bundle [tseed x11; tseed x12] tofu_alice)).

Example tofu_strangers : strangers toy toy_addr (credulous tofu_alice) (credulous tofu_bob) bob_bundle 7 9 (tkey x72) (tkey x71).
Proof. split; try reflexivity; discriminate. Qed.
Example sure_strangers : strangers toy toy_addr (credulous tofu_alice) (credulous sure_bob) bob_bundle 7 9 (tkey x72) (tkey x71).
Proof. split; try reflexivity; discriminate. Qed.
Example tofu_known : knows_no_other tofu_alice (toy_addr Bob) tofu_bob /\ knows_no_other tofu_bob (toy_addr Alice) tofu_alice /\ w_saved sure_bob (toy_addr Alice) = Some (ip_pub (w_self tofu_alice)).
Proof. split; [left; reflexivity|]. split; [left; reflexivity|reflexivity]. Qed.
Example tofu_bundle : fst (fst (w_process_bundle toy bob_addr bob_bundle [tseed x11; tseed x12] tofu_alice)) = Ok tt.
Proof. vm_compute. reflexivity. Qed.
(** The key is saved, and another one refused from then on. *)
Example tofu_saves : w_saved tofu_alice1 bob_addr = Some (tkey xb0) /\ w_policy tofu_alice1 (w_saved tofu_alice1) bob_addr (tkey x66) = false.
Proof. split; vm_compute; reflexivity. Qed.
Example tofu_run : map (fun y => snd y) (xrun toy toy_addr (both tofu_alice1 tofu_bob) (fun _ => []) toy_xevs) = map (fun y => snd y) (xrun toy toy_addr (both alice1 bob0) (fun _ => []) toy_xevs).
Proof. vm_compute. reflexivity. Qed.
(** The same injections as in PropertiesAttack.v; Alice's own packet, handed to her, is now refused for its identity key. *)
Example sure_run : arun toy toy_addr (both tofu_alice1 sure_bob) (fun _ => []) toy_aevs =
  firstn 3 toy_aresults ++ Injected Alice (Err EUntrusted) false :: skipn 4 toy_aresults.
Proof. vm_compute. reflexivity. Qed.
Example sure_none_taken : none_taken (arun toy toy_addr (both tofu_alice1 sure_bob) (fun _ => []) toy_aevs).
Proof. rewrite sure_run. unfold none_taken, toy_aresults. cbn [firstn skipn app]. repeat constructor. Qed.

Example tofu_cast : well_cast toy many_cast 4 (fun n => credulous (trusting test_store_policy (many_world n))).
Proof. exact many_well_cast. Qed.
Example tofu_cast_trust : forall c p, (c < 4)%nat -> let w := fun n => trusting test_store_policy (many_world n) in
  first_use (w_policy (w (who many_cast c p))) /\ knows_no_other (w (who many_cast c p)) (address_in many_cast c (other p)) (w (who many_cast c (other p))).
Proof. intros c p _. split; [exact (proj1 C85_test_store)|left; reflexivity]. Qed.

(** * Without a saved key Bob is not safe from injected packets, even from such as he does not take

    Somebody else's first packet, with its MAC spoiled, takes Alice's place (C74): nothing is stored by it but the key. *)
Definition mallory1 : world := snd (fst (w_process_bundle toy bob_addr bob_bundle [tseed x13; tseed x14] (toy_world x66))).
Definition spoil_mac (k : packet) : packet :=
  match k with PSignal b => PSignal b | PPreKey b => let n := (length b - 5)%nat in PPreKey (firstn n b ++ [if Byte.eqb (nth n b x00) x00 then x01 else x00] ++ skipn (S n) b) end.
Definition usurping : packet := spoil_mac (packet_of (w_encrypt toy bob_addr (str "me") mallory1)).
Definition usurped : list aevent := [Real (Do (Send Alice (str "one"))); Inject Bob usurping [tseed x31]; Real (Do (Deliver Bob 0 [tseed x22]))].

Example usurped_run : arun toy toy_addr (both tofu_alice1 tofu_bob) (fun _ => []) usurped =
  [Injected Bob (Err ENoValidSessions) false; Genuine (Bob, 0%nat, Returned (Err EUntrusted))].
Proof. vm_compute. reflexivity. Qed.

Theorem C85_unverified_refuted : exists C, crypto_laws C /\ exists addr wa wb b i sid signed otk g g1 g2 eph ratchet wa1 g' evs,
  strangers C addr (credulous wa) (credulous wb) b i sid signed otk /\ generate_key_pair C g = (Ok eph, g1) /\ generate_key_pair C g1 = (Ok ratchet, g2) /\
  w_process_bundle C (addr Bob) b g wa = (Ok tt, wa1, g') /\ fair C signed ratchet (map event_of (reals evs)) /\
  first_use (w_policy wb) /\ no_change (w_policy wb) /\ knows_no_other wb (addr Alice) wa /\
  none_taken (arun C addr (both wa1 wb) (fun _ => []) evs) /\
  ~ xconforms (genuine (arun C addr (both wa1 wb) (fun _ => []) evs)) (xspec start_view (fun _ => []) (reals evs)).
Proof.
  exists toy. split; [exact toy_laws|]. exists toy_addr, tofu_alice, tofu_bob, bob_bundle, 7%N, 9%N, (tkey x72), (tkey x71), [tseed x11; tseed x12], [tseed x12], [], toy_eph, toy_ratchet, tofu_alice1, [], usurped.
  split; [exact tofu_strangers|]. split; [exact (proj1 toy_hyps)|]. split; [exact (proj1 (proj2 toy_hyps))|]. split.
  { assert (E1 : fst (fst (w_process_bundle toy bob_addr bob_bundle [tseed x11; tseed x12] tofu_alice)) = Ok tt) by exact tofu_bundle.
    assert (E2 : snd (w_process_bundle toy bob_addr bob_bundle [tseed x11; tseed x12] tofu_alice) = []) by (vm_compute; reflexivity).
    change (toy_addr Bob) with bob_addr. unfold tofu_alice1. destruct (w_process_bundle toy bob_addr bob_bundle [tseed x11; tseed x12] tofu_alice) as [[o w'] g']. cbn [fst snd] in *. rewrite E1, E2. reflexivity. }
  split.
  { split; [apply nodup_by; vm_compute; reflexivity|]. split; [|split; [reflexivity|]].
    - intros g H. cbn in H. repeat (destruct H as [<-|H]; [vm_compute; discriminate|]). destruct H.
    - intros pt H. cbn in H. repeat (destruct H as [<-|H]; [reflexivity|]). destruct H. }
  split; [exact (proj1 C85_test_store)|]. split; [exact (proj2 C85_test_store)|]. split; [left; reflexivity|]. rewrite usurped_run. split; [repeat constructor|].
  assert (E : xspec start_view (fun _ => []) (reals usurped) = [(Bob, 0%nat, Seen (Plain (str "one")))]) by (vm_compute; reflexivity). rewrite E. cbn [genuine flat_map app].
  intros H. inversion H.
Qed.

Print Assumptions C85_test_store.
Print Assumptions C85_first_contact.
Print Assumptions C85_conversation.
Print Assumptions C85_at_most_once.
Print Assumptions C85_injections_harmless.
Print Assumptions C85_many_conversations.
Print Assumptions C85_unverified_refuted.
