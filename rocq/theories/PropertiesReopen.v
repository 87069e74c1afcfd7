(** PropertiesReopen.v: sessions between parties that already have sessions (C62) and sessions started by both parties
    at the same time (C63). The vocabulary is in ReopenSpec.v: [acquainted] (the parties before the new session, each
    with any record a history of operations left in its store), [unused_base] (the new base key was never used before),
    [rrun] (the code run on a schedule that also contains packets injected by the network), [agrees], [old_states]; and
    in ConvSpec.v: [fair], [cspec] (what must come out), [matching]. [cross] is in ReopenScript.v. *)
From Coq Require Import String List.
From Verif Require Import Base Labels Crypto Ecc Keys X3dh Messages SessionState SessionRecord SessionBuilder
  SessionCipher Address World SessionSpec SerialProofs GroupSpec ConvSpec ConvProofs3 ReopenSpec ReopenProofs4 ReopenScript Toy ToySession
  PropertiesConv.
Import ListNotations.
Local Open Scope list_scope.

(** * C62 *)

(** Alice processes Bob's bundle although both hold older sessions. The first message of the new session is decrypted,
    both stores then hold matching current sessions, and behind them the older sessions, newest first, at most 40. *)
Theorem C62_first_contact_again : forall C, crypto_laws C ->
  forall addr wa wb b i sid signed otk g g1 g2 eph ratchet wa1 g' pt g3,
  acquainted C addr wa wb b i sid signed otk ->
  generate_key_pair C g = (Ok eph, g1) -> generate_key_pair C g1 = (Ok ratchet, g2) ->
  w_process_bundle C (addr Bob) b g wa = (Ok tt, wa1, g') ->
  unused_base wb (addr Alice) (kp_pub eph) ->
  fair C signed ratchet [Send Alice pt; Deliver Bob 0 g3] ->
  exists ct wa2 k wb2 ra rb,
    w_encrypt C (addr Bob) pt wa1 = (Ok ct, wa2) /\ pack ct = Ok k /\ receive C (addr Alice) k g3 wb = (Ok pt, wb2) /\
    w_sessions wa2 (addr Bob) = Some ra /\ w_sessions wb2 (addr Alice) = Some rb /\ matching C (r_cur ra) (r_cur rb) /\
    r_prev ra = firstn 40 (old_states wa (addr Bob)) /\ r_prev rb = firstn 40 (old_states wb (addr Alice)).
Proof.
  intros C L addr wa wb b i sid signed otk g g1 g2 eph ratchet wa1 g' pt g3 H G1 G2 HP HU HF.
  destruct (first_contact2 C L _ _ _ _ _ _ _ _ _ _ _ _ _ _ _ _ _ H G1 G2 HP HU HF)
    as (ct & wa2 & k & wb2 & ra & rb & H1 & H2 & H3 & H4 & H5 & H6 & H7 & H8 & _).
  exists ct, wa2, k, wb2, ra, rb. repeat (split; [assumption|]). assumption.
Qed.

(** Any schedule of sends, deliveries and injected packets in the new session: every delivery has the result the
    reference gives for two parties without older sessions and without injected packets, up to the point where an
    injected packet is accepted or a message the reference refuses is accepted. *)
Theorem C62_any_schedule : forall C, crypto_laws C ->
  forall addr wa wb b i sid signed otk g g1 g2 eph ratchet wa1 g' evs,
  acquainted C addr wa wb b i sid signed otk ->
  generate_key_pair C g = (Ok eph, g1) -> generate_key_pair C g1 = (Ok ratchet, g2) ->
  w_process_bundle C (addr Bob) b g wa = (Ok tt, wa1, g') ->
  unused_base wb (addr Alice) (kp_pub eph) ->
  fair C signed ratchet (genuine evs) ->
  agrees (rrun C addr (both wa1 wb) false (fun _ => []) evs) (cspec start_view (fun _ => []) (genuine evs)).
Proof. intros C L. exact (any_schedule2 C L). Qed.

(** When the network refrains from nothing but reordering the parties' own messages, and every packet it injects is
    refused, then every message of the new session is read: injected packets that are refused disturb nothing. *)
Theorem C62_refused_packets_disturb_nothing : forall C, crypto_laws C ->
  forall addr wa wb b i sid signed otk g g1 g2 eph ratchet wa1 g' evs,
  acquainted C addr wa wb b i sid signed otk ->
  generate_key_pair C g = (Ok eph, g1) -> generate_key_pair C g1 = (Ok ratchet, g2) ->
  w_process_bundle C (addr Bob) b g wa = (Ok tt, wa1, g') ->
  unused_base wb (addr Alice) (kp_pub eph) ->
  fair C signed ratchet (genuine evs) ->
  let run := rrun C addr (both wa1 wb) false (fun _ => []) evs in
  let ref := cspec start_view (fun _ => []) (genuine evs) in
  injections_refused run ->
  (forall p, delivered p ref = seq 0 (length (delivered p ref))) ->
  Forall (fun y => exists pt, snd y = Ok pt) (results run) /\
  map (fun y => match y with (p, j, Ok pt) => (p, j, Plain pt) | (p, j, _) => (p, j, Refused) end) (results run) = ref.
Proof.
  intros C L addr wa wb b i sid signed otk g g1 g2 eph ratchet wa1 g' evs HS G1 G2 HP HU HF run ref HJ HD. subst run ref.
  pose proof (fifo_start _ HD) as HA.
  rewrite (agrees_plain _ _ (any_schedule2 C L _ _ _ _ _ _ _ _ _ _ _ _ _ _ _ _ HS G1 G2 HP HU HF) HJ HA).
  clear -HA. induction HA as [|[[p j] v] l [pt E] HA [IH1 IH2]]; [split; [constructor|reflexivity]|].
  cbn [snd] in E. subst v. cbn [map]. split; [constructor; [exists pt; reflexivity|exact IH1]|f_equal; exact IH2].
Qed.

(** * C63 *)

(** Both parties process each other's bundle before either receives anything: the two first messages that cross on the
    wire are both read. *)
Theorem C63_crossed_first_messages_read : forall C, crypto_laws C ->
  forall addr wa wb bb i sid signed otk ba i' sid' signed' otk' g g1 g2 eph ratchet wa1 gx h h1 h2 eph' ratchet' wb1 hx r,
  acquainted C addr wa wb bb i sid signed otk ->
  acquainted C (fun p => addr (other p)) wb wa ba i' sid' signed' otk' ->
  generate_key_pair C g = (Ok eph, g1) -> generate_key_pair C g1 = (Ok ratchet, g2) ->
  generate_key_pair C h = (Ok eph', h1) -> generate_key_pair C h1 = (Ok ratchet', h2) ->
  w_process_bundle C (addr Bob) bb g wa = (Ok tt, wa1, gx) -> w_process_bundle C (addr Alice) ba h wb = (Ok tt, wb1, hx) ->
  unused_base wa (addr Bob) (kp_pub eph) -> unused_base wb (addr Alice) (kp_pub eph) ->
  unused_base wa (addr Bob) (kp_pub eph') -> unused_base wb (addr Alice) (kp_pub eph') -> kp_pub eph <> kp_pub eph' ->
  fair C signed ratchet [Send Alice (ro_alice r); Deliver Bob 0 (ro_bob_rng r)] ->
  fair C signed' ratchet' [Send Alice (ro_bob r); Deliver Bob 0 (ro_alice_rng r)] ->
  cross C addr wa1 wb1 [r] = [(Ok (ro_alice r), Ok (ro_bob r))].
Proof.
  intros C L addr wa wb bb i sid signed otk ba i' sid' signed' otk' g g1 g2 eph ratchet wa1 gx h h1 h2 eph' ratchet' wb1 hx r
    H H' G1 G2 H1 H2 HPA HPB UA UB UA' UB' HNE HF HF'.
  destruct (crossed_initiations C L _ _ _ _ _ _ _ _ _ _ _ _ _ _ _ _ _ _ _ _ _ _ _ _ _ _ _ _ _ _ _ H H' G1 G2 H1 H2 HPA HPB UA UB UA' UB' HNE HF HF')
    as (ct & k & wa2 & ct' & k' & wb2 & wa3 & wb3 & E1 & E2 & E3 & E4 & E5 & E6).
  cbn [cross]. rewrite E1, E3, E2, E4, E5, E6. reflexivity.
Qed.

(** * Concrete parties *)

Lemma alice4_stored : stored toy u32_msg alice_rec4.
Proof.
  assert (H1 : stored toy u32_msg (rec_of alice1 bob_addr)).
  { destruct (process_bundle toy (view_of alice0 bob_addr) bob_bundle [tseed x11; tseed x12]) as [[[o r'] es] g'] eqn:E.
    assert (E1 : In (StoreSession r') es /\ persist r' = Ok (rec_of alice1 bob_addr)).
    { revert E. vm_compute. intros E. injection E as _ <- <- _. split; [left; reflexivity|reflexivity]. }
    destruct E1 as [E1 E2]. eapply (Stored_write toy u32_msg (view_of alice0 bob_addr)); [constructor| |exact E1|exact E2].
    eapply Op_process_bundle. exact E. }
  assert (H2 : stored toy u32_msg (rec_of alice2 bob_addr)).
  { destruct (encrypt toy (view_of alice1 bob_addr) (str "hello"%string)) as [[o r'] es] eqn:E.
    assert (E1 : In (StoreSession r') es /\ persist r' = Ok (rec_of alice2 bob_addr)).
    { revert E. vm_compute. intros E. injection E as _ <- <-. split; [right; left; reflexivity|reflexivity]. }
    destruct E1 as [E1 E2]. eapply (Stored_write toy u32_msg (view_of alice1 bob_addr)); [exact H1| |exact E1|exact E2].
    eapply Op_encrypt. exact E. }
  assert (H3 : stored toy u32_msg alice_rec3).
  { destruct (encrypt toy (view_of alice2 bob_addr) (str "again"%string)) as [[o r'] es] eqn:E.
    assert (E1 : In (StoreSession r') es /\ persist r' = Ok alice_rec3).
    { revert E. vm_compute. intros E. injection E as _ <- <-. split; [right; left; reflexivity|reflexivity]. }
    destruct E1 as [E1 E2]. eapply (Stored_write toy u32_msg (view_of alice2 bob_addr)); [exact H2| |exact E1|exact E2].
    eapply Op_encrypt. exact E. }
  destruct (decrypt_and_get_key toy (view_of alice3 bob_addr) reply1 [tseed x13]) as [[[o r'] es] g'] eqn:E.
  assert (E1 : In (StoreSession r') es /\ persist r' = Ok alice_rec4).
  { revert E. vm_compute. intros E. injection E as _ <- <- _. split; [first [left; reflexivity|right; left; reflexivity]|reflexivity]. }
  destruct E1 as [E1 E2]. eapply (Stored_write toy u32_msg (view_of alice3 bob_addr)); [exact H3| |exact E1|exact E2].
  eapply Op_decrypt; [|exact E]. vm_compute. reflexivity.
Qed.

Lemma bob2_stored_u32 : stored toy u32_msg bob_rec2.
Proof.
  assert (H1 : stored toy u32_msg bob_rec1).
  { destruct (decrypt_message toy (view_of bob0 alice_addr) msg1 [tseed x21]) as [[[o r'] es] g'] eqn:E.
    assert (E1 : In (StoreSession r') es /\ persist r' = Ok bob_rec1).
    { revert E. vm_compute. intros E. injection E as _ <- <- _. split; [right; left; reflexivity|reflexivity]. }
    destruct E1 as [E1 E2]. eapply (Stored_write toy u32_msg (view_of bob0 alice_addr)); [constructor| |exact E1|exact E2].
    eapply Op_decrypt_message; [|exact E]. vm_compute. reflexivity. }
  destruct (encrypt toy (view_of bob1 alice_addr) (str "hi alice"%string)) as [[o r'] es] eqn:E.
  assert (E1 : In (StoreSession r') es /\ persist r' = Ok bob_rec2).
  { revert E. vm_compute. intros E. injection E as _ <- <-. split; [right; left; reflexivity|reflexivity]. }
  destruct E1 as [E1 E2]. eapply (Stored_write toy u32_msg (view_of bob1 alice_addr)); [exact H1| |exact E1|exact E2].
  eapply Op_encrypt. exact E.
Qed.

(** Alice and Bob have a session in which three messages were exchanged; Bob publishes prekeys anew. *)
Example C62_toy_acquainted : acquainted toy toy_addrs alice4 bob2_again bob_bundle 7 9 (tkey x72) (tkey x71).
Proof.
  constructor; try reflexivity; try discriminate.
  - intros r H. change (w_sessions alice4 (toy_addrs Bob)) with (Some alice_rec4) in H. injection H as <-. exact alice4_stored.
  - intros r H. change (w_sessions bob2_again (toy_addrs Alice)) with (Some bob_rec2) in H. injection H as <-. exact bob2_stored_u32.
Qed.

Example C62_toy_hyps :
  generate_key_pair toy [tseed x61; tseed x62] = (Ok again_eph, [tseed x62]) /\
  generate_key_pair toy [tseed x62] = (Ok again_ratchet, []) /\
  fst (fst (w_process_bundle toy bob_addr bob_bundle [tseed x61; tseed x62] alice4)) = Ok tt /\
  snd (fst (w_process_bundle toy bob_addr bob_bundle [tseed x61; tseed x62] alice4)) = alice4_again.
Proof. repeat split; vm_compute; reflexivity. Qed.

Example C62_toy_unused : unused_base bob2_again alice_addr (kp_pub again_eph).
Proof.
  intros r s H HI. change (w_sessions bob2_again alice_addr) with (Some bob_rec2) in H. injection H as <-.
  destruct HI as [<-|[]]. vm_compute. discriminate.
Qed.

Example C62_toy_fair : fair toy (tkey x72) again_ratchet (genuine again_evs).
Proof.
  split; [apply nodup_by; vm_compute; reflexivity|]. split; [|split; [reflexivity|]].
  - intros g H. cbn in H. repeat (destruct H as [<-|H]; [vm_compute; discriminate|]). destruct H.
  - intros pt H. cbn in H. repeat (destruct H as [<-|H]; [reflexivity|]). destruct H.
Qed.

(** The old packet and the empty packet are refused; the new session goes on; the old session is kept. *)
Example C62_toy_run : rrun toy toy_addrs (both alice4_again bob2_again) false (fun _ => []) again_evs =
  [Other Bob (Err EInputTooSmall); Got Bob 0 (Ok (str "new one")); Other Bob (Err ENoValidSessions); Got Bob 1 (Ok (str "new two"));
   Got Alice 0 (Ok (str "back")); Got Bob 2 (Ok (str "new three"))] /\
  length (old_states bob2_again alice_addr) = 1%nat /\ length (old_states alice4 bob_addr) = 1%nat.
Proof. vm_compute. repeat split. Qed.

Example C63_toy_acquainted : acquainted toy toy_addrs alice0 bob0 bob_bundle 7 9 (tkey x72) (tkey x71) /\
  acquainted toy (fun p => toy_addrs (other p)) bob0 alice0 alice_bundle 7 9 (tkey x72) (tkey x71).
Proof. split; constructor; try reflexivity; discriminate. Qed.

Example C63_toy_hyps :
  generate_key_pair toy [tseed x11; tseed x12] = (Ok first_eph, [tseed x12]) /\ generate_key_pair toy [tseed x12] = (Ok first_ratchet, []) /\
  generate_key_pair toy [tseed x15; tseed x16] = (Ok crossed_eph, [tseed x16]) /\ generate_key_pair toy [tseed x16] = (Ok crossed_ratchet, []) /\
  fst (fst (w_process_bundle toy bob_addr bob_bundle [tseed x11; tseed x12] alice0)) = Ok tt /\
  fst (fst (w_process_bundle toy alice_addr alice_bundle [tseed x15; tseed x16] bob0)) = Ok tt.
Proof. repeat split; vm_compute; reflexivity. Qed.

Lemma crossed_keys_differ : kp_pub first_eph <> kp_pub crossed_eph.
Proof. intros H. apply (f_equal (fun a => arr_eqb a (kp_pub crossed_eph))) in H. rewrite arr_eqb_refl in H. vm_compute in H. discriminate. Qed.

Example C63_toy_fair : forall r, In r crossed_rounds ->
  fair toy (tkey x72) first_ratchet [Send Alice (ro_alice r); Deliver Bob 0 (ro_bob_rng r)] /\
  fair toy (tkey x72) crossed_ratchet [Send Alice (ro_bob r); Deliver Bob 0 (ro_alice_rng r)].
Proof.
  assert (HF : forall rt pt g, NoDup [Some (tkey x72); Some (kp_pub rt); new_pub toy g] -> new_pub toy g <> None ->
     (N.of_nat (length pt) + 200 < 9223372036854775808)%N -> fair toy (tkey x72) rt [Send Alice pt; Deliver Bob 0 g]).
  { intros rt pt g H1 H2 H3. split; [exact H1|]. split; [intros q [<-|[]]; exact H2|]. split; [reflexivity|].
    intros q [<-|[]]. exact H3. }
  intros r HI. cbn in HI.
  repeat (destruct HI as [<-|HI]; [split; (apply HF; [apply nodup_by; vm_compute; reflexivity|vm_compute; discriminate|reflexivity])|]). destruct HI.
Qed.

(** Full statement of what one would expect: after a crossed start, messages go on being read, in whatever rounds.
    It is false: after one more crossed round nothing either party sends is read again. *)
Theorem C63_crossed_conversation_refuted : exists C, crypto_laws C /\
  exists addr wa wb bb i sid signed otk ba i' sid' signed' otk' g g1 g2 eph ratchet wa1 gx h h1 h2 eph' ratchet' wb1 hx rs,
  acquainted C addr wa wb bb i sid signed otk /\
  acquainted C (fun p => addr (other p)) wb wa ba i' sid' signed' otk' /\
  generate_key_pair C g = (Ok eph, g1) /\ generate_key_pair C g1 = (Ok ratchet, g2) /\
  generate_key_pair C h = (Ok eph', h1) /\ generate_key_pair C h1 = (Ok ratchet', h2) /\
  w_process_bundle C (addr Bob) bb g wa = (Ok tt, wa1, gx) /\ w_process_bundle C (addr Alice) ba h wb = (Ok tt, wb1, hx) /\
  kp_pub eph <> kp_pub eph' /\
  (forall r, In r rs -> fair C signed ratchet [Send Alice (ro_alice r); Deliver Bob 0 (ro_bob_rng r)] /\
                        fair C signed' ratchet' [Send Alice (ro_bob r); Deliver Bob 0 (ro_alice_rng r)]) /\
  cross C addr wa1 wb1 rs =
    [(Ok (str "hello bob"), Ok (str "hello alice")); (Ok (str "second"), Ok (str "second"));
     (Err ENoValidSessions, Err ENoValidSessions); (Err ENoValidSessions, Err ENoValidSessions)].
Proof.
  exists toy. split; [exact toy_laws|].
  exists toy_addrs, alice0, bob0, bob_bundle, 7%N, 9%N, (tkey x72), (tkey x71), alice_bundle, 7%N, 9%N, (tkey x72), (tkey x71).
  exists [tseed x11; tseed x12], [tseed x12], [], first_eph, first_ratchet, alice1, (snd (w_process_bundle toy bob_addr bob_bundle [tseed x11; tseed x12] alice0)).
  exists [tseed x15; tseed x16], [tseed x16], [], crossed_eph, crossed_ratchet, bob1_crossed, (snd (w_process_bundle toy alice_addr alice_bundle [tseed x15; tseed x16] bob0)).
  exists crossed_rounds.
  split; [exact (proj1 C63_toy_acquainted)|]. split; [exact (proj2 C63_toy_acquainted)|].
  split; [vm_compute; reflexivity|]. split; [vm_compute; reflexivity|]. split; [vm_compute; reflexivity|]. split; [vm_compute; reflexivity|].
  split; [vm_compute; reflexivity|]. split; [vm_compute; reflexivity|]. split; [exact crossed_keys_differ|]. split; [exact C63_toy_fair|].
  vm_compute. reflexivity.
Qed.

Print Assumptions C62_first_contact_again.
Print Assumptions C62_any_schedule.
Print Assumptions C62_refused_packets_disturb_nothing.
Print Assumptions C63_crossed_first_messages_read.
Print Assumptions C63_crossed_conversation_refuted.
