(** PropertiesSessionCall.v: the answer of every session call and what it leaves in the stores (C80). Specification: SessionCallSpec.v, BodySpec.v,
    WireGrammarSpec.v (bytes), WireFormatSpec.v (key schedule). *)
From Coq Require Import String.
From Verif Require Import Base Labels Crypto Bytehelper Ecc Cbc Wire Itoa Keys X3dh Messages SessionState SessionRecord SessionBuilder SessionCipher Address World
  WireFormatSpec WireGrammarSpec BodySpec GroupSpec ConvSpec CrashSpec ThreadSpec SessionCallSpec SessionCallProofs SessionCallProofs2 SessionCallProofs3
  Toy ToySession PropertiesCrash.
From Coq Require Import NArith ZArith List Lia.
Import ListNotations.

(** ** C80: after any history, and for every argument, the four calls answer and write what the description says; it leaves no choice. *)
Theorem C80_encrypt : forall C, crypto_laws C -> forall w a pt, lived C w -> (N.of_nat (length pt) + 16 < 2 ^ 63)%N ->
  exists o d w', encrypt_fate C w a pt o d /\ w_encrypt C a pt w = (o, w') /\ applied w a d w' /\
    forall o1 d1, encrypt_fate C w a pt o1 d1 -> o1 = o /\ d1 = d.
Proof.
  intros C L w a pt HL HF. destruct (encrypt_found C L w a pt (lived_sound C L w HL) HF) as (o & d & w' & F & E & HA). exists o, d, w'. split; [exact F|]. split; [exact E|]. split; [exact HA|].
  intros o1 d1 H. exact (encrypt_det C w a pt o1 d1 o d H F).
Qed.
Theorem C80_decrypt : forall C, crypto_laws C -> forall w a m g, lived C w -> message_object m ->
  exists o d w' g', decrypt_fate C w a m g o d g' /\ w_decrypt C a m g w = (o, w', g') /\ applied w a d w' /\
    forall o1 d1 g1, decrypt_fate C w a m g o1 d1 g1 -> o1 = o /\ g1 = g' /\ applied w a d1 w'.
Proof.
  intros C L w a m g HL HO. pose proof (lived_sound C L w HL) as HW. destruct (decrypt_exists C L w a m g HW HO) as (o & d & g' & F). destruct (decrypt_sound C L w a m g o d g' HW HO F) as (w' & E & HA).
  exists o, d, w', g'. split; [exact F|]. split; [exact E|]. split; [exact HA|]. intros o1 d1 g1 H. destruct (decrypt_sound C L w a m g o1 d1 g1 HW HO H) as (w1 & E1 & HA1). rewrite E in E1.
  injection E1 as <- <- <-. split; [reflexivity|]. split; [reflexivity|exact HA1].
Qed.
Theorem C80_decrypt_message : forall C, crypto_laws C -> forall w a m g, lived C w -> message_object (pm_message m) ->
  exists o d w' g', message_fate C w a m g o d g' /\ w_decrypt_message C a m g w = (o, w', g') /\ applied w a d w' /\
    forall o1 d1 g1, message_fate C w a m g o1 d1 g1 -> o1 = o /\ g1 = g' /\ applied w a d1 w'.
Proof.
  intros C L w a m g HL HO. pose proof (lived_sound C L w HL) as HW. destruct (message_exists C L w a m g HW (lived_private C w HL) HO) as (o & d & g' & F). destruct (message_sound C L w a m g o d g' HW HO F) as (w' & E & HA).
  exists o, d, w', g'. split; [exact F|]. split; [exact E|]. split; [exact HA|]. intros o1 d1 g1 H. destruct (message_sound C L w a m g o1 d1 g1 HW HO H) as (w1 & E1 & HA1). rewrite E in E1.
  injection E1 as <- <- <-. split; [reflexivity|]. split; [reflexivity|exact HA1].
Qed.
Theorem C80_process_bundle : forall C, crypto_laws C -> forall w a b g, lived C w ->
  exists o d w' g', bundle_fate C w a b g o d g' /\ w_process_bundle C a b g w = (o, w', g') /\ applied w a d w' /\
    forall o1 d1 g1, bundle_fate C w a b g o1 d1 g1 -> o1 = o /\ g1 = g' /\ applied w a d1 w'.
Proof.
  intros C L w a b g HL. pose proof (lived_sound C L w HL) as HW. destruct (bundle_exists C L w a b g) as (o & d & g' & F). destruct (bundle_sound C L w a b g o d g' HW F) as (w' & E & HA).
  exists o, d, w', g'. split; [exact F|]. split; [exact E|]. split; [exact HA|]. intros o1 d1 g1 H. destruct (bundle_sound C L w a b g o1 d1 g1 HW H) as (w1 & E1 & HA1). rewrite E in E1.
  injection E1 as <- <- <-. split; [reflexivity|]. split; [reflexivity|exact HA1].
Qed.

(** Every packet: any bytes under either message type. *)
Theorem C80_every_packet : forall C, crypto_laws C -> forall w a k g, lived C w -> call_fits (DoReceive k g) ->
  exists o d w', packet_fate C w a g k o d /\ receive C a k g w = (o, w') /\ applied w a d w' /\
    forall o1 d1, packet_fate C w a g k o1 d1 -> o1 = o /\ applied w a d1 w'.
Proof.
  intros C L w a k g HL HF. destruct (packet_exists C L w a k g HL HF) as (o & d & F). destruct (packet_sound C L w a k g o d HL HF F) as (w' & E & HA). exists o, d, w'. split; [exact F|]. split; [exact E|]. split; [exact HA|].
  intros o1 d1 H. destruct (packet_sound C L w a k g o1 d1 HL HF H) as (w1 & E1 & HA1). rewrite E in E1. injection E1 as <- <-. split; [reflexivity|exact HA1].
Qed.

(** Every program of Encrypt, receive and ProcessBundle calls for any addresses, after any history: the answers and the stores are those of the
    description, and of no other. *)
Theorem C80_every_program : forall C, crypto_laws C -> forall w cs l w', lived C w -> Forall (fun p => call_fits (snd p)) cs -> policy_by_contents w ->
  (program_fate C w cs l w' <-> exists w1, run_program C cs w = (l, w1) /\ same_stores w1 w').
Proof.
  intros C L w cs l w' HL HF HP. split.
  - intros H. destruct (program_det C L cs w l w' HL HF HP H) as [-> HS]. exists (snd (run_program C cs w)). split; [apply surjective_pairing|exact HS].
  - intros (w1 & E & HS). pose proof (program_total C L cs w HL HF) as T. rewrite E in T. cbn [fst snd] in T. clear E HL HF HP. revert HS.
    induction T as [w w1 S|w a c o d w1 rest l w2 F A R IH]; intros HS; [apply program_end; apply (same_trans w w1 w' S HS)|]. apply (program_call C w a c o d w1 rest l w' F A). apply IH. exact HS.
Qed.

(** Read off the description. A call that does not succeed leaves the session and the prekeys alone, unless it crashed after reading a first message. *)
Theorem C80_failed_call : forall C w a c o d, call_fate C w a c o d -> (forall x, o <> Ok x) ->
  (new_session d = None /\ used_prekey d = None) \/
  (o = Panic /\ exists k g b m, c = DoReceive k g /\ k = PPreKey b /\ prekey_fate b (Ok m) /\ to_remove m = None /\ used_prekey d = None).
Proof.
  intros C w a c o d H HO. destruct H as [pt o d H|k g o d H|b g o d g' H].
  - destruct H as [E|? ? ? ? ? ? ? ? ? ? E]; [left; split; reflexivity|destruct (HO _ eq_refl)].
  - destruct H as [b e S|b S|b m o d g' S F|b e S|b S|b m o d g' S F]; try (left; split; reflexivity).
    + destruct F as [E|r o1 g1 E F|r o1 r' you g1 E F Y]; [left; split; reflexivity..|]. exfalso. apply (HO (APlain match o1 with Ok x => fst x | _ => [] end)).
      remember (Some r') as ro eqn:ER. destruct F; try discriminate ER; destruct x as [x1 x2]; reflexivity.
    + destruct F as [T|r o1 g1 T K E F|r o1 r' g1 T K E F|T U N|signed oo T U N I P|r o1 g1 T U R F|r x r' id g1 T U R F D|r x r' g1 T U R F D]; try (left; split; reflexivity).
      * exfalso. apply (HO (APlain match o1 with Ok x => fst x | _ => [] end)). remember (Some r') as ro eqn:ER. destruct F; try discriminate ER; destruct x as [x1 x2]; reflexivity.
      * exfalso. destruct x as [x1 x2]. apply (HO (APlain x1)). reflexivity.
      * right. split; [reflexivity|]. exists (PPreKey b), g, b, m. split; [reflexivity|]. split; [reflexivity|]. split; [exact S|]. split; [exact D|reflexivity].
  - destruct H; try (left; split; reflexivity). destruct (HO _ eq_refl).
Qed.

(** The identity key DecryptMessage saves is the one written on the outside of the prekey message. When the session exists already, nothing
    authenticates it: the message is read with the keys of the session, whose peer has another identity key. *)
Definition relabelled : packet := Eval vm_compute in
  match pk_msg_bytes {| pm_struct := {| pk_reg := pk_reg (pm_struct msg2); pk_prekey_id := pk_prekey_id (pm_struct msg2); pk_signed_id := pk_signed_id (pm_struct msg2);
                                        pk_base := pk_base (pm_struct msg2); pk_identity := Some (ser_pub (tkey xee)); pk_message := pk_message (pm_struct msg2);
                                        pk_version := pk_version (pm_struct msg2) |};
                        pm_base := pm_base msg2; pm_identity := tkey xee; pm_message := pm_message msg2 |} with Ok b => PPreKey b | _ => PSignal [] end.
Definition misled : world := snd (receive toy alice_addr relabelled [] bob_opened).
Definition peer_of (w : world) (a : address) : option arr32 := match w_sessions w a with Some r => s_remote_id (r_cur r) | None => None end.
Lemma misled_facts : fst (receive toy alice_addr relabelled [] bob_opened) = Ok (str "again"%string) /\
  option_map abytes (peer_of misled alice_addr) = Some (abytes (tkey xa0)) /\ option_map abytes (w_saved misled alice_addr) = Some (abytes (tkey xee)).
Proof. vm_compute. repeat split. Qed.
Theorem C80_saved_identity_refuted : exists C, crypto_laws C /\ exists w a k g pt w' saved peer, lived C w /\ receive C a k g w = (Ok pt, w') /\
  w_saved w' a = Some saved /\ peer_of w' a = Some peer /\ saved <> peer.
Proof.
  exists toy. split; [exact toy_laws|]. destruct misled_facts as (E1 & E2 & E3). destruct (peer_of misled alice_addr) as [peer|] eqn:EP; [|discriminate E2]. destruct (w_saved misled alice_addr) as [saved|] eqn:ES; [|discriminate E3].
  exists bob_opened, alice_addr, relabelled, [], (str "again"%string), misled, saved, peer. split; [exact (proj1 C64_toy_opened)|]. split; [rewrite <- E1; apply surjective_pairing|].
  split; [exact ES|]. split; [exact EP|]. intros ->. cbn [option_map] in E2, E3. rewrite E2 in E3. discriminate E3.
Qed.

(** A program meeting many cases: no session, unreadable bytes, no randomness, a first message, its repetition, a used prekey, a ragged body. *)
Definition carol_addr : address := {| a_name := [x63]; a_device := 1 |}.
Definition ex_signal : packet := Eval vm_compute in PSignal (sig_msg_bytes msg3).
Definition ex_calls : list (address * call) :=
  [(alice_addr, DoEncrypt [x61]); (alice_addr, DoReceive ex_signal []); (alice_addr, DoReceive (PPreKey [x33]) []); (alice_addr, DoReceive (PPreKey []) []); (alice_addr, DoReceive packet1 []);
   (alice_addr, DoReceive packet1 [tseed x21]); (alice_addr, DoReceive packet1 [tseed x22]); (carol_addr, DoReceive packet1 [tseed x23]); (alice_addr, DoReceive ragged_packet []);
   (carol_addr, DoBundle bob_bundle [tseed x31]); (carol_addr, DoBundle bob_bundle [tseed x31; tseed x32]); (carol_addr, DoEncrypt [x62]); (alice_addr, DoEncrypt [x63])].
Definition ex_answers : list (res answer) := Eval vm_compute in fst (run_program toy ex_calls bob0).
Definition brief (o : res answer) : res (option bytes) := match o with Ok (APlain p) => Ok (Some p) | Ok _ => Ok None | Err e => Err e | Panic => Panic end.
Example C80_example : lived toy bob0 /\ policy_by_contents bob0 /\ Forall (fun p => call_fits (snd p)) ex_calls /\
  map brief ex_answers = [Panic; Err ENoSession; Err EIncomplete; Panic; Err ENoValidSessions; Ok (Some (str "hello"%string)); Err ENoValidSessions; Err ENilOneTimePreKey; Panic; Err ERand; Ok None; Ok None; Ok None] /\
  exists w', program_fate toy bob0 ex_calls ex_answers w'.
Proof.
  assert (A : Forall (fun p => call_fits (snd p)) ex_calls) by (repeat (constructor; [first [exact I|vm_compute; reflexivity]|]); constructor).
  assert (P : policy_by_contents bob0) by (intros f f' a k _; reflexivity).
  split; [exact (toy_lived xb0)|]. split; [exact P|]. split; [exact A|]. split; [reflexivity|]. exists (snd (run_program toy ex_calls bob0)).
  apply (C80_every_program toy toy_laws bob0 _ _ _ (toy_lived xb0) A P). exists (snd (run_program toy ex_calls bob0)). split; [|apply same_refl].
  assert (E : fst (run_program toy ex_calls bob0) = ex_answers) by (vm_compute; reflexivity). rewrite <- E. apply surjective_pairing.
Qed.

Print Assumptions C80_encrypt.
Print Assumptions C80_decrypt.
Print Assumptions C80_decrypt_message.
Print Assumptions C80_process_bundle.
Print Assumptions C80_every_packet.
Print Assumptions C80_every_program.
Print Assumptions C80_failed_call.
Print Assumptions C80_saved_identity_refuted.
