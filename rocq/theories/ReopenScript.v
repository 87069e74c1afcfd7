(** ReopenScript.v: what is run in C63 (both parties start a session at the same time) and the concrete parties of the
    examples of C62 and C63. Nothing here models code. *)
From Coq Require Import String.
From Verif Require Import Base Labels Crypto Bytehelper Ecc Cbc Keys X3dh Messages SessionState SessionRecord
  SessionBuilder SessionCipher Address World SessionSpec SerialProofs ConvSpec ReopenSpec Toy ToySession.

(** * Crossed rounds

    One round: each party encrypts a message to the other, then each receives the other's message. *)
Record round : Type := { ro_alice : bytes; ro_bob : bytes; ro_alice_rng : rng; ro_bob_rng : rng }.

Section Cross.
Context (C : crypto).

(** The results of the two deliveries of each round, Bob's first; [Panic] if a message could not be sent. *)
Fixpoint cross (addr : party -> address) (wa wb : world) (rs : list round) : list (res bytes * res bytes) :=
  match rs with
  | [] => []
  | r :: rest =>
      match w_encrypt C (addr Bob) (ro_alice r) wa, w_encrypt C (addr Alice) (ro_bob r) wb with
      | (Ok ct, wa2), (Ok ct', wb2) =>
          match pack ct, pack ct' with
          | Ok k, Ok k' =>
              let '(o, wb3) := receive C (addr Alice) k (ro_bob_rng r) wb2 in
              let '(o', wa3) := receive C (addr Bob) k' (ro_alice_rng r) wa2 in
              (o, o') :: cross addr wa3 wb3 rest
          | _, _ => [(Panic, Panic)]
          end
      | _, _ => [(Panic, Panic)]
      end
  end.
End Cross.

(** * Concrete parties *)

Definition toy_addrs (p : party) : address := match p with Alice => alice_addr | Bob => bob_addr end.

(** Bob after a session with Alice, his prekeys published anew. *)
Definition bob2_again : world :=
  {| w_sessions := w_sessions bob2; w_saved := w_saved bob2; w_prekeys := w_prekeys bob0; w_signed := w_signed bob2;
     w_self := w_self bob2; w_reg := w_reg bob2; w_policy := w_policy bob2 |}.

Definition the_pair (r : res ec_pair * rng) : ec_pair := match fst r with Ok p => p | _ => pair_of toy (zero_arr 32) end.

(** Alice starts a second session. *)
Definition again_eph : ec_pair := Eval vm_compute in the_pair (generate_key_pair toy [tseed x61; tseed x62]).
Definition again_ratchet : ec_pair := Eval vm_compute in the_pair (generate_key_pair toy [tseed x62]).
Definition alice4_again : world := Eval vm_compute in snd (fst (w_process_bundle toy bob_addr bob_bundle [tseed x61; tseed x62] alice4)).

(** The schedule: Alice sends in the new session, an old packet is injected twice, and the conversation goes on. *)
Definition old_packet : packet := Eval vm_compute in match fst a_send1 with Ok ct => match pack ct with Ok k => k | _ => PSignal [] end | _ => PSignal [] end.
Definition again_evs : list revent :=
  [RSend Alice (str "new one"%string); RSend Alice (str "new two"%string); RInject Bob (PSignal []) [];
   RDeliver Bob 0 [tseed x63]; RInject Bob old_packet [tseed x64]; RSend Bob (str "back"%string);
   RDeliver Bob 1 [tseed x65]; RDeliver Alice 0 [tseed x66]; RSend Alice (str "new three"%string); RDeliver Bob 2 [tseed x67]].

(** Alice's bundle, for Bob to start a session as well. *)
Definition alice_bundle : bundle :=
  {| b_reg := 42; b_prekey_id := Some (ou_some 7); b_prekey := Some (tkey x71); b_signed_id := 9;
     b_signed := Some (tkey x72); b_sig := xed_sign toy (tkey xa0) (ser_pub (tkey x72)) (zero_arr 64);
     b_identity := tkey xa0 |}.
Definition bob1_crossed : world := Eval vm_compute in snd (fst (w_process_bundle toy alice_addr alice_bundle [tseed x15; tseed x16] bob0)).
Definition crossed_eph : ec_pair := Eval vm_compute in the_pair (generate_key_pair toy [tseed x15; tseed x16]).
Definition crossed_ratchet : ec_pair := Eval vm_compute in the_pair (generate_key_pair toy [tseed x16]).
Definition first_eph : ec_pair := Eval vm_compute in the_pair (generate_key_pair toy [tseed x11; tseed x12]).
Definition first_ratchet : ec_pair := Eval vm_compute in the_pair (generate_key_pair toy [tseed x12]).

Definition round_of (a b : string) (x y : byte) : round :=
  {| ro_alice := str a; ro_bob := str b; ro_alice_rng := [tseed x; tseed x]; ro_bob_rng := [tseed y; tseed y] |}.
Definition crossed_rounds : list round :=
  [round_of "hello bob" "hello alice" x31 x32; round_of "second" "second" x41 x42;
   round_of "third" "third" x51 x52; round_of "fourth" "fourth" x53 x54].
