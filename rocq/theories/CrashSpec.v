(** CrashSpec.v: when a session operation panics (C64). Nothing here models code; it lists, in terms of stores,
    packets and keys, the situations in which a call does not return. *)
From Verif Require Import Base Labels Crypto Ecc Cbc Keys X3dh Messages SessionState SessionRecord SessionBuilder
  SessionCipher Address World SessionSpec ConvSpec.

Section Spec.
Context (C : crypto).

(** Every prekey in the store has its private half. *)
Definition private_prekeys (w : world) : Prop :=
  (forall i p, w_prekeys w i = Some p -> kp_priv p <> None) /\ (forall i p, w_signed w i = Some p -> kp_priv p <> None).

(** The stores of one party after any history: no sessions at first; then any public operations for any addresses,
    with any arguments and results, each possibly cut short by a crash after some of its writes; between them any
    change of the other stores and the deletion of any sessions. *)
Inductive lived : world -> Prop :=
| Lived_start : forall w, (forall a, w_sessions w a = None) -> private_prekeys w -> lived w
| Lived_op : forall w a r' es n, lived w -> session_op C u32_msg (view_of w a) r' es -> lived (fst (commit a (firstn n es) w))
| Lived_other : forall w w', lived w -> (forall a, w_sessions w' a = w_sessions w a \/ w_sessions w' a = None) ->
    private_prekeys w' -> lived w'.

(** The next [n] reads of the random source succeed. *)
Fixpoint reads (n : nat) (g : rng) : Prop :=
  match n with
  | O => True
  | S n' => exists x g', g = Some x :: g' /\ reads n' g'
  end.

(** The chain on which the state receives messages under ratchet key [k]: one it has, or the one the next
    Diffie-Hellman step with that key starts. *)
Definition chain_for (s : state) (k : arr32) (c : chain) : Prop :=
  receiver_chain k s = Some c \/
  (receiver_chain k s = None /\ exists root sc x, s_root s = Some root /\ s_sender s = Some sc /\
     create_chain C root k (ch_pair sc) = Ok x /\ c = {| ch_pair := {| kp_pub := k; kp_priv := None |}; ch_key := sk_chain x; ch_msgs := [] |}).

(** The message keys of number [n] on that chain: stored ones below its index, else (at most 5000 ahead) the ones
    derived by stepping the chain key. *)
Definition keys_for (c : chain) (n : N) (mk : msg_keys) : Prop :=
  ((n < ck_index (ch_key c))%N /\ find (fun k => (mk_index k =? n)%N) (ch_msgs c) = Some mk) \/
  (exists d, n = (ck_index (ch_key c) + N.of_nat d)%N /\ (d <= N.to_nat 5000)%nat /\
     mk = message_keys C (Nat.iter d (next_key C) (ch_key c))).

(** The message carries the right MAC for this session state: only who knows its keys can have made it. *)
Definition authentic (s : state) (m : sig_msg) : Prop :=
  exists lid rid c mk, s_local_id s = Some lid /\ s_remote_id s = Some rid /\ sg_version (sm_struct m) = 3%Z /\
    chain_for s (sm_ratchet m) c /\ keys_for c (sg_counter (sm_struct m)) mk /\
    verify_mac C m 3 rid lid (mk_mac mk) = Ok tt.

(** A body no encryption produces, on which CBC decryption panics. *)
Definition ragged (m : sig_msg) : Prop :=
  exists body, sg_ct (sm_struct m) = Some body /\ (16 <= length body)%nat /\ (length body mod 16 <> 0)%nat.

(** All the ways in which handing a packet from address [a] to the receiver ends in a panic.
    - the parser panics (C19);
    - a SignalMessage with a ragged body authenticates under a session of the sender;
    - a PreKeySignalMessage from a trusted identity, not of an existing session, names a signed prekey the
      receiver does not have;
    - the same message inside a PreKeySignalMessage, authenticating under the new session or an older one;
    - the PreKeySignalMessage is not of an existing session and its one-time prekey has id 16777215; the message
      was decrypted and the session is stored. *)
Inductive crashes (a : address) (g : rng) (w : world) : packet -> Prop :=
| Crash_parser_signal : forall b, sig_from_bytes b = Panic -> crashes a g w (PSignal b)
| Crash_parser_prekey : forall b, pk_from_bytes b = Panic -> crashes a g w (PPreKey b)
| Crash_ragged : forall b m r, sig_from_bytes b = Ok m -> w_sessions w a = Some r -> ragged m ->
    Exists (fun s => authentic s m) (states r) -> crashes a g w (PSignal b)
| Crash_unknown_signed : forall b m, pk_from_bytes b = Ok m -> w_policy w (w_saved w) a (pm_identity m) = true ->
    has_session_state (pk_version (pm_struct m)) (ser_pub (pm_base m)) (v_load (view_of w a)) = false ->
    w_signed w (pk_signed_id (pm_struct m)) = None -> crashes a g w (PPreKey b)
| Crash_ragged_prekey : forall b m id r ef, pk_from_bytes b = Ok m ->
    process C (view_of w a) (v_load (view_of w a)) m = (Ok id, r, ef) -> ragged (pm_message m) ->
    Exists (fun s => authentic s (pm_message m)) (states r) -> crashes a g w (PPreKey b)
| Crash_last_resort : forall b m r ef x r' g', pk_from_bytes b = Ok m ->
    process C (view_of w a) (v_load (view_of w a)) m = (Ok None, r, ef) ->
    decrypt_with_record C r (pm_message m) g = (Ok x, r', g') -> crashes a g w (PPreKey b).
End Spec.
