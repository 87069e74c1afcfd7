(** SessionSpec.v: histories of session operations, used to state the properties of PropertiesSession.v.
    Nothing here is part of the code; it says which sequences of public calls are considered. *)
From Verif Require Import Base Labels Crypto Ecc Keys X3dh Messages SessionState SessionRecord
  SessionBuilder SessionCipher Address World.

Section Spec.
Context (C : crypto).

(** A Go SignalMessage holds its counter in a uint32. *)
Definition u32_msg (m : sig_msg) : Prop := (sg_counter (sm_struct m) < u32_modulus)%N.

(** No counter reaches 2^32-1, the value after which the chain index wraps around. *)
Definition no_wrap (m : sig_msg) : Prop := (sg_counter (sm_struct m) < u32_modulus - 1)%N.

(** One public operation against a store whose LoadSession answers [v_load v]: its result is irrelevant here,
    [r'] is the record object it worked on as it is afterwards and [es] are its store writes. Messages (subject
    to [Q], which is [u32_msg] or [no_wrap]), bundles, plaintexts, randomness, prekeys, identities and trust
    answers are arbitrary. *)
Inductive session_op (Q : sig_msg -> Prop) (v : view) : record -> list effect -> Prop :=
| Op_encrypt : forall pt o r' es, encrypt C v pt = (o, r', es) -> session_op Q v r' es
| Op_decrypt : forall m g o r' es g', Q m -> decrypt_and_get_key C v m g = (o, r', es, g') -> session_op Q v r' es
| Op_decrypt_message : forall m g o r' es g', Q (pm_message m) ->
    decrypt_message C v m g = (o, r', es, g') -> session_op Q v r' es
| Op_process_bundle : forall b g o r' es g', process_bundle C v b g = (o, r', es, g') -> session_op Q v r' es.

(** Every record object that can come about: starting from a new record, any operations in any order with any
    results, the live object being used again (reference store) or saved and loaded (serializing store). *)
Inductive reachable (Q : sig_msg -> Prop) : record -> Prop :=
| Reach_new : reachable Q new_record
| Reach_op : forall v r' es, reachable Q (v_load v) -> session_op Q v r' es -> reachable Q r'
| Reach_written : forall v r' es r'', reachable Q (v_load v) -> session_op Q v r' es -> In (StoreSession r'') es -> reachable Q r''
| Reach_saved : forall r r', reachable Q r -> persist r = Ok r' -> reachable Q r'.

(** The contents of a serializing store for one address: [new_record] stands for no entry. *)
Inductive stored (Q : sig_msg -> Prop) : record -> Prop :=
| Stored_none : stored Q new_record
| Stored_write : forall v r' es r'' r3, stored Q (v_load v) -> session_op Q v r' es -> In (StoreSession r'') es ->
    persist r'' = Ok r3 -> stored Q r3.

(** All session states of a record. *)
Definition states (r : record) : list state := r_cur r :: r_prev r.

(** One step of a session state: a decrypt attempt with any message (accepted or not), an encryption, a
    save and load. *)

Inductive state_step : state -> state -> Prop :=
| Step_decrypt : forall s m g o s' g', no_wrap m -> decrypt_with_state C s m g = (o, s', g') -> state_step s s'
| Step_encrypt : forall v pt ct r' es, encrypt C v pt = (Ok ct, r', es) -> state_step (r_cur (v_load v)) (r_cur r')
| Step_save : forall s t s', state_structure s = Ok t -> state_from_structure t = Ok s' -> state_step s s'.

(** Any number of steps during which the state keeps a receiver chain for ratchet key [k]. *)
Inductive steps_keeping (k : arr32) : state -> state -> Prop :=
| Keep_none : forall s, receiver_chain k s <> None -> steps_keeping k s s
| Keep_step : forall s s1 s2, receiver_chain k s <> None -> state_step s s1 -> steps_keeping k s1 s2 -> steps_keeping k s s2.

(** The SignalMessage inside what Encrypt returned. *)
Definition inner_msg (ct : ct_msg) : sig_msg := match ct with CSignal m => m | CPreKey p => pm_message p end.

Definition sender_key (s : state) : option arr32 :=
  match s_sender s with Some sc => Some (kp_pub (ch_pair sc)) | None => None end.

(** A sequential life of one session state, starting from the current state of any reachable record: [sent] are the (ratchet key, counter) pairs of the messages Encrypt
    returned, [keys] the sending ratchet keys the state had. A decrypt attempt may replace the sending ratchet
    key; the assumption on the random source is that the new one has not been used before. *)
Inductive sending_life : list (arr32 * N) -> list arr32 -> state -> Prop :=
| Life_start : forall r k, reachable u32_msg r -> sender_key (r_cur r) = Some k -> sending_life [] [k] (r_cur r)
| Life_encrypt : forall sent keys v pt ct r' es, sending_life sent keys (r_cur (v_load v)) ->
    encrypt C v pt = (Ok ct, r', es) -> (sg_counter (sm_struct (inner_msg ct)) < u32_modulus - 1)%N ->
    (N.of_nat (length pt) + 16 < 9223372036854775808)%N ->
    sending_life ((sm_ratchet (inner_msg ct), sg_counter (sm_struct (inner_msg ct))) :: sent) keys (r_cur r')
| Life_decrypt_same : forall sent keys s m g o s' g', sending_life sent keys s -> u32_msg m ->
    decrypt_with_state C s m g = (o, s', g') -> s_sender s' = s_sender s -> sending_life sent keys s'
| Life_decrypt_new : forall sent keys s m g o s' g' k, sending_life sent keys s -> u32_msg m ->
    decrypt_with_state C s m g = (o, s', g') -> sender_key s' = Some k -> ~ In k keys -> sending_life sent (k :: keys) s'
| Life_save : forall sent keys s t s', sending_life sent keys s -> state_structure s = Ok t ->
    state_from_structure t = Ok s' -> sending_life sent keys s'.

(** The state accepts the message under some randomness. *)
Definition accepts (s : state) (m : sig_msg) : Prop := exists g x s' g', decrypt_with_state C s m g = (Ok x, s', g').

(** A stretch of history of a serializing store for one address during which the record has no archived
    sessions and the current session keeps a receiver chain for ratchet key [k]. *)
Inductive single_history (k : arr32) : record -> record -> Prop :=
| Single_none : forall r, single_history k r r
| Single_step : forall v r' es r'' r3 r4, session_op no_wrap v r' es -> In (StoreSession r'') es -> persist r'' = Ok r3 ->
    r_prev r3 = [] -> receiver_chain k (r_cur r3) <> None -> single_history k r3 r4 -> single_history k (v_load v) r4.

(** [m] is accepted by Decrypt, or as the content of a pre-key message by DecryptMessage, and [r3] is what a
    serializing store then holds. *)
Definition accepted_now (v : view) (m : sig_msg) (r3 : record) : Prop :=
  exists g x r' es g', persist r' = Ok r3 /\ In (StoreSession r') es /\
    (decrypt_and_get_key C v m g = (Ok x, r', es, g') \/
     exists p, pm_message p = m /\ decrypt_message C v p g = (Ok x, r', es, g')).
End Spec.
