(** GroupWireSpec.v: the bytes of group messages, written from the protocol buffer definition (WhisperTextProtocol.proto) and the
    sender key description, not from the Go code (C70). Nothing here models code. *)
From Verif Require Import Base Crypto WireFormatSpec.
From Coq Require Import List.

(** SenderKeyMessage: id = 1, iteration = 2, ciphertext = 3, after the version byte 0x33. *)
Definition group_unsigned (id iter : N) (body l : bytes) : Prop :=
  exists vi vt vl, varint id vi /\ varint iter vt /\ varint (N.of_nat (length body)) vl /\
    l = x33 :: x08 :: vi ++ x10 :: vt ++ x1a :: vl ++ body.

(** SenderKeyDistributionMessage: id = 1, iteration = 2, chainKey = 3, signingKey = 4 (type byte 0x05 and 32 bytes). *)
Definition group_distribution (id iter : N) (chain : bytes) (signing : arr32) (l : bytes) : Prop :=
  exists vi vt vl, varint id vi /\ varint iter vt /\ varint (N.of_nat (length chain)) vl /\
    l = x33 :: x08 :: vi ++ x10 :: vt ++ x1a :: vl ++ chain ++ x22 :: x21 :: x05 :: abytes signing.

(** A group message for the plaintext [pt], made with the chain key [chain], without the 64 bytes of signature that follow. *)
Definition group_message (C : crypto) (id iter : N) (chain pt l : bytes) : Prop :=
  exists iv cipher body, group_keys_of_chain C chain iv cipher /\ cbc_ciphertext C cipher iv pt body /\ group_unsigned id iter body l.

(** A message of a session for the plaintext [pt], made with the chain key [chain]. *)
Definition session_message (C : crypto) (chain : bytes) (sender receiver ratchet : arr32) (counter prev : N) (pt wire : bytes) : Prop :=
  exists cipher mac iv body, message_keys_of_chain C chain cipher mac iv /\ cbc_ciphertext C cipher iv pt body /\
    signal_wire C mac sender receiver ratchet counter prev body wire.
