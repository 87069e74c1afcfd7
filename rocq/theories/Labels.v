(** Labels.v: the string constants of the Go code as byte strings. *)
From Verif Require Import Base.
From Coq Require Import String.
Open Scope string_scope.

(** keys/message/key.go:18 KdfSalt (passed as HKDF info) *)
Definition message_kdf_info : bytes := str "WhisperMessageKeys".
(** keys/root/key.go:16 KdfInfo *)
Definition root_kdf_info : bytes := str "WhisperRatchet".
(** ratchet/ratchet.go:78,144 *)
Definition x3dh_info : bytes := str "WhisperText".
(** groups/ratchet/sender_message_key.go:9 *)
Definition group_kdf_info : bytes := str "WhisperGroup".
(** provision/cipher.go:65 *)
Definition provision_info : bytes := str "Mixin Provisioning Message".
(** protocol/signal_protocol_address.go:7 *)
Definition address_separator : bytes := str ":".
