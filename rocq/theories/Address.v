(** Address.v: protocol/signal_protocol_address.go, protocol/sender_key_name.go. *)
From Verif Require Import Base Labels Itoa.

(** protocol/signal_protocol_address.go:20-23 SignalAddress *)
Record address : Type := { a_name : bytes; a_device : N }.

(** protocol/signal_protocol_address.go:36-38 String *)
Definition address_string (a : address) : bytes := a_name a ++ address_separator ++ dec_n (a_device a).

(** protocol/sender_key_name.go:12-15 SenderKeyName *)
Record sender_key_name : Type := { skn_group : bytes; skn_sender : address }.

(** Decidable equality, for stores keyed by address. *)
Definition address_eqb (a b : address) : bool :=
  bytes_eqb (a_name a) (a_name b) && (a_device a =? a_device b)%N.

Lemma address_eqb_eq : forall a b, address_eqb a b = true <-> a = b.
Proof.
  intros [an ad] [bn bd]. unfold address_eqb. cbn.
  rewrite andb_true_iff, bytes_eqb_eq, N.eqb_eq. split.
  - intros [-> ->]. reflexivity.
  - intros E. injection E as -> ->. auto.
Qed.
