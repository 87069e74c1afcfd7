(** Ecc.v: ecc/curve.go, ecc/ec_pair.go, ecc/djb_ec_public.go, ecc/djb_ec_private.go,
    keys/identity/*.go.

    The only implementations of ECPublicKeyable/ECPrivateKeyable are the Djb types, i.e. 32-byte
    arrays; a possibly nil interface value is an [option]. *)
From Verif Require Import Base Crypto.

(** ecc/ec_pair.go:14-17 ECKeyPair: the private key is nil for receiver chains and for
    sender key states made from a public key. *)
Record ec_pair : Type := { kp_pub : arr32; kp_priv : option arr32 }.

(** keys/identity/key_pair.go:22-25: KeyPair, with a private key. *)
Record id_pair : Type := { ip_pub : arr32; ip_priv : arr32 }.

(** ecc/curve.go:15 *)
Definition djb_type : byte := x05.

(** ecc/djb_ec_public.go:22-24; keys/identity/key.go:46-48. *)
Definition ser_pub (k : arr32) : bytes := djb_type :: abytes k.

(** ecc/curve.go:20-31, called everywhere with offset 0: indexes the first byte (panics on an
    empty or nil slice), accepts type 5, copies at most 32 of the following bytes. *)
Definition decode_point (b : bytes) : res arr32 :=
  match b with
  | [] => Panic
  | t :: rest => if Byte.eqb t djb_type then Ok (to_arr 32 rest) else Err EBadKeyType
  end.

Section Gen.
Context (C : crypto).

(** The key pair of a private key as made by GenerateKeyPair after clamping. *)
Definition pair_of (priv : arr32) : ec_pair := {| kp_pub := x_base C priv; kp_priv := Some priv |}.

(** ecc/curve.go:53-82 GenerateKeyPair. *)
Definition generate_key_pair (r : rng) : res ec_pair * rng :=
  match rng_read 32 r with
  | (Some seed, r') => (Ok (pair_of (clamp seed)), r')
  | (None, r') => (Err ERand, r')
  end.

(** ecc/curve.go:33-50 CreateKeyPair. *)
Definition create_key_pair (priv : bytes) : ec_pair := pair_of (clamp (to_arr 32 priv)).

(** ecc/curve.go:107-120 CalculateSignature: the error of the random read is ignored, the
    buffer then stays zero. *)
Definition calculate_signature (priv : arr32) (msg : bytes) (r : rng) : arr64 * rng :=
  match rng_read 64 r with
  | (Some z, r') => (xed_sign C priv msg z, r')
  | (None, r') => (xed_sign C priv msg (zero_arr 64), r')
  end.

(** ecc/curve.go:85-91 VerifySignature. *)
Definition verify_signature (pub : arr32) (msg : bytes) (sig : arr64) : bool :=
  xed_verify C pub msg sig.
End Gen.
