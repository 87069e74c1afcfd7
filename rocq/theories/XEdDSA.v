(** XEdDSA.v: ecc/sign_curve25519.go, signatures with Curve25519 keys. SHA-512 (crypto/sha512) and Ed25519 verification
    (crypto/ed25519.Verify) are standard library functions, here arguments. *)
From Verif Require Import Base Crypto Field25519 Scalar25519 EdBase Edwards.
From Coq Require Import List.
Import ListNotations.

(** ecc/sign_curve25519.go:45-49 *)
Definition diversifier : bytes := xfe :: repeat xff 31.

(** ecc/sign_curve25519.go:36-87 sign. [set_top t b] is [b | (t & 0x80)]. *)
Definition xeddsa_sign (sha512 : bytes -> arr64) (private_key : arr32) (message : bytes) (random : arr64) : arr64 :=
  let public_key := ext_to_bytes (scalar_mult_base private_key) in
  let r := sha512 (diversifier ++ abytes private_key ++ message ++ abytes random) in
  let r_reduced := sc_reduce r in
  let encoded_r := ext_to_bytes (scalar_mult_base r_reduced) in
  let hram := sha512 (abytes encoded_r ++ abytes public_key ++ message) in
  let s := sc_mul_add (sc_reduce hram) private_key r_reduced in
  to_arr 64 (on_last (set_top (last (abytes public_key) x00)) (abytes encoded_r ++ abytes s)).

(** ecc/sign_curve25519.go:90-122 verify. The key conversion (91-114) is [mont_to_ed] of Field25519.v. The caller's array
    is a copy (ecc/curve.go:84 takes the signature by value), so clearing its bit is not visible outside. *)
Definition xeddsa_verify (ed25519_verify : arr32 -> bytes -> arr64 -> bool) (public_key : arr32) (message : bytes) (signature : arr64) : bool :=
  let a_ed := mont_to_ed public_key (last (abytes signature) x00) in
  let sig := to_arr 64 (on_last clear_top (abytes signature)) in
  ed25519_verify a_ed message sig.

(** The interface of Crypto.v with this code in place of the abstract signature functions: ecc/curve.go:84 VerifySignature
    and 105 CalculateSignature call verify and sign. *)
Definition with_xeddsa (C : crypto) (sha512 : bytes -> arr64) (ed25519_verify : arr32 -> bytes -> arr64 -> bool) : crypto :=
  {| hmac := hmac C; x_base := x_base C; x_mult := x_mult C; aes_enc := aes_enc C; aes_dec := aes_dec C;
     xed_sign := xeddsa_sign sha512; xed_verify := xeddsa_verify ed25519_verify |}.
