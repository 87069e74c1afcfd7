(** BodySpec.v: what decrypting a message body gives, for every body, key and iv of the right sizes (C79, C80). *)
From Verif Require Import Base Crypto WireFormatSpec.
From Coq Require Import List.
Import ListNotations.

Section Spec.
Context (C : crypto).
(** CBC decryption, block by block. *)
Definition cbc_plaintext (key iv body p : bytes) : Prop :=
  length p = length body /\ forall i, (16 * i < length body)%nat -> block p i = xor_block (aes_dec C key (block body i)) (block (iv ++ body) i).
(** The last byte tells how many bytes are padding; 0 and anything up to the whole length is accepted, and the padding bytes are not compared. *)
Definition unpadded (p pt : bytes) : Prop := exists q z padding, p = q ++ [z] /\ p = pt ++ padding /\ b2n z = N.of_nat (length padding).
Definition overlong (p : bytes) : Prop := exists q z, p = q ++ [z] /\ (N.of_nat (length p) < b2n z)%N.
(** cipher/cbc.go:29-49 DecryptCbc with an iv *)
Inductive body_fate (key iv body : bytes) : res bytes -> Prop :=
| body_short : (length body < 16)%nat -> body_fate key iv body (Err ECipherTooShort)
| body_ragged : (16 <= length body)%nat -> (length body mod 16 <> 0)%nat -> body_fate key iv body Panic
| body_padding : forall p, (16 <= length body)%nat -> (length body mod 16 = 0)%nat -> cbc_plaintext key iv body p -> overlong p -> body_fate key iv body (Err EPadTooLong)
| body_read : forall p pt, (16 <= length body)%nat -> (length body mod 16 = 0)%nat -> cbc_plaintext key iv body p -> unpadded p pt -> body_fate key iv body (Ok pt).
End Spec.
