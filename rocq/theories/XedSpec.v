(** XedSpec.v: what the external curve functions compute (RFC 7748, RFC 8032), and what a valid XEdDSA signature is.
    Nothing here models code of the repository. *)
From Verif Require Import Base Crypto FieldSpec ScalarSpec Fp CurveSpec.
From Coq Require Import ZArith List.
Import ListNotations.

(** The u-coordinate of a point on the birationally equivalent Montgomery curve (RFC 7748, section 4.1); 0 for the neutral element. *)
Definition mont_u (P : point) : F := fdiv (fadd f1 (py P)) (fsub f1 (py P)).
(** The integer a private key stands for (RFC 7748, section 5: decodeScalar25519). *)
Definition scalar_of (k : bytes) : Z := (2 ^ 254 + 8 * ((le_val k / 8) mod 2 ^ 251))%Z.

(** golang.org/x/crypto/curve25519: ScalarMult on the u-coordinate of a point P of the curve gives the u-coordinate of the
    multiple; ScalarBaseMult is the multiple of the base point. *)
Definition x25519_spec (mult : arr32 -> arr32 -> arr32) (base : arr32 -> arr32) : Prop :=
  (forall k p P, on_curve P -> ofZ (le_val (abytes p) mod 2 ^ 255) = mont_u P -> le_val (abytes (mult k p)) = fz (mont_u (zmul (scalar_of (abytes k)) P))) /\
  (forall k, le_val (abytes (base k)) = fz (mont_u (zmul (scalar_of (abytes k)) base_point))).

(** RFC 8032, section 5.1.7, as crypto/ed25519.Verify implements it (no cofactor; S must be reduced; R is compared as bytes). *)
Definition ed25519_valid (sha512 : bytes -> arr64) (pub : bytes) (message : bytes) (R S : bytes) : Prop :=
  exists A, decodes (to_arr 32 pub) A /\ (le_val S < order_l)%Z /\
    le_val R = enc_val (padd (zmul (le_val S) base_point) (popp (zmul (le_val (abytes (sha512 (R ++ pub ++ message))) mod order_l) A))).
Definition ed25519_spec (sha512 : bytes -> arr64) (verify : arr32 -> bytes -> arr64 -> bool) : Prop :=
  forall pub message sig, verify pub message sig = true <->
    ed25519_valid sha512 (abytes pub) message (firstn 32 (abytes sig)) (skipn 32 (abytes sig)).

(** What verification must accept, in terms of the Curve25519 key: with u its u-coordinate, the point A has y = (u - 1)/(u + 1)
    (0 for u = -1) and the sign found in the top bit of the signature; R and S (without that bit) are an Ed25519 signature
    under the encoding of A. *)
Definition xeddsa_valid (sha512 : bytes -> arr64) (pub : arr32) (message : bytes) (sig : arr64) : Prop :=
  exists (A : point) (ed_key : arr32),
    let u := ofZ (le_val (abytes pub) mod 2 ^ 255) in
    let y := fdiv (fsub u f1) (fadd u f1) in
    let sign := (le_val (skipn 32 (abytes sig)) / 2 ^ 255)%Z in
    let R := firstn 32 (abytes sig) in
    let S := (le_val (skipn 32 (abytes sig)) mod 2 ^ 255)%Z in
    on_curve A /\ py A = y /\ (px A = f0 \/ (fz (px A) mod 2 = sign)%Z) /\ le_val (abytes ed_key) = (fz y + 2 ^ 255 * sign)%Z /\
    (S < order_l)%Z /\
    le_val R = enc_val (padd (zmul S base_point) (popp (zmul (le_val (abytes (sha512 (R ++ abytes ed_key ++ message))) mod order_l) A))).

(** The external functions together. *)
Record external_spec (C : crypto) (sha512 : bytes -> arr64) (ed25519_verify : arr32 -> bytes -> arr64 -> bool) : Prop := {
  ext_hmac_len : forall k m, length (hmac C k m) = 32%nat;
  ext_aes_enc_len : forall k b, aes_key_ok k = true -> length b = 16%nat -> length (aes_enc C k b) = 16%nat;
  ext_aes_dec_len : forall k b, aes_key_ok k = true -> length b = 16%nat -> length (aes_dec C k b) = 16%nat;
  ext_aes : forall k b, aes_key_ok k = true -> length b = 16%nat -> aes_dec C k (aes_enc C k b) = b;
  ext_x25519 : x25519_spec (x_mult C) (x_base C);
  ext_ed25519 : ed25519_spec sha512 ed25519_verify
}.
