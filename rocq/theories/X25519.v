(** X25519.v: the function X25519 (RFC 7748, section 5) behind golang.org/x/crypto/curve25519 ScalarMult and ScalarBaseMult, which
    ecc/curve.go:41, 72 and kdf/hkdf.go:37 call. The package is not part of /repo: this file is the standard (the pseudocode of the RFC), not a
    model of its code. *)
From Verif Require Import Base FieldSpec.
From Coq Require Import ZArith List.
Import ListNotations.
Local Open Scope Z_scope.

Definition xp : Z := 2 ^ 255 - 19.
(** Arithmetic modulo the prime. *)
Definition madd (a b : Z) : Z := (a + b) mod xp.
Definition msub (a b : Z) : Z := (a - b) mod xp.
Definition mmul (a b : Z) : Z := (a * b) mod xp.
Fixpoint mpow (a : Z) (e : positive) : Z :=
  match e with xH => a mod xp | xO e' => let t := mpow a e' in mmul t t | xI e' => let t := mpow a e' in mmul (mmul t t) a end.

(** RFC 7748 section 5: one step of the ladder on (x_2, z_2, x_3, z_3), after the conditional swap. *)
Definition ladder_step (x1 x2 z2 x3 z3 : Z) : Z * Z * Z * Z :=
  let a := madd x2 z2 in
  let aa := mmul a a in
  let b := msub x2 z2 in
  let bb := mmul b b in
  let e := msub aa bb in
  let c := madd x3 z3 in
  let d := msub x3 z3 in
  let da := mmul d a in
  let cb := mmul c b in
  let s := madd da cb in
  let t := msub da cb in
  (mmul aa bb, mmul e (madd aa (mmul 121665 e)), mmul s s, mmul x1 (mmul t t)).
(** The loop for t = n-1 down to 0; the state carries the bit by which the two halves are swapped. *)
Fixpoint ladder (n : nat) (k x1 x2 z2 x3 z3 : Z) (swap : bool) : Z * Z :=
  match n with
  | O => if swap then (x3, z3) else (x2, z2)
  | S n' =>
      let kt := Z.testbit k (Z.of_nat n') in
      let '(x2', z2', x3', z3') := if xorb swap kt then (x3, z3, x2, z2) else (x2, z2, x3, z3) in
      let '(x2'', z2'', x3'', z3'') := ladder_step x1 x2' z2' x3' z3' in
      ladder n' k x1 x2'' z2'' x3'' z3'' kt
  end.
(** decodeScalar25519, decodeUCoordinate, encodeUCoordinate. *)
Definition decode_scalar (k : bytes) : Z := 2 ^ 254 + 8 * ((le_val k / 8) mod 2 ^ 251).
Definition decode_u (u : bytes) : Z := le_val u mod 2 ^ 255.
Fixpoint encode_le (n : nat) (z : Z) : bytes := match n with O => [] | S n' => n2b (Z.to_N (z mod 256)) :: encode_le n' (z / 256) end.
Definition x25519 (k u : arr32) : arr32 :=
  let x1 := decode_u (abytes u) in
  let '(x2, z2) := ladder 255 (decode_scalar (abytes k)) x1 1 0 x1 1 false in
  to_arr 32 (encode_le 32 (mmul x2 (mpow z2 (Z.to_pos (xp - 2))))).
Definition x25519_base (k : arr32) : arr32 := x25519 k (to_arr 32 [x09]).
