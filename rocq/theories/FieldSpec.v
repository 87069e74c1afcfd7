(** FieldSpec.v: what the limb arithmetic must compute. Nothing here models code. *)
From Verif Require Import Base Field25519.
From Coq Require Import ZArith List.
Local Open Scope Z_scope.

(** The prime of the field. *)
Definition p25519 : Z := 2 ^ 255 - 19.

(** The integer t[0] + 2^26 t[1] + 2^51 t[2] + 2^77 t[3] + 2^102 t[4] + ... + 2^230 t[9]. *)
Definition fe_val (t : fe) : Z :=
  e0 t + 2 ^ 26 * e1 t + 2 ^ 51 * e2 t + 2 ^ 77 * e3 t + 2 ^ 102 * e4 t + 2 ^ 128 * e5 t + 2 ^ 153 * e6 t + 2 ^ 179 * e7 t
  + 2 ^ 204 * e8 t + 2 ^ 230 * e9 t.

(** Even limbs at most n/d * 2^25, odd limbs at most n/d * 2^24, in absolute value. *)
Definition fe_bound (n d : Z) (t : fe) : Prop :=
  d * Z.abs (e0 t) <= n * 2 ^ 25 /\ d * Z.abs (e1 t) <= n * 2 ^ 24 /\ d * Z.abs (e2 t) <= n * 2 ^ 25 /\
  d * Z.abs (e3 t) <= n * 2 ^ 24 /\ d * Z.abs (e4 t) <= n * 2 ^ 25 /\ d * Z.abs (e5 t) <= n * 2 ^ 24 /\
  d * Z.abs (e6 t) <= n * 2 ^ 25 /\ d * Z.abs (e7 t) <= n * 2 ^ 24 /\ d * Z.abs (e8 t) <= n * 2 ^ 25 /\
  d * Z.abs (e9 t) <= n * 2 ^ 24.

(** The little-endian number of a byte string. *)
Fixpoint le_val (l : bytes) : Z := match l with [] => 0 | b :: r => zb b + 256 * le_val r end.

(** Congruence modulo the prime. *)
Definition eqp (a b : Z) : Prop := a mod p25519 = b mod p25519.
