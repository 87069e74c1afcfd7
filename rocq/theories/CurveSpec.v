(** CurveSpec.v: the curve of Ed25519 and what scalar multiplication, encoding and verification mean (RFC 8032, section
    5.1). Mathematics only: nothing here models code. *)
From Verif Require Import Base Field25519 FieldSpec ScalarSpec Fp.
From Coq Require Import ZArith NArith List.
Import ListNotations.
Local Open Scope F_scope.

(** The twisted Edwards curve -x^2 + y^2 = 1 + d x^2 y^2 with d = -121665/121666. *)
Definition d_ed : F := - ofZ 121665 / ofZ 121666.
Definition point : Type := (F * F)%type.
Definition px (P : point) : F := fst P.
Definition py (P : point) : F := snd P.
Definition on_curve (P : point) : Prop := py P * py P - px P * px P = 1 + d_ed * (px P * px P * (py P * py P)).

(** The addition law, the neutral element and the inverse. *)
Definition padd (P Q : point) : point :=
  ((px P * py Q + py P * px Q) / (1 + d_ed * px P * px Q * py P * py Q),
   (py P * py Q + px P * px Q) / (1 - d_ed * px P * px Q * py P * py Q)).
Definition pzero : point := (0, 1).
Definition popp (P : point) : point := (- px P, py P).
(** n P: P added n times to the neutral element. *)
Definition smul (n : N) (P : point) : point := N.iter n (fun Q => padd Q P) pzero.
Definition zmul (z : Z) (P : point) : point := match z with Zneg _ => popp (smul (Z.abs_N z) P) | _ => smul (Z.to_N z) P end.

(** The base point: y = 4/5 and x even. *)
Definition base_point : point :=
  (ofZ 15112221349535400772501151409588531511454012693041857206046113283949847762202, ofZ 4 / ofZ 5).

(** The 32-byte encoding: y with the parity of x in the top bit. *)
Definition enc_val (P : point) : Z := (fz (py P) + 2 ^ 255 * (fz (px P) mod 2))%Z.
Definition encodes (s : arr32) (P : point) : Prop := le_val (abytes s) = enc_val P.
(** Decoding: the y-coordinate is read modulo the prime, and the top bit chooses x (for x = 0 it is ignored). *)
Definition decodes (s : arr32) (P : point) : Prop :=
  on_curve P /\ py P = ofZ (le_val (abytes s) mod 2 ^ 255) /\ (px P = 0 \/ (fz (px P) mod 2 = le_val (abytes s) / 2 ^ 255)%Z).
