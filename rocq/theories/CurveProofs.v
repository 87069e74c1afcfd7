(** CurveProofs.v: the addition law of a twisted Edwards curve -x^2 + y^2 = 1 + d x^2 y^2 over any field in which -1 is a
    square and d is not: it is complete, closed, commutative and associative. The cofactors of the three polynomial
    identities were computed outside and are checked by [ring]. Mathematics only. *)
From Coq Require Import ZArith NArith Lia List Ring Field.

Section Curve.
Variable K : Type.
Variables k0 k1 : K.
Variables kadd kmul ksub : K -> K -> K.
Variable kopp : K -> K.
Variable kdiv : K -> K -> K.
Variable kinv : K -> K.
Hypothesis Kth : field_theory k0 k1 kadd kmul ksub kopp kdiv kinv (@eq K).
Hypothesis K_dec : forall a b : K, {a = b} + {a <> b}.
Hypothesis two_neq_0 : kadd k1 k1 <> k0.
Variables i d : K.
Hypothesis i_square : kmul i i = kopp k1.
Hypothesis d_nonsquare : forall s : K, kmul s s <> d.
Add Field K_field : Kth.

Declare Scope K_scope.
Local Open Scope K_scope.
Local Infix "+" := kadd : K_scope.
Local Infix "*" := kmul : K_scope.
Local Infix "-" := ksub : K_scope.
Local Infix "/" := kdiv : K_scope.
Local Notation "- x" := (kopp x) : K_scope.
Local Notation "0" := k0 : K_scope.
Local Notation "1" := k1 : K_scope.

Lemma kmul_zero : forall a b : K, a * b = 0 -> a = 0 \/ b = 0.
Proof.
  intros a b H. destruct (K_dec a 0) as [E|E]; [left; exact E|right].
  transitivity (kinv a * (a * b)); [field; exact E|]. rewrite H. ring.
Qed.
Lemma ksub_zero : forall a b : K, a - b = 0 -> a = b.
Proof. intros a b H. transitivity (a - b + b); [ring|]. rewrite H. ring. Qed.
Lemma kdiv_eq : forall a b c : K, b <> 0 -> c * b = a -> c = a / b.
Proof. intros a b c H <-. field. exact H. Qed.
Lemma kdiv_unique : forall a b c : K, b <> 0 -> c = a / b -> c * b = a.
Proof. intros a b c H ->. field. exact H. Qed.

Section Identities.
Variables x1 y1 x2 y2 x3 y3 : K.
Let X := x1 * y2 + y1 * x2.
Let Y := y1 * y2 + x1 * x2.
Let m := d * x1 * x2 * y1 * y2.
Let X' := x2 * y3 + y2 * x3.
Let Y' := y2 * y3 + x2 * x3.
Let m' := d * x2 * x3 * y2 * y3.
Let E1 := (y1*y1 - x1*x1 - 1 - d*(x1*x1*(y1*y1))).
Let E2 := (y2*y2 - x2*x2 - 1 - d*(x2*x2*(y2*y2))).
Let E3 := (y3*y3 - x3*x3 - 1 - d*(x3*x3*(y3*y3))).

Lemma assoc_x : E1 = 0 -> E2 = 0 -> E3 = 0 ->
  (X * (1 - m) * y3 + Y * (1 + m) * x3) * ((1 + m') * (1 - m') + d * X' * Y' * x1 * y1)
  = (X' * (1 - m') * y1 + Y' * (1 + m') * x1) * ((1 + m) * (1 - m) + d * X * Y * x3 * y3).
Proof.
  intros H1 H2 H3. apply ksub_zero.
  match goal with |- ?l = 0 => transitivity (
   E1 * (0 - d*y1*x2*y2*y2*y2*y2*x3*x3*y3 - d*y1*x2*x2*y2*y2*y2*x3 - d*y1*x2*x2*y2*y2*y2*x3*x3*x3 - d*y1*x2*x2*x2*y2*y2*y3 + d*y1*x2*x2*x2*y2*y2*y3*y3*y3 +
    d*y1*x2*x2*x2*x2*y2*x3*y3*y3 + d*x1*x2*y2*y2*y2*y2*x3*y3*y3 - d*x1*x2*x2*y2*y2*y2*y3 + d*x1*x2*x2*y2*y2*y2*y3*y3*y3 - d*x1*x2*x2*x2*y2*y2*x3 -
    d*x1*x2*x2*x2*y2*y2*x3*x3*x3 - d*x1*x2*x2*x2*x2*y2*x3*x3*y3 + d*d*y1*x2*x2*x2*y2*y2*y2*y2*x3*x3*y3 + d*d*y1*x2*x2*x2*x2*y2*y2*y2*x3*y3*y3 -
    d*d*x1*x2*x2*x2*y2*y2*y2*y2*x3*y3*y3 - d*d*x1*x2*x2*x2*x2*y2*y2*y2*x3*x3*y3) +
   E2 * (y1*y2*x3 - y1*y2*x3*y3*y3 + y1*y2*x3*x3*x3 + y1*x2*y3 - y1*x2*y3*y3*y3 + y1*x2*x3*x3*y3 - y1*y1*y1*y2*x3 + y1*y1*y1*y2*x3*y3*y3 - y1*y1*y1*y2*x3*x3*x3
    - y1*y1*y1*x2*y3 + y1*y1*y1*x2*y3*y3*y3 - y1*y1*y1*x2*x3*x3*y3 + x1*y2*y3 - x1*y2*y3*y3*y3 + x1*y2*x3*x3*y3 + x1*x2*x3 - x1*x2*x3*y3*y3 +
    x1*x2*x3*x3*x3 - x1*y1*y1*y2*y3 + x1*y1*y1*y2*y3*y3*y3 - x1*y1*y1*y2*x3*x3*y3 - x1*y1*y1*x2*x3 + x1*y1*y1*x2*x3*y3*y3 - x1*y1*y1*x2*x3*x3*x3 +
    x1*x1*y1*y2*x3 - x1*x1*y1*y2*x3*y3*y3 + x1*x1*y1*y2*x3*x3*x3 + x1*x1*y1*x2*y3 - x1*x1*y1*x2*y3*y3*y3 + x1*x1*y1*x2*x3*x3*y3 + x1*x1*x1*y2*y3 -
    x1*x1*x1*y2*y3*y3*y3 + x1*x1*x1*y2*x3*x3*y3 + x1*x1*x1*x2*x3 - x1*x1*x1*x2*x3*y3*y3 + x1*x1*x1*x2*x3*x3*x3 + d*y1*y2*x3*x3*x3*y3*y3 +
    d*y1*x2*x3*x3*y3*y3*y3 - d*y1*x2*y2*y2*x3*x3*y3 - d*y1*x2*x2*y2*x3*y3*y3 - d*y1*y1*y1*y2*x3*x3*x3*y3*y3 - d*y1*y1*y1*x2*x3*x3*y3*y3*y3 +
    d*y1*y1*y1*x2*y2*y2*x3*x3*y3 + d*y1*y1*y1*x2*x2*y2*x3*y3*y3 + d*x1*y2*x3*x3*y3*y3*y3 + d*x1*x2*x3*x3*x3*y3*y3 + d*x1*x2*y2*y2*x3*y3*y3 +
    d*x1*x2*x2*y2*x3*x3*y3 - d*x1*y1*y1*y2*x3*x3*y3*y3*y3 - d*x1*y1*y1*x2*x3*x3*x3*y3*y3 - d*x1*y1*y1*x2*y2*y2*x3*y3*y3 - d*x1*y1*y1*x2*x2*y2*x3*x3*y3 +
    d*x1*x1*y1*y2*x3*x3*x3*y3*y3 + d*x1*x1*y1*x2*x3*x3*y3*y3*y3 - d*x1*x1*y1*x2*y2*y2*x3*x3*y3 - d*x1*x1*y1*x2*x2*y2*x3*y3*y3 +
    d*x1*x1*x1*y2*x3*x3*y3*y3*y3 + d*x1*x1*x1*x2*x3*x3*x3*y3*y3 + d*x1*x1*x1*x2*y2*y2*x3*y3*y3 + d*x1*x1*x1*x2*x2*y2*x3*x3*y3 +
    d*d*x1*y1*y1*x2*y2*y2*x3*x3*x3*y3*y3 - d*d*x1*y1*y1*x2*x2*y2*x3*x3*y3*y3*y3 - d*d*x1*x1*y1*x2*y2*y2*x3*x3*y3*y3*y3 +
    d*d*x1*x1*y1*x2*x2*y2*x3*x3*x3*y3*y3) +
   E3 * (0 - y1*y2*x3 + y1*y2*y2*y2*x3 - y1*x2*y3 + y1*x2*y2*y2*y3 - y1*x2*x2*y2*x3 - y1*x2*x2*x2*y3 + y1*y1*y1*y2*x3 - y1*y1*y1*y2*y2*y2*x3 + y1*y1*y1*x2*y3 -
    y1*y1*y1*x2*y2*y2*y3 + y1*y1*y1*x2*x2*y2*x3 + y1*y1*y1*x2*x2*x2*y3 - x1*y2*y3 + x1*y2*y2*y2*y3 - x1*x2*x3 + x1*x2*y2*y2*x3 - x1*x2*x2*y2*y3 -
    x1*x2*x2*x2*x3 + x1*y1*y1*y2*y3 - x1*y1*y1*y2*y2*y2*y3 + x1*y1*y1*x2*x3 - x1*y1*y1*x2*y2*y2*x3 + x1*y1*y1*x2*x2*y2*y3 + x1*y1*y1*x2*x2*x2*x3 -
    x1*x1*y1*y2*x3 + x1*x1*y1*y2*y2*y2*x3 - x1*x1*y1*x2*y3 + x1*x1*y1*x2*y2*y2*y3 - x1*x1*y1*x2*x2*y2*x3 - x1*x1*y1*x2*x2*x2*y3 - x1*x1*x1*y2*y3 +
    x1*x1*x1*y2*y2*y2*y3 - x1*x1*x1*x2*x3 + x1*x1*x1*x2*y2*y2*x3 - x1*x1*x1*x2*x2*y2*y3 - x1*x1*x1*x2*x2*x2*x3 - d*x1*y1*y1*x2*y2*y2*x3 +
    d*x1*y1*y1*x2*x2*y2*y3 + d*x1*x1*y1*x2*y2*y2*y3 - d*x1*x1*y1*x2*x2*y2*x3)) end.
  - subst X Y m X' Y' m' E1 E2 E3. ring.
  - rewrite H1, H2, H3. ring.
Qed.

Lemma assoc_y : E1 = 0 -> E2 = 0 -> E3 = 0 ->
  (Y * (1 + m) * y3 + X * (1 - m) * x3) * ((1 + m') * (1 - m') - d * X' * Y' * x1 * y1)
  = (Y' * (1 + m') * y1 + X' * (1 - m') * x1) * ((1 + m) * (1 - m) - d * X * Y * x3 * y3).
Proof.
  intros H1 H2 H3. apply ksub_zero.
  match goal with |- ?l = 0 => transitivity (
   E1 * (d*y1*x2*y2*y2*y2*y2*x3*y3*y3 - d*y1*x2*x2*y2*y2*y2*y3 + d*y1*x2*x2*y2*y2*y2*y3*y3*y3 - d*y1*x2*x2*x2*y2*y2*x3 - d*y1*x2*x2*x2*y2*y2*x3*x3*x3 -
    d*y1*x2*x2*x2*x2*y2*x3*x3*y3 - d*x1*x2*y2*y2*y2*y2*x3*x3*y3 - d*x1*x2*x2*y2*y2*y2*x3 - d*x1*x2*x2*y2*y2*y2*x3*x3*x3 - d*x1*x2*x2*x2*y2*y2*y3 +
    d*x1*x2*x2*x2*y2*y2*y3*y3*y3 + d*x1*x2*x2*x2*x2*y2*x3*y3*y3 - d*d*y1*x2*x2*x2*y2*y2*y2*y2*x3*y3*y3 - d*d*y1*x2*x2*x2*x2*y2*y2*y2*x3*x3*y3 +
    d*d*x1*x2*x2*x2*y2*y2*y2*y2*x3*x3*y3 + d*d*x1*x2*x2*x2*x2*y2*y2*y2*x3*y3*y3) +
   E2 * (y1*y2*y3 - y1*y2*y3*y3*y3 + y1*y2*x3*x3*y3 + y1*x2*x3 - y1*x2*x3*y3*y3 + y1*x2*x3*x3*x3 - y1*y1*y1*y2*y3 + y1*y1*y1*y2*y3*y3*y3 - y1*y1*y1*y2*x3*x3*y3
    - y1*y1*y1*x2*x3 + y1*y1*y1*x2*x3*y3*y3 - y1*y1*y1*x2*x3*x3*x3 + x1*y2*x3 - x1*y2*x3*y3*y3 + x1*y2*x3*x3*x3 + x1*x2*y3 - x1*x2*y3*y3*y3 +
    x1*x2*x3*x3*y3 - x1*y1*y1*y2*x3 + x1*y1*y1*y2*x3*y3*y3 - x1*y1*y1*y2*x3*x3*x3 - x1*y1*y1*x2*y3 + x1*y1*y1*x2*y3*y3*y3 - x1*y1*y1*x2*x3*x3*y3 +
    x1*x1*y1*y2*y3 - x1*x1*y1*y2*y3*y3*y3 + x1*x1*y1*y2*x3*x3*y3 + x1*x1*y1*x2*x3 - x1*x1*y1*x2*x3*y3*y3 + x1*x1*y1*x2*x3*x3*x3 + x1*x1*x1*y2*x3 -
    x1*x1*x1*y2*x3*y3*y3 + x1*x1*x1*y2*x3*x3*x3 + x1*x1*x1*x2*y3 - x1*x1*x1*x2*y3*y3*y3 + x1*x1*x1*x2*x3*x3*y3 + d*y1*y2*x3*x3*y3*y3*y3 +
    d*y1*x2*x3*x3*x3*y3*y3 + d*y1*x2*y2*y2*x3*y3*y3 + d*y1*x2*x2*y2*x3*x3*y3 - d*y1*y1*y1*y2*x3*x3*y3*y3*y3 - d*y1*y1*y1*x2*x3*x3*x3*y3*y3 -
    d*y1*y1*y1*x2*y2*y2*x3*y3*y3 - d*y1*y1*y1*x2*x2*y2*x3*x3*y3 + d*x1*y2*x3*x3*x3*y3*y3 + d*x1*x2*x3*x3*y3*y3*y3 - d*x1*x2*y2*y2*x3*x3*y3 -
    d*x1*x2*x2*y2*x3*y3*y3 - d*x1*y1*y1*y2*x3*x3*x3*y3*y3 - d*x1*y1*y1*x2*x3*x3*y3*y3*y3 + d*x1*y1*y1*x2*y2*y2*x3*x3*y3 + d*x1*y1*y1*x2*x2*y2*x3*y3*y3 +
    d*x1*x1*y1*y2*x3*x3*y3*y3*y3 + d*x1*x1*y1*x2*x3*x3*x3*y3*y3 + d*x1*x1*y1*x2*y2*y2*x3*y3*y3 + d*x1*x1*y1*x2*x2*y2*x3*x3*y3 +
    d*x1*x1*x1*y2*x3*x3*x3*y3*y3 + d*x1*x1*x1*x2*x3*x3*y3*y3*y3 - d*x1*x1*x1*x2*y2*y2*x3*x3*y3 - d*x1*x1*x1*x2*x2*y2*x3*y3*y3 +
    d*d*x1*y1*y1*x2*y2*y2*x3*x3*y3*y3*y3 - d*d*x1*y1*y1*x2*x2*y2*x3*x3*x3*y3*y3 - d*d*x1*x1*y1*x2*y2*y2*x3*x3*x3*y3*y3 +
    d*d*x1*x1*y1*x2*x2*y2*x3*x3*y3*y3*y3) +
   E3 * (0 - y1*y2*y3 + y1*y2*y2*y2*y3 - y1*x2*x3 + y1*x2*y2*y2*x3 - y1*x2*x2*y2*y3 - y1*x2*x2*x2*x3 + y1*y1*y1*y2*y3 - y1*y1*y1*y2*y2*y2*y3 + y1*y1*y1*x2*x3 -
    y1*y1*y1*x2*y2*y2*x3 + y1*y1*y1*x2*x2*y2*y3 + y1*y1*y1*x2*x2*x2*x3 - x1*y2*x3 + x1*y2*y2*y2*x3 - x1*x2*y3 + x1*x2*y2*y2*y3 - x1*x2*x2*y2*x3 -
    x1*x2*x2*x2*y3 + x1*y1*y1*y2*x3 - x1*y1*y1*y2*y2*y2*x3 + x1*y1*y1*x2*y3 - x1*y1*y1*x2*y2*y2*y3 + x1*y1*y1*x2*x2*y2*x3 + x1*y1*y1*x2*x2*x2*y3 -
    x1*x1*y1*y2*y3 + x1*x1*y1*y2*y2*y2*y3 - x1*x1*y1*x2*x3 + x1*x1*y1*x2*y2*y2*x3 - x1*x1*y1*x2*x2*y2*y3 - x1*x1*y1*x2*x2*x2*x3 - x1*x1*x1*y2*x3 +
    x1*x1*x1*y2*y2*y2*x3 - x1*x1*x1*x2*y3 + x1*x1*x1*x2*y2*y2*y3 - x1*x1*x1*x2*x2*y2*x3 - x1*x1*x1*x2*x2*x2*y3 - d*x1*y1*y1*x2*y2*y2*y3 +
    d*x1*y1*y1*x2*x2*y2*x3 + d*x1*x1*y1*x2*y2*y2*x3 - d*x1*x1*y1*x2*x2*y2*y3)) end.
  - subst X Y m X' Y' m' E1 E2 E3. ring.
  - rewrite H1, H2, H3. ring.
Qed.

Lemma closed_id : E1 = 0 -> E2 = 0 ->
  Y * (1 + m) * (Y * (1 + m)) - X * (1 - m) * (X * (1 - m)) = (1 + m) * (1 - m) * ((1 + m) * (1 - m)) + d * (X * X * (Y * Y)).
Proof.
  intros H1 H2. apply ksub_zero.
  match goal with |- ?l = 0 => transitivity (
   E1 * (y2*y2*y2*y2 - (1+1+1+1)*x2*x2*y2*y2 + (1+1)*x2*x2*y2*y2*y2*y2 + x2*x2*x2*x2 - (1+1)*x2*x2*x2*x2*y2*y2 - (1+1)*d*x2*x2*y2*y2 - (1+1)*d*x2*x2*x2*x2*y2*y2*y2*y2 - d*y1*y1*x2*x2*y2*y2*y2*y2 + d*y1*y1*x2*x2*x2*x2*y2*y2 + d*x1*x1*x2*x2*y2*y2*y2*y2 - d*x1*x1*x2*x2*x2*x2*y2*y2 -
    d*d*x2*x2*x2*x2*y2*y2*y2*y2 + d*d*y1*y1*x2*x2*x2*x2*y2*y2*y2*y2 - d*d*x1*x1*x2*x2*x2*x2*y2*y2*y2*y2 + d*d*d*x1*x1*y1*y1*x2*x2*x2*x2*y2*y2*y2*y2) +
   E2 * (1 + y2*y2 - x2*x2 + (1+1)*x2*x2*y2*y2 - y1*y1*y2*y2 + y1*y1*x2*x2 - (1+1)*y1*y1*x2*x2*y2*y2 + x1*x1*y2*y2 - x1*x1*x2*x2 + (1+1)*x1*x1*x2*x2*y2*y2
    + d*x2*x2*y2*y2 - (1+1)*d*y1*y1*x2*x2*y2*y2 + d*y1*y1*y1*y1*x2*x2*y2*y2 + (1+1)*d*x1*x1*x2*x2*y2*y2 + d*x1*x1*x1*x1*x2*x2*y2*y2)) end.
  - subst X Y m X' Y' m' E1 E2 E3. ring.
  - rewrite H1, H2. ring.
Qed.

End Identities.

Local Notation point := (K * K)%type.
Local Notation px := (@fst K K).
Local Notation py := (@snd K K).
Definition gon (P : point) : Prop := py P * py P - px P * px P = 1 + d * (px P * px P * (py P * py P)).
Definition gadd (P Q : point) : point :=
  ((px P * py Q + py P * px Q) / (1 + d * px P * px Q * py P * py Q), (py P * py Q + px P * px Q) / (1 - d * px P * px Q * py P * py Q)).
Definition gzero : point := (0, 1).
Definition gopp (P : point) : point := (- px P, py P).

Lemma on_curve_eq : forall P, gon P -> py P * py P - px P * px P - 1 - d * (px P * px P * (py P * py P)) = 0.
Proof. intros P H. unfold gon in H. rewrite H. ring. Qed.
Lemma eq_on_curve : forall P, py P * py P - px P * px P - 1 - d * (px P * px P * (py P * py P)) = 0 -> gon P.
Proof. intros P H. unfold gon. apply ksub_zero. rewrite <- H. ring. Qed.

Ltac nz := repeat (lazymatch goal with |- _ /\ _ => split end); match goal with H : ?x <> k0 |- ?x <> k0 => exact H end.

(** Completeness: if d x1 x2 y1 y2 is 1 or -1 then d is a square. *)
Lemma complete_aux : forall P Q e, gon P -> gon Q -> e * e = 1 -> d * px P * px Q * py P * py Q <> e.
Proof.
  intros [x1 y1] [x2 y2] e HP HQ HE H. apply on_curve_eq in HP, HQ. cbn [fst snd] in *.
  pose proof i_square as HI. pose proof d_nonsquare as ND.
  assert (NE : e <> 0) by (intros ->; apply (F_1_neq_0 Kth); rewrite <- HE; ring).
  assert (N1 : x1 * y1 <> 0). { intros KH. apply NE. rewrite <- H. transitivity (d * x2 * y2 * (x1 * y1)); [ring|]. rewrite KH. ring. }
  assert (N2 : x2 * y2 <> 0). { intros KH. apply NE. rewrite <- H. transitivity (d * x1 * y1 * (x2 * y2)); [ring|]. rewrite KH. ring. }
  assert (NX : x1 <> 0) by (intros Z0; apply N1; rewrite Z0; ring). assert (NY : y1 <> 0) by (intros Z0; apply N1; rewrite Z0; ring).
  assert (G : forall f  : K, f * f = 1 -> f * y2 + i * x2 <> 0 -> False).
  { intros f HF NZ. apply (ND ((i * x1 + e * f * y1) / (x1 * y1 * (f * y2 + i * x2)))).
    assert (KH : d * (x1 * y1 * (f * y2 + i * x2)) * (x1 * y1 * (f * y2 + i * x2)) = (i * x1 + e * f * y1) * (i * x1 + e * f * y1)).
    { apply ksub_zero.
      transitivity ((y1*y1 - x1*x1 - 1 - d*(x1*x1*(y1*y1))) * (-(1)) + (y2*y2 - x2*x2 - 1 - d*(x2*x2*(y2*y2))) * (d * x1*x1*y1*y1)
         + (i * i + 1) * (d * x1*x1*y1*y1*x2*x2 - x1*x1) + (f * f - 1) * (d * x1*x1*y1*y1*y2*y2 - e*e*y1*y1) - (e * e - 1) * y1 * y1
         + (d * x1 * x2 * y1 * y2 - e) * ((1 + 1) * f * i * x1 * y1) + (d * x1 * x2 * y1 * y2 * (d * x1 * x2 * y1 * y2) - 1)); [ring|].
      rewrite HP, HQ, HI, HF, HE, H, HE. ring. }
    replace ((i * x1 + e * f * y1) / (x1 * y1 * (f * y2 + i * x2)) * ((i * x1 + e * f * y1) / (x1 * y1 * (f * y2 + i * x2))))
      with ((i * x1 + e * f * y1) * (i * x1 + e * f * y1) / ((x1 * y1 * (f * y2 + i * x2)) * (x1 * y1 * (f * y2 + i * x2)))).
    - rewrite <- KH. field. nz.
    - field. nz. }
  destruct (K_dec (1 * y2 + i * x2) 0) as [Z1|Z1]; [|exact (G 1 ltac:(ring) Z1)].
  destruct (K_dec (- (1) * y2 + i * x2) 0) as [Z2|Z2]; [|exact (G (- (1)) ltac:(ring) Z2)].
  assert (Y0 : (1 + 1) * y2 = 0) by (transitivity ((1 * y2 + i * x2) - (- (1) * y2 + i * x2)); [ring|rewrite Z1, Z2; ring]).
  apply kmul_zero in Y0. destruct Y0 as [Y0|Y0]; [exact (two_neq_0 Y0)|]. apply N2. rewrite Y0. ring.
Qed.

Lemma denom_plus : forall P Q, gon P -> gon Q -> 1 + d * px P * px Q * py P * py Q <> 0.
Proof.
  intros P Q HP HQ H. apply (complete_aux P Q (- (1)) HP HQ); [ring|]. apply ksub_zero. rewrite <- H. ring.
Qed.
Lemma denom_minus : forall P Q, gon P -> gon Q -> 1 - d * px P * px Q * py P * py Q <> 0.
Proof.
  intros P Q HP HQ H. apply (complete_aux P Q 1 HP HQ); [ring|]. symmetry. apply ksub_zero. exact H.
Qed.

(** The sum, by its defining equations. *)
Definition is_sum (P Q R : point) : Prop :=
  px R * (1 + d * px P * px Q * py P * py Q) = px P * py Q + py P * px Q /\
  py R * (1 - d * px P * px Q * py P * py Q) = py P * py Q + px P * px Q.
Lemma padd_is_sum : forall P Q, gon P -> gon Q -> is_sum P Q (gadd P Q).
Proof.
  intros P Q HP HQ. unfold is_sum, gadd. cbn [fst snd]. pose proof (denom_plus P Q HP HQ) as DP. pose proof (denom_minus P Q HP HQ) as DM.
  split; [exact (kdiv_unique _ _ _ DP eq_refl)|exact (kdiv_unique _ _ _ DM eq_refl)].
Qed.
Lemma is_sum_padd : forall P Q R, gon P -> gon Q -> is_sum P Q R -> R = gadd P Q.
Proof.
  intros P Q [x y] HP HQ [A B]. cbn [fst snd] in A, B. unfold gadd. f_equal; [exact (kdiv_eq _ _ _ (denom_plus P Q HP HQ) A)|exact (kdiv_eq _ _ _ (denom_minus P Q HP HQ) B)].
Qed.

Lemma padd_on_curve : forall P Q, gon P -> gon Q -> gon (gadd P Q).
Proof.
  intros P Q HP HQ. pose proof (denom_plus P Q HP HQ) as DP. pose proof (denom_minus P Q HP HQ) as DM.
  pose proof (closed_id (px P) (py P) (px Q) (py Q) (on_curve_eq P HP) (on_curve_eq Q HQ)) as E.
  unfold gon, gadd. cbn [fst snd].
  set (m := d * px P * px Q * py P * py Q) in *. set (X := px P * py Q + py P * px Q) in *. set (Y := py P * py Q + px P * px Q) in *.
  clearbody m X Y.
  assert (KH : forall a b  : K, a * ((1 + m) * (1 + m) * ((1 - m) * (1 - m))) = b * ((1 + m) * (1 + m) * ((1 - m) * (1 - m))) -> a = b).
  { intros a b H. replace a with (a * ((1 + m) * (1 + m) * ((1 - m) * (1 - m))) / ((1 + m) * (1 + m) * ((1 - m) * (1 - m)))) by (field; nz). rewrite H. field. nz. }
  apply KH. transitivity (Y * (1 + m) * (Y * (1 + m)) - X * (1 - m) * (X * (1 - m))); [field; nz|]. rewrite E. field. nz.
Qed.

Lemma pzero_on_curve : gon gzero.
Proof. unfold gon, gzero. cbn [fst snd]. ring. Qed.
Lemma popp_on_curve : forall P, gon P -> gon (gopp P).
Proof. intros P H. unfold gon, gopp in *. cbn [fst snd]. transitivity (py P * py P - px P * px P); [ring|]. rewrite H. ring. Qed.

Lemma padd_comm : forall P Q, gadd P Q = gadd Q P.
Proof. intros P Q. unfold gadd. f_equal; f_equal; ring. Qed.
Lemma padd_zero_r : forall P, gadd P gzero = P.
Proof.
  intros [x y]. unfold gadd, gzero. cbn [fst snd]. f_equal; symmetry; (apply kdiv_eq; [intros H; apply (F_1_neq_0 Kth); rewrite <- H; ring|ring]).
Qed.
Lemma padd_zero_l : forall P, gadd gzero P = P.
Proof. intros P. rewrite padd_comm. apply padd_zero_r. Qed.
Lemma padd_opp : forall P, gon P -> gadd P (gopp P) = gzero.
Proof.
  intros P H. symmetry. apply is_sum_padd; [exact H|apply popp_on_curve, H|]. unfold is_sum, gopp, gzero. cbn [fst snd]. split; [ring|].
  apply on_curve_eq in H. transitivity (py P * py P - px P * px P - (py P * py P - px P * px P - 1 - d * (px P * px P * (py P * py P)))); [ring|rewrite H; ring].
Qed.

Lemma padd_assoc : forall P Q R, gon P -> gon Q -> gon R -> gadd (gadd P Q) R = gadd P (gadd Q R).
Proof.
  intros P Q R HP HQ HR. pose proof (padd_on_curve P Q HP HQ) as HPQ. pose proof (padd_on_curve Q R HQ HR) as HQR.
  pose proof (assoc_x _ _ _ _ _ _ (on_curve_eq P HP) (on_curve_eq Q HQ) (on_curve_eq R HR)) as EX.
  pose proof (assoc_y _ _ _ _ _ _ (on_curve_eq P HP) (on_curve_eq Q HQ) (on_curve_eq R HR)) as EY.
  pose proof (denom_plus P Q HP HQ) as D1. pose proof (denom_minus P Q HP HQ) as D2. pose proof (denom_plus Q R HQ HR) as D3. pose proof (denom_minus Q R HQ HR) as D4.
  pose proof (denom_plus _ R HPQ HR) as D5. pose proof (denom_minus _ R HPQ HR) as D6. pose proof (denom_plus P _ HP HQR) as D7. pose proof (denom_minus P _ HP HQR) as D8.
  unfold gadd in *. cbn [fst snd] in *.
  set (m := d * px P * px Q * py P * py Q) in *. set (X := px P * py Q + py P * px Q) in *. set (Y := py P * py Q + px P * px Q) in *.
  set (m' := d * px Q * px R * py Q * py R) in *. set (X' := px Q * py R + py Q * px R) in *. set (Y' := py Q * py R + px Q * px R) in *.
  set (x1 := px P) in *. set (y1 := py P) in *. set (x3 := px R) in *. set (y3 := py R) in *. clearbody m X Y m' X' Y' x1 y1 x3 y3. clear HPQ HQR.
  assert (N1 : (1 + m) * (1 - m) + d * X * Y * x3 * y3 <> 0).
  { intros Z. apply D5. replace (1 + d * (X / (1 + m)) * x3 * (Y / (1 - m)) * y3) with (((1 + m) * (1 - m) + d * X * Y * x3 * y3) / ((1 + m) * (1 - m))) by (field; nz). rewrite Z. field. nz. }
  assert (N2 : (1 + m) * (1 - m) - d * X * Y * x3 * y3 <> 0).
  { intros Z. apply D6. replace (1 - d * (X / (1 + m)) * x3 * (Y / (1 - m)) * y3) with (((1 + m) * (1 - m) - d * X * Y * x3 * y3) / ((1 + m) * (1 - m))) by (field; nz). rewrite Z. field. nz. }
  assert (N3 : (1 + m') * (1 - m') + d * X' * Y' * x1 * y1 <> 0).
  { intros Z. apply D7. replace (1 + d * x1 * (X' / (1 + m')) * y1 * (Y' / (1 - m'))) with (((1 + m') * (1 - m') + d * X' * Y' * x1 * y1) / ((1 + m') * (1 - m'))) by (field; nz). rewrite Z. field. nz. }
  assert (N4 : (1 + m') * (1 - m') - d * X' * Y' * x1 * y1 <> 0).
  { intros Z. apply D8. replace (1 - d * x1 * (X' / (1 + m')) * y1 * (Y' / (1 - m'))) with (((1 + m') * (1 - m') - d * X' * Y' * x1 * y1) / ((1 + m') * (1 - m'))) by (field; nz). rewrite Z. field. nz. }
  assert (M3 : (1 + m') * (1 - m') + d * x1 * X' * y1 * Y' <> 0) by (intros Z; apply N3; rewrite <- Z; ring).
  assert (M4 : (1 + m') * (1 - m') - d * x1 * X' * y1 * Y' <> 0) by (intros Z; apply N4; rewrite <- Z; ring).
  assert (M1 : (1 + m) * (1 - m) + d * X * x3 * Y * y3 <> 0) by (intros Z; apply N1; rewrite <- Z; ring).
  assert (M2 : (1 + m) * (1 - m) - d * X * x3 * Y * y3 <> 0) by (intros Z; apply N2; rewrite <- Z; ring).
  f_equal.
  - transitivity ((X * (1 - m) * y3 + Y * (1 + m) * x3) / ((1 + m) * (1 - m) + d * X * Y * x3 * y3)).
    + field. nz.
    + transitivity ((X' * (1 - m') * y1 + Y' * (1 + m') * x1) / ((1 + m') * (1 - m') + d * X' * Y' * x1 * y1)); [|field; nz].
      symmetry. apply kdiv_eq; [exact N1|].
      transitivity ((X' * (1 - m') * y1 + Y' * (1 + m') * x1) * ((1 + m) * (1 - m) + d * X * Y * x3 * y3) / ((1 + m') * (1 - m') + d * X' * Y' * x1 * y1)); [field; exact N3|].
      rewrite <- EX. field. exact N3.
  - transitivity ((Y * (1 + m) * y3 + X * (1 - m) * x3) / ((1 + m) * (1 - m) - d * X * Y * x3 * y3)).
    + field. nz.
    + transitivity ((Y' * (1 + m') * y1 + X' * (1 - m') * x1) / ((1 + m') * (1 - m') - d * X' * Y' * x1 * y1)); [|field; nz].
      symmetry. apply kdiv_eq; [exact N2|].
      transitivity ((Y' * (1 + m') * y1 + X' * (1 - m') * x1) * ((1 + m) * (1 - m) - d * X * Y * x3 * y3) / ((1 + m') * (1 - m') - d * X' * Y' * x1 * y1)); [field; exact N4|].
      rewrite <- EY. field. exact N4.
Qed.
End Curve.
