(** LadderAlgebra.v: the doubling and the differential addition of the Montgomery ladder (RFC 7748) on the y-coordinates of a
    twisted Edwards curve, over any field. Mathematics only. *)
From Coq Require Import Ring Field.

Section Ladder.
Variable K : Type.
Variables k0 k1 : K.
Variables kadd kmul ksub : K -> K -> K.
Variable kopp : K -> K.
Variable kdiv : K -> K -> K.
Variable kinv : K -> K.
Hypothesis Kth : field_theory k0 k1 kadd kmul ksub kopp kdiv kinv (@eq K).
Hypothesis K_dec : forall a b : K, {a = b} + {a <> b}.
Hypothesis two_neq_0 : kadd k1 k1 <> k0.
Variables d a24 : K.
Hypothesis d_a24 : kmul (kadd k1 d) (kadd k1 a24) = k1.
Add Field K_field : Kth.

Declare Scope K_scope.
Local Open Scope K_scope.
Local Infix "+" := kadd : K_scope.
Local Infix "*" := kmul : K_scope.
Local Infix "-" := ksub : K_scope.
Local Infix "/" := kdiv : K_scope.
Local Notation "- x" := (kopp x) : K_scope.
Local Notation "0" := k0 : K_scope.
Local Notation "1" := k1 : K_scope.

Lemma kmul_zero : forall a b : K, a * b = 0 -> a = 0 \/ b = 0.
Proof.
  intros a b H. destruct (K_dec a 0) as [E|E]; [left; exact E|right].
  transitivity (kinv a * (a * b)); [field; exact E|]. rewrite H. ring.
Qed.
Lemma kmul_neq : forall a b : K, a <> 0 -> b <> 0 -> a * b <> 0.
Proof. intros a b HA HB H. destruct (kmul_zero a b H) as [E|E]; [exact (HA E)|exact (HB E)]. Qed.
Lemma kcancel : forall a b c : K, a <> 0 -> a * b = a * c -> b = c.
Proof. intros a b c H E. transitivity (kinv a * (a * b)); [field; exact H|]. rewrite E. field. exact H. Qed.
Lemma ksub_zero : forall a b : K, a - b = 0 -> a = b.
Proof. intros a b H. transitivity (a - b + b); [ring|]. rewrite H. ring. Qed.

(** (X : Z) stands for the u-coordinate (1 + y)/(1 - y). *)
Definition mrep (X Z y : K) : Prop := exists l, l <> 0 /\ X = l * (1 + y) /\ Z = l * (1 - y).
Lemma mk_mrep : forall X Z y, (X <> 0 \/ Z <> 0) -> X * (1 - y) = Z * (1 + y) -> mrep X Z y.
Proof.
  intros X Z y HN H.
  assert (EX : (X + Z) / (1 + 1) * (1 + y) = X).
  { apply (kcancel (1 + 1)); [exact two_neq_0|]. transitivity (X + X * y + Z * (1 + y)); [field; exact two_neq_0|]. rewrite <- H. ring. }
  assert (EZ : (X + Z) / (1 + 1) * (1 - y) = Z).
  { apply (kcancel (1 + 1)); [exact two_neq_0|]. transitivity (X * (1 - y) + Z - Z * y); [field; exact two_neq_0|]. rewrite H. ring. }
  exists ((X + Z) / (1 + 1)). split; [|split; [symmetry; exact EX|symmetry; exact EZ]].
  intros E. rewrite E in EX, EZ. destruct HN as [HN|HN]; apply HN; [rewrite <- EX|rewrite <- EZ]; ring.
Qed.

Lemma diff_identity : forall x1 y1 x2 y2,
  y1 * y1 - x1 * x1 = 1 + d * (x1 * x1 * (y1 * y1)) -> y2 * y2 - x2 * x2 = 1 + d * (x2 * x2 * (y2 * y2)) ->
  let m := d * x1 * x2 * y1 * y2 in
  (y1 + y2) * (y1 + y2) * ((1 - m - (y1 * y2 + x1 * x2)) * (1 + m - (y1 * y2 - x1 * x2))) =
  (y1 - y2) * (y1 - y2) * ((1 - m + (y1 * y2 + x1 * x2)) * (1 + m + (y1 * y2 - x1 * x2))).
Proof.
  intros x1 y1 x2 y2 H1 H2 m.
  assert (K1 : x1 * x1 * (1 + d * (y1 * y1)) = y1 * y1 - 1). { transitivity (1 + d * (x1 * x1 * (y1 * y1)) + x1 * x1 - 1); [ring|]. rewrite <- H1. ring. }
  assert (K2 : x2 * x2 * (1 + d * (y2 * y2)) = y2 * y2 - 1). { transitivity (1 + d * (x2 * x2 * (y2 * y2)) + x2 * x2 - 1); [ring|]. rewrite <- H2. ring. }
  apply ksub_zero.
  transitivity ((1 + 1) * (1 + 1) * (y1 * y2) * ((1 - y1 * y1) * (1 - y2 * y2) - (x1 * x1 * (1 + d * (y1 * y1))) * (x2 * x2 * (1 + d * (y2 * y2))))).
  - unfold m. ring.
  - rewrite K1, K2. ring.
Qed.

(** Differential addition: yp, ym the y-coordinates of the sum and of the difference, u the u-coordinate of the difference. *)
Lemma add_rep : forall x1 y1 x2 y2 yp ym u X2 Z2 X3 Z3,
  y1 * y1 - x1 * x1 = 1 + d * (x1 * x1 * (y1 * y1)) -> y2 * y2 - x2 * x2 = 1 + d * (x2 * x2 * (y2 * y2)) ->
  1 - d * x1 * x2 * y1 * y2 <> 0 -> 1 + d * x1 * x2 * y1 * y2 <> 0 ->
  yp * (1 - d * x1 * x2 * y1 * y2) = y1 * y2 + x1 * x2 -> ym * (1 + d * x1 * x2 * y1 * y2) = y1 * y2 - x1 * x2 ->
  u <> 0 -> u * (1 - ym) = 1 + ym ->
  mrep X2 Z2 y1 -> mrep X3 Z3 y2 ->
  mrep (((X3 - Z3) * (X2 + Z2) + (X3 + Z3) * (X2 - Z2)) * ((X3 - Z3) * (X2 + Z2) + (X3 + Z3) * (X2 - Z2)))
       (u * (((X3 - Z3) * (X2 + Z2) - (X3 + Z3) * (X2 - Z2)) * ((X3 - Z3) * (X2 + Z2) - (X3 + Z3) * (X2 - Z2)))) yp.
Proof.
  intros x1 y1 x2 y2 yp ym u X2 Z2 X3 Z3 H1 H2 NP NM HP HM HU HD (l & Hl & -> & ->) (m & Hm & -> & ->).
  assert (H4 : (1 + 1) * (1 + 1) <> 0) by (apply kmul_neq; exact two_neq_0).
  set (c := ((1 + 1) * (1 + 1)) * (l * m)). assert (Hc : c <> 0) by (apply kmul_neq; [exact H4|apply kmul_neq; assumption]).
  assert (ES : (m * (1 + y2) - m * (1 - y2)) * (l * (1 + y1) + l * (1 - y1)) + (m * (1 + y2) + m * (1 - y2)) * (l * (1 + y1) - l * (1 - y1)) = c * (y1 + y2)) by (unfold c; ring).
  assert (ED : (m * (1 + y2) - m * (1 - y2)) * (l * (1 + y1) + l * (1 - y1)) - (m * (1 + y2) + m * (1 - y2)) * (l * (1 + y1) - l * (1 - y1)) = c * (y2 - y1)) by (unfold c; ring).
  rewrite ES, ED. clear ES ED.
  assert (HY : 1 - ym <> 0). { intros E. apply two_neq_0. assert (E1 : ym = 1) by (symmetry; apply ksub_zero; exact E). rewrite E1 in HD. rewrite <- HD. ring. }
  assert (R : (y1 + y2) * (y1 + y2) * (1 - yp) = u * ((y2 - y1) * (y2 - y1)) * (1 + yp)).
  { pose proof (diff_identity x1 y1 x2 y2 H1 H2) as I. cbv zeta in I. rewrite <- HP, <- HM in I.
    apply (kcancel ((1 - d * x1 * x2 * y1 * y2) * (1 + d * x1 * x2 * y1 * y2) * (1 - ym))); [apply kmul_neq; [apply kmul_neq; assumption|exact HY]|].
    generalize dependent (1 - d * x1 * x2 * y1 * y2). intros p NP HP I. generalize dependent (1 + d * x1 * x2 * y1 * y2). intros q NM HM I.
    transitivity ((y1 + y2) * (y1 + y2) * ((p - yp * p) * (q - ym * q))); [ring|]. rewrite I.
    transitivity ((y1 - y2) * (y1 - y2) * (p * q * (1 + yp)) * (1 + ym)); [ring|]. rewrite <- HD. ring. }
  apply mk_mrep.
  - destruct (K_dec (y1 + y2) 0) as [E1|E1]; [|left; apply kmul_neq; apply kmul_neq; assumption].
    destruct (K_dec (y2 - y1) 0) as [E2|E2]; [exfalso|right; apply kmul_neq; [exact HU|apply kmul_neq; apply kmul_neq; assumption]].
    assert (Y1 : y1 = 0). { apply (kcancel (1 + 1)); [exact two_neq_0|]. transitivity ((y1 + y2) - (y2 - y1)); [ring|]. rewrite E1, E2. ring. }
    assert (Y2 : y2 = 0). { transitivity ((y2 - y1) + y1); [ring|]. rewrite E2, Y1. ring. } subst y1 y2.
    assert (S1 : x1 * x1 = - (1)). { transitivity (0 * 0 - (0 * 0 - x1 * x1)); [ring|]. rewrite H1. ring. }
    assert (S2 : x2 * x2 = - (1)). { transitivity (0 * 0 - (0 * 0 - x2 * x2)); [ring|]. rewrite H2. ring. }
    assert (M : ym = - (x1 * x2)). { transitivity (ym * (1 + d * x1 * x2 * 0 * 0)); [ring|]. rewrite HM. ring. }
    assert (M2 : (1 - ym) * (1 + ym) = 0). { rewrite M. transitivity (1 - (x1 * x1) * (x2 * x2)); [ring|]. rewrite S1, S2. ring. }
    destruct (kmul_zero _ _ M2) as [M3|M3]; [exact (HY M3)|]. rewrite M3 in HD. destruct (kmul_zero _ _ HD) as [M4|M4]; [exact (HU M4)|exact (HY M4)].
  - transitivity (c * c * ((y1 + y2) * (y1 + y2) * (1 - yp))); [ring|]. rewrite R. ring.
Qed.

(** Doubling. *)
Lemma dbl_rep : forall x y yd X Z,
  y * y - x * x = 1 + d * (x * x * (y * y)) -> 1 - d * x * x * y * y <> 0 -> yd * (1 - d * x * x * y * y) = y * y + x * x ->
  mrep X Z y ->
  mrep (((X + Z) * (X + Z)) * ((X - Z) * (X - Z)))
       (((X + Z) * (X + Z) - (X - Z) * (X - Z)) * ((X + Z) * (X + Z) + a24 * ((X + Z) * (X + Z) - (X - Z) * (X - Z)))) yd.
Proof.
  intros x y yd X Z H HN HD (l & Hl & -> & ->).
  assert (H4 : (1 + 1) * (1 + 1) <> 0) by (apply kmul_neq; exact two_neq_0).
  set (c := ((1 + 1) * (1 + 1)) * (l * l)). assert (Hc : c <> 0) by (apply kmul_neq; [exact H4|apply kmul_neq; assumption]).
  assert (EA : (l * (1 + y) + l * (1 - y)) * (l * (1 + y) + l * (1 - y)) = c) by (unfold c; ring).
  assert (EB : (l * (1 + y) - l * (1 - y)) * (l * (1 + y) - l * (1 - y)) = c * (y * y)) by (unfold c; ring).
  rewrite EA, EB. clear EA EB.
  assert (HA : 1 + a24 <> 0). { intros E. rewrite E in d_a24. apply two_neq_0. rewrite <- d_a24. ring. }
  assert (EC : 1 + a24 * (1 - y * y) = (1 + a24) * (1 + d * (y * y))).
  { transitivity (1 + a24 - a24 * (y * y)); [ring|]. assert (ED : - a24 = d * (1 + a24)). { transitivity (1 - (1 + a24)); [ring|]. rewrite <- d_a24 at 1. ring. }
    transitivity (1 + a24 + (- a24) * (y * y)); [ring|]. rewrite ED. ring. }
  assert (EX : (1 + d * (y * y)) * (1 + x * x) = (1 + d) * (y * y)).
  { transitivity (1 + d * (x * x * (y * y)) + d * (y * y) + x * x); [ring|]. rewrite <- H. ring. }
  assert (R : y * y * (1 - yd) = (1 - y * y) * (1 + a24 * (1 - y * y)) * (1 + yd)).
  { assert (E1 : 1 - d * x * x * y * y = (1 + 1) - y * y + x * x). { transitivity ((1 + 1) - (1 + d * (x * x * (y * y)))); [ring|]. rewrite <- H. ring. }
    apply (kcancel (1 - d * x * x * y * y)); [exact HN|].
    transitivity (y * y * ((1 - d * x * x * y * y) - yd * (1 - d * x * x * y * y))); [ring|].
    transitivity ((1 - y * y) * (1 + a24 * (1 - y * y)) * ((1 - d * x * x * y * y) + yd * (1 - d * x * x * y * y))); [|ring].
    rewrite HD, E1, EC.
    transitivity ((1 + 1) * (1 - y * y) * (1 + a24) * ((1 + d * (y * y)) * (1 + x * x))); [|ring]. rewrite EX.
    transitivity ((1 + 1) * (1 - y * y) * (y * y) * ((1 + d) * (1 + a24))); [rewrite d_a24; ring|ring]. }
  apply mk_mrep.
  - destruct (K_dec y 0) as [->|EY].
    + right. assert (E : (c - c * (0 * 0)) * (c + a24 * (c - c * (0 * 0))) = c * (c * (1 + a24))) by ring. rewrite E. apply kmul_neq; [exact Hc|apply kmul_neq; assumption].
    + left. apply kmul_neq; [exact Hc|apply kmul_neq; [exact Hc|apply kmul_neq; assumption]].
  - transitivity (c * c * (y * y * (1 - yd))); [ring|]. rewrite R. ring.
Qed.
End Ladder.
