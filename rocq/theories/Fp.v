(** Fp.v: the field of integers modulo 2^255 - 19, as a type with Leibniz equality, for [ring] and [field].
    Mathematics only: nothing here models code. *)
From Verif Require Import FieldSpec FastZ FieldPrime Fermat.
From Coq Require Import ZArith Znumtheory Lia Eqdep_dec Bool.
From Coq Require Import Ring Field.
Local Open Scope Z_scope.

Record F : Type := mkF { fz : Z; fz_ok : (fz mod p25519 =? fz) = true }.

Lemma F_eq : forall a b : F, fz a = fz b -> a = b.
Proof. intros [a HA] [b HB] H. cbn in H. subst b. f_equal. apply UIP_dec, bool_dec. Qed.

Lemma reduced_ok : forall z, ((z mod p25519) mod p25519 =? z mod p25519) = true.
Proof. intros z. apply Z.eqb_eq. apply Z.mod_mod. discriminate. Qed.
Definition ofZ (z : Z) : F := mkF (z mod p25519) (reduced_ok z).

Definition fadd (a b : F) : F := ofZ (fz a + fz b).
Definition fmul (a b : F) : F := ofZ (fz a * fz b).
Definition fsub (a b : F) : F := ofZ (fz a - fz b).
Definition fopp (a : F) : F := ofZ (- fz a).
Definition finv (a : F) : F := ofZ (powmod (fz a) (p25519 - 2) p25519).
Definition fdiv (a b : F) : F := fmul a (finv b).
Definition f0 : F := ofZ 0.
Definition f1 : F := ofZ 1.

Declare Scope F_scope.
Delimit Scope F_scope with F.
Infix "+" := fadd : F_scope.
Infix "*" := fmul : F_scope.
Infix "-" := fsub : F_scope.
Infix "/" := fdiv : F_scope.
Notation "- x" := (fopp x) : F_scope.
Notation "0" := f0 : F_scope.
Notation "1" := f1 : F_scope.

Lemma fz_mod : forall a : F, fz a mod p25519 = fz a.
Proof. intros [a H]. cbn. apply Z.eqb_eq. exact H. Qed.
Lemma fz_range : forall a : F, 0 <= fz a < p25519.
Proof. intros a. rewrite <- (fz_mod a). apply Z.mod_pos_bound. reflexivity. Qed.
Lemma ofZ_fz : forall a, ofZ (fz a) = a.
Proof. intros a. apply F_eq. apply fz_mod. Qed.
Lemma ofZ_eq : forall x y, eqp x y <-> ofZ x = ofZ y.
Proof. intros x y. split; [intros H; apply F_eq; exact H|intros H; apply (f_equal fz) in H; exact H]. Qed.

Lemma ofZ_add : forall x y, ofZ (x + y) = fadd (ofZ x) (ofZ y).
Proof. intros x y. apply F_eq. cbn. apply Zplus_mod. Qed.
Lemma ofZ_mul : forall x y, ofZ (x * y) = fmul (ofZ x) (ofZ y).
Proof. intros x y. apply F_eq. cbn. apply Zmult_mod. Qed.
Lemma ofZ_sub : forall x y, ofZ (x - y) = fsub (ofZ x) (ofZ y).
Proof. intros x y. apply F_eq. cbn. apply Zminus_mod. Qed.
Lemma ofZ_opp : forall x, ofZ (- x) = fopp (ofZ x).
Proof.
  intros x. apply F_eq. cbn [fz ofZ fopp]. replace (- x) with (0 - x) by lia. replace (- (x mod p25519)) with (0 - x mod p25519) by lia.
  rewrite (Zminus_mod 0 x), (Zminus_mod 0 (x mod p25519)), Z.mod_mod by discriminate. reflexivity.
Qed.

Lemma F_ring : ring_theory f0 f1 fadd fmul fsub fopp (@eq F).
Proof.
  constructor; intros; repeat match goal with x : F |- _ => rewrite <- (ofZ_fz x); generalize (fz x); clear x; intros x end;
    unfold f0, f1; rewrite <- ?ofZ_add, <- ?ofZ_mul, <- ?ofZ_sub, <- ?ofZ_opp, <- ?ofZ_add, <- ?ofZ_mul, <- ?ofZ_sub, <- ?ofZ_opp; f_equal; ring.
Qed.

Lemma finv_l : forall a, a <> f0 -> fmul (finv a) a = f1.
Proof.
  intros a H. apply F_eq. cbn [fmul finv ofZ fz f1]. rewrite powmod_spec by (reflexivity || discriminate).
  rewrite Z.mod_mod, Z.mul_mod_idemp_l by discriminate. rewrite Z.mul_comm. apply pow_p_minus_2.
  intros E. apply H. apply F_eq. rewrite <- fz_mod. exact E.
Qed.
Lemma f1_neq_0 : f1 <> f0.
Proof. intros E. apply (f_equal fz) in E. vm_compute in E. discriminate. Qed.

Lemma F_field : field_theory f0 f1 fadd fmul fsub fopp fdiv finv (@eq F).
Proof. constructor; [exact F_ring|exact f1_neq_0|reflexivity|exact finv_l]. Qed.

(** Integer literals as coefficients. *)
Lemma F_morph : ring_morph f0 f1 fadd fmul fsub fopp (@eq F) 0 1 Z.add Z.mul Z.sub Z.opp Z.eqb ofZ.
Proof.
  constructor; try reflexivity; intros; [apply ofZ_add|apply ofZ_sub|apply ofZ_mul|apply ofZ_opp|].
  apply Z.eqb_eq in H. subst. reflexivity.
Qed.
Ltac F_const t :=
  lazymatch t with
  | f0 => constr:(0%Z)
  | f1 => constr:(1%Z)
  | ofZ ?z => lazymatch isZcst z with true => constr:(z) | _ => constr:(NotConstant) end
  | _ => constr:(NotConstant)
  end.
Add Field F_field_inst : F_field (morphism F_morph, constants [F_const]).

Lemma F_dec : forall a b : F, {a = b} + {a <> b}.
Proof. intros a b. destruct (Z.eq_dec (fz a) (fz b)) as [E|E]; [left; apply F_eq; exact E|right; intros H; apply E; rewrite H; reflexivity]. Qed.

Local Open Scope F_scope.
Lemma fmul_zero : forall a b : F, a * b = 0 -> a = 0 \/ b = 0.
Proof.
  intros a b H. destruct (F_dec a 0) as [E|E]; [left; exact E|right].
  replace b with (finv a * (a * b)) by (field; exact E). rewrite H. ring.
Qed.
Lemma fmul_neq : forall a b : F, a <> 0 -> b <> 0 -> a * b <> 0.
Proof. intros a b HA HB H. apply fmul_zero in H. tauto. Qed.
Lemma fsub_zero : forall a b : F, a - b = 0 -> a = b.
Proof. intros a b H. replace a with (a - b + b) by ring. rewrite H. ring. Qed.
Lemma fsquare_eq : forall a b : F, a * a = b * b -> a = b \/ a = - b.
Proof.
  intros a b H. assert (K : (a - b) * (a + b) = 0) by (ring [H]). apply fmul_zero in K. destruct K as [K|K]; [left; apply fsub_zero, K|right].
  apply fsub_zero. rewrite <- K. ring.
Qed.
Lemma finv_unique : forall a b : F, a * b = 1 -> a <> 0 /\ b = finv a.
Proof.
  intros a b H. assert (N : a <> 0) by (intros ->; apply f1_neq_0; rewrite <- H; ring). split; [exact N|].
  replace b with (finv a * (a * b)) by (field; exact N). rewrite H. ring.
Qed.
Lemma fdiv_eq : forall a b c : F, b <> 0 -> c * b = a -> c = a / b.
Proof. intros a b c H <-. field. exact H. Qed.
Lemma fdiv_unique : forall a b c : F, b <> 0 -> c = a / b -> c * b = a.
Proof. intros a b c H ->. field. exact H. Qed.
Lemma f2_neq_0 : ofZ 2 <> 0.
Proof. intros E. apply (f_equal fz) in E. vm_compute in E. discriminate. Qed.

(** Powers and Euler's criterion. *)
Lemma F_fermat : forall a : F, a <> 0 -> ofZ (fz a ^ (p25519 - 1)) = 1.
Proof.
  intros a H. apply ofZ_eq. replace (p25519 - 1)%Z with (Z.succ (p25519 - 2)) by (unfold p25519; lia). rewrite Z.pow_succ_r by discriminate. apply pow_p_minus_2.
  rewrite fz_mod. intros E. apply H. apply F_eq. exact E.
Qed.
(** A number is not a square if its power 2^254 is minus its tenth power (Euler's criterion: (p - 1)/2 = 2^254 - 10). *)
Lemma ofZ_mulp : forall a b, ofZ (mulp a b) = ofZ a * ofZ b.
Proof. intros a b. rewrite <- ofZ_mul. apply ofZ_eq. apply mulp_ok. Qed.
Lemma ofZ_is0p : forall z, is0p z = true -> ofZ z = 0.
Proof. intros z H. apply ofZ_eq. apply is0p_ok. exact H. Qed.
Lemma ofZ_sqn : forall n z, ofZ (sqn n z) = ofZ (z ^ (2 ^ Z.of_nat n)).
Proof. intros n z. apply ofZ_eq. apply sqn_ok. Qed.
Lemma small_neq_0 : forall z, (0 < z < p25519)%Z -> ofZ z <> 0.
Proof. intros z H E. apply (f_equal fz) in E. cbn [fz ofZ f0] in E. rewrite (Z.mod_small z p25519), (Z.mod_small 0 p25519) in E by lia. lia. Qed.
Lemma exp_split : (2 * 2 ^ Z.of_nat 254 = p25519 - 1 + 20)%Z.
Proof. vm_compute. reflexivity. Qed.
Lemma exp_nonneg : (0 <= 2 ^ Z.of_nat 254)%Z.
Proof. vm_compute. discriminate. Qed.
Lemma square_pow : forall (z : Z) (s : F), s * s = ofZ z -> ofZ (z ^ (2 ^ Z.of_nat 254)) = ofZ (fz s ^ (p25519 - 1 + 20)).
Proof.
  intros z s E. rewrite <- exp_split. pose proof exp_nonneg as P. generalize dependent (2 ^ Z.of_nat 254)%Z. intros e P.
  assert (M : eqp z (fz s * fz s)). { apply ofZ_eq. rewrite ofZ_mul, ofZ_fz. symmetry. exact E. }
  apply ofZ_eq. pose proof (mod_pow_eqp z e P) as M1. pose proof (mod_pow_eqp (fz s * fz s) e P) as M2.
  unfold eqp in *. rewrite M1, M, <- M2. rewrite <- Z.pow_2_r, <- Z.pow_mul_r; [reflexivity|discriminate|exact P].
Qed.
Lemma pow_20 : forall s : F, s <> 0 -> ofZ (fz s ^ (p25519 - 1 + 20)) = s * s * (s * s) * (s * s * (s * s)) * (s * s)  * (s * s * (s * s) * (s * s * (s * s)) * (s * s)).
Proof.
  intros s N. pose proof (F_fermat s N) as K. assert (P : (0 <= p25519 - 1)%Z) by discriminate. generalize dependent (p25519 - 1)%Z. intros e K P.
  rewrite Z.pow_add_r, ofZ_mul, K; [|exact P|discriminate].
  replace (fz s ^ 20)%Z with (fz s * fz s * (fz s * fz s) * (fz s * fz s * (fz s * fz s)) * (fz s * fz s)  * (fz s * fz s * (fz s * fz s) * (fz s * fz s * (fz s * fz s)) * (fz s * fz s)))%Z by ring.
  rewrite !ofZ_mul, !ofZ_fz. ring.
Qed.
Lemma not_square_core : forall (z : Z) (a : F), a = ofZ (z ^ (2 ^ Z.of_nat 254)) -> ofZ z <> 0 ->
  a + ofZ z * ofZ z * (ofZ z * ofZ z) * (ofZ z * ofZ z * (ofZ z * ofZ z)) * (ofZ z * ofZ z) = 0 -> forall s : F, s * s <> ofZ z.
Proof.
  intros z a A NZ H s E. rewrite A, (square_pow z s E) in H. rewrite <- E in NZ, H. clear A.
  assert (N : s <> 0). { intros K. apply NZ. rewrite K. ring. }
  rewrite (pow_20 s N) in H.
  assert (N2 : s * s <> 0) by (apply fmul_neq; exact N). assert (N4 := fmul_neq _ _ N2 N2). assert (N8 := fmul_neq _ _ N4 N4). assert (N10 := fmul_neq _ _ N8 N2).
  assert (N20 := fmul_neq _ _ N10 N10). apply (fmul_neq _ _ f2_neq_0 N20). rewrite <- H. ring.
Qed.
Lemma ten_mulp : forall z, ofZ (mulp (mulp (mulp (mulp z z) (mulp z z)) (mulp (mulp z z) (mulp z z))) (mulp z z)) =
  ofZ z * ofZ z * (ofZ z * ofZ z) * (ofZ z * ofZ z * (ofZ z * ofZ z)) * (ofZ z * ofZ z).
Proof. intros z. rewrite !ofZ_mulp. reflexivity. Qed.
Lemma not_square : forall z w, sqn 254 z = w -> is0p (w + mulp (mulp (mulp (mulp z z) (mulp z z)) (mulp (mulp z z) (mulp z z))) (mulp z z)) = true -> (0 < z < p25519)%Z ->
  forall s : F, s * s <> ofZ z.
Proof.
  intros z w W H HZ. apply (not_square_core z (ofZ w)); [rewrite <- W; apply ofZ_sqn|apply small_neq_0; exact HZ|].
  rewrite <- ten_mulp, <- ofZ_add. apply ofZ_is0p. exact H.
Qed.
