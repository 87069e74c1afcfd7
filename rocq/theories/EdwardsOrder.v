(** EdwardsOrder.v: the base point has order exactly L. *)
From Verif Require Import Base Field25519 FieldSpec FastZ FieldProofs FieldProofs2 FieldPrime ScalarSpec Fp CurveSpec CurveGroup EdBase Edwards EdwardsProofs EdwardsProofs2 EdwardsTable EdwardsMult OrderPrime.
From Coq Require Import ZArith Znumtheory List Lia Bool Ring Field.
Import ListNotations.
Local Open Scope Z_scope.

(** The signed radix-16 digits of L, at even and odd places. *)
Definition l_even : list Z := [(-3); 4; 6; (-3); (-6); 3; 2; 8; 6; (-3); 8; 3; (-1); (-6); (-1); 5; 0; 0; 0; 0; 0; 0; 0; 0; 0; 0; 0; 0; 0; 0; 0; 0].
Definition l_odd : list Z := [(-1); (-3); (-1); 6; 2; 6; 1; 5; (-3); (-6); (-1); (-6); (-2); 0; (-2); 1; 0; 0; 0; 0; 0; 0; 0; 0; 0; 0; 0; 0; 0; 0; 0; 1].
Lemma l_digits : 16 * digits_val l_odd + digits_val l_even = order_l.
Proof. vm_compute. reflexivity. Qed.
Lemma order_run : neutralz is0p (mult_rows mulp fe_red base_table l_even l_odd) = true.
Proof. vm_compute. reflexivity. Qed.
Local Opaque padd popp.
Theorem base_order : zmul order_l base_point = pzero.
Proof.
  rewrite <- l_digits. apply (neutralz_ok is0p ofZ_is0p (mult_rows mulp fe_red base_table l_even l_odd)); [|exact order_run].
  apply (mult_rows_rep mulp fe_red ofZ_mulp fe_red_ok); [exact base_on_curve|exact base_table_rep| | |reflexivity|reflexivity]; rewrite base_table_length; apply Nat.leb_le; reflexivity.
Qed.
Lemma base_neq_zero : base_point <> pzero.
Proof. intros E. apply (f_equal (fun P => fz (fst P))) in E. cbn [fst base_point pzero] in E. vm_compute in E. discriminate. Qed.

Lemma zmul_mod_order : forall z, zmul (z mod order_l) base_point = zmul z base_point.
Proof.
  pose proof base_order as O. pose proof base_on_curve as C. generalize dependent base_point. intros B O C z. rewrite Z.mod_eq by discriminate. rewrite (zmul_sub _ _ B C). rewrite Z.mul_comm.
  rewrite (zmul_mul _ _ B C), O, zmul_pzero, popp_zero. apply padd_zero_r.
Qed.
Theorem zmul_zero_iff : forall z, zmul z base_point = pzero <-> (order_l | z)%Z.
Proof.
  intros z. pose proof base_order as O. pose proof base_on_curve as C. pose proof base_neq_zero as N. pose proof order_l_prime as P. split.
  - intros E. destruct (Zdivide_dec order_l z) as [D|D]; [exact D|]. exfalso.
    assert (R : rel_prime z order_l). { apply rel_prime_sym. apply prime_rel_prime; [exact P|exact D]. }
    apply rel_prime_bezout in R. destruct R as [u v R]. apply N. generalize dependent base_point. intros B O C N E.
    transitivity (zmul 1 B); [symmetry; apply zmul_1|]. rewrite <- R. rewrite (zmul_add _ _ B C), (zmul_mul _ _ B C), (zmul_mul _ _ B C), E, O, !zmul_pzero. apply padd_zero_r.
  - intros [q ->]. generalize dependent base_point. intros B O C N. rewrite (zmul_mul _ _ B C), O. apply zmul_pzero.
Qed.
