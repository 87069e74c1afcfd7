(** FieldPrime.v: 2^255 - 19 is prime (Pocklington certificates, checked by the kernel), hence the field has inverses.
    Mathematics only; nothing here models code. *)
From Verif Require Import Base Field25519 FieldSpec Fermat FastZ.
From Coq Require Import ZArith Znumtheory Lia List.
Local Open Scope Z_scope.

Ltac leaf k := apply (trial_sound _ k); vm_compute; reflexivity.

Lemma prime_8574133 : prime 8574133.
Proof. apply (pock_sound _ 2 [991; 103]); [vm_compute; reflexivity|constructor; [leaf 40%nat|constructor; [leaf 20%nat|constructor]]]. Qed.
Lemma prime_1919519569386763 : prime 1919519569386763.
Proof. apply (pock_sound _ 2 [8574133; 127]); [vm_compute; reflexivity|constructor; [exact prime_8574133|constructor; [leaf 20%nat|constructor]]]. Qed.
Lemma prime_2773320623 : prime 2773320623.
Proof. apply (pock_sound _ 2 [569003]); [vm_compute; reflexivity|constructor; [leaf 1000%nat|constructor]]. Qed.
Lemma prime_72106336199 : prime 72106336199.
Proof. apply (pock_sound _ 2 [2773320623]); [vm_compute; reflexivity|constructor; [exact prime_2773320623|constructor]]. Qed.
Lemma prime_75445702479781427272750846543864801 : prime 75445702479781427272750846543864801.
Proof.
  apply (pock_sound _ 2 [1919519569386763; 72106336199]); [vm_compute; reflexivity|].
  constructor; [exact prime_1919519569386763|constructor; [exact prime_72106336199|constructor]].
Qed.
Lemma prime_31757755568855353 : prime 31757755568855353.
Proof. apply (pock_sound _ 2 [430751; 4153]); [vm_compute; reflexivity|constructor; [leaf 1000%nat|constructor; [leaf 100%nat|constructor]]]. Qed.
Lemma prime_74058212732561358302231226437062788676166966415465897661863160754340907 :
  prime 74058212732561358302231226437062788676166966415465897661863160754340907.
Proof.
  apply (pock_sound _ 2 [75445702479781427272750846543864801; 31757755568855353]); [vm_compute; reflexivity|].
  constructor; [exact prime_75445702479781427272750846543864801|constructor; [exact prime_31757755568855353|constructor]].
Qed.

(** 2^(p-1) = 1 modulo p, from 255 squarings: 2^(2^255) = 2^20 and p - 1 = 2^255 - 20. *)
Lemma two_pow_run : is0p (sqn 255 2 - 1048576) = true.
Proof. vm_compute. reflexivity. Qed.
Lemma two_pow_p : (p25519 | 2 ^ (p25519 - 1) - 1).
Proof.
  pose proof (is0p_ok _ two_pow_run) as H. pose proof (sqn_ok 255 2) as S. generalize dependent (sqn 255 2). intros w H S.
  assert (D : (p25519 | w - 1048576)) by (apply Z.mod_divide; [discriminate|exact H]). clear H.
  assert (E : 2 ^ Z.of_nat 255 = (p25519 - 1) + 20) by reflexivity. rewrite E in S. clear E. rewrite Z.pow_add_r in S by discriminate.
  change (2 ^ 20) with 1048576 in S. generalize dependent (2 ^ (p25519 - 1)). intros t S. unfold eqp in S.
  assert (D2 : (p25519 | t * 1048576 - w)). { apply Z.mod_divide; [discriminate|]. rewrite Zminus_mod, S, Z.sub_diag. reflexivity. }
  assert (D3 : (p25519 | (t - 1) * 1048576)). { replace ((t - 1) * 1048576) with (t * 1048576 - w + (w - 1048576)) by ring. apply Z.divide_add_r; assumption. }
  rewrite Z.mul_comm in D3. apply Z.gauss in D3; [exact D3|reflexivity].
Qed.
Theorem p25519_prime : prime p25519.
Proof.
  set (q0 := 74058212732561358302231226437062788676166966415465897661863160754340907).
  assert (P0 : prime q0) by exact prime_74058212732561358302231226437062788676166966415465897661863160754340907.
  apply (pocklington p25519 2 q0); [reflexivity|discriminate|reflexivity|exists ((p25519 - 1) / q0); reflexivity|reflexivity|exact two_pow_p|].
  intros q Pq Dq. apply prime_div_prime in Dq; [|exact Pq|exact P0]. rewrite Dq. rewrite <- gcd_powmod by (reflexivity || discriminate). vm_compute. reflexivity.
Qed.

Lemma mod_pow_eqp : forall a e, 0 <= e -> eqp (a ^ e) ((a mod p25519) ^ e).
Proof.
  intros a e He. revert e He. apply natlike_ind; [reflexivity|]. intros k Hk IH. rewrite !Z.pow_succ_r by exact Hk. unfold eqp in *.
  assert (p25519 <> 0) by discriminate. rewrite (Zmult_mod a), IH, (Zmult_mod (a mod p25519) ((a mod p25519) ^ k)), (Z.mod_mod a) by assumption. reflexivity.
Qed.

(** Fermat inversion. *)
Theorem pow_p_minus_2 : forall a, a mod p25519 <> 0 -> eqp (a * a ^ (p25519 - 2)) 1.
Proof.
  intros a Ha. replace (a * a ^ (p25519 - 2)) with (a ^ (p25519 - 1)).
  2:{ replace (p25519 - 1) with (Z.succ (p25519 - 2)) by (unfold p25519; lia). apply Z.pow_succ_r. discriminate. }
  assert (P0 : p25519 <> 0) by discriminate. pose proof (Z.mod_pos_bound a p25519 eq_refl) as R.
  assert (D : (p25519 | (a mod p25519) ^ (p25519 - 1) - 1)).
  { apply fermat_unit; [exact p25519_prime|lia|]. intros K. apply Z.mod_divide in K; [|exact P0]. rewrite Z.mod_mod in K by exact P0. contradiction. }
  pose proof (mod_pow_eqp a (p25519 - 1) ltac:(discriminate)) as M. unfold eqp in *. rewrite M. destruct D as (k & D).
  replace ((a mod p25519) ^ (p25519 - 1)) with (1 + k * p25519) by lia. apply Z.mod_add. exact P0.
Qed.
