(** PropertiesField.v: the arithmetic behind signature verification (C52).

    Vocabulary (FieldSpec.v): [fe_val] the integer a field element stands for, [fe_bound n d] the documented limb
    bounds (even limbs at most n/d * 2^25, odd limbs n/d * 2^24), [le_val] the little-endian value of a byte string,
    [eqp] congruence modulo 2^255 - 19. Every operation of the model wraps at 32 or 64 bits exactly as Go does, so an
    overflow within the bounds would falsify these statements. *)
From Verif Require Import Base Field25519 FieldSpec FieldProofs FieldProofs2 FieldProofs3 FieldPrime FieldProofs4.
From Coq Require Import ZArith Znumtheory Lia List.
Import ListNotations.
Local Open Scope list_scope.
Local Open Scope Z_scope.

(** Addition, subtraction and negation are exact as long as the sums fit. *)
Theorem C52_add_exact : forall a b n m d, fe_bound n d a -> fe_bound m d b -> 0 < d -> n + m < 64 * d ->
  fe_val (fe_add a b) = fe_val a + fe_val b /\ fe_bound (n + m) d (fe_add a b).
Proof. exact fe_add_spec. Qed.
Theorem C52_sub_exact : forall a b n m d, fe_bound n d a -> fe_bound m d b -> 0 < d -> n + m < 64 * d ->
  fe_val (fe_sub a b) = fe_val a - fe_val b /\ fe_bound (n + m) d (fe_sub a b).
Proof. exact fe_sub_spec. Qed.
Theorem C52_neg_exact : forall a n d, fe_bound n d a -> 0 < d -> n < 64 * d -> fe_val (fe_neg a) = - fe_val a /\ fe_bound n d (fe_neg a).
Proof. exact fe_neg_spec. Qed.

(** Multiplication and squaring. The documented precondition (ecc/edwards25519/edwards25519.go:350-355) allows limbs up to 1.1 * 2^26 and
    1.1 * 2^25, that is [fe_bound 22 10]; the group operations of the same file pass up to three times a product's
    bound, so the statement allows 1.65 * 2^26, 1.65 * 2^25. The output bound is sharper than the documented 1.1. *)
Theorem C52_mul : forall f g, fe_bound 330 100 f -> fe_bound 330 100 g ->
  eqp (fe_val (fe_mul f g)) (fe_val f * fe_val g) /\ fe_bound 101 100 (fe_mul f g).
Proof. exact fe_mul_wide_spec. Qed.
Theorem C52_square : forall f, fe_bound 330 100 f -> eqp (fe_val (fe_square f)) (fe_val f * fe_val f) /\ fe_bound 101 100 (fe_square f).
Proof. exact fe_square_wide_spec. Qed.
Theorem C52_square2 : forall f, fe_bound 330 100 f -> eqp (fe_val (fe_square2 f)) (2 * (fe_val f * fe_val f)) /\ fe_bound 101 100 (fe_square2 f).
Proof. exact fe_square2_spec. Qed.

(** FeCMove selects. *)
Theorem C52_cmove : forall f g, fe_cmove f g 0 = f /\ fe_cmove f g 1 = g.
Proof. exact fe_cmove_spec. Qed.

(** Decoding 32 bytes ignores the top bit and nothing else. *)
Theorem C52_from_bytes : forall s, eqp (fe_val (fe_from_bytes s)) (le_val (abytes s) mod 2 ^ 255) /\ fe_bound 101 100 (fe_from_bytes s).
Proof. exact fe_from_bytes_spec. Qed.

(** Encoding gives the one representative below the prime; so equal field elements have equal encodings. *)
Theorem C52_to_bytes : forall h, fe_bound 330 100 h -> le_val (abytes (fe_to_bytes h)) = fe_val h mod p25519.
Proof. exact fe_to_bytes_spec. Qed.

Lemma le_val_inj : forall l m, length l = length m -> le_val l = le_val m -> l = m.
Proof.
  induction l as [|a l IH]; intros [|b m] HL H; try discriminate; [reflexivity|]. cbn [le_val length] in *. pose proof (zb_range a). pose proof (zb_range b).
  assert (zb a = zb b) by lia. assert (le_val l = le_val m) by lia. f_equal; [|apply IH; [lia|assumption]]. apply b2n_inj. unfold zb in *. lia.
Qed.
Theorem C52_canonical : forall g h, fe_bound 330 100 g -> fe_bound 330 100 h -> (fe_to_bytes g = fe_to_bytes h <-> eqp (fe_val g) (fe_val h)).
Proof.
  intros g h HG HH. unfold eqp. rewrite <- (fe_to_bytes_spec g HG), <- (fe_to_bytes_spec h HH). split; [intros ->; reflexivity|].
  intros E. apply le_val_inj in E; [|rewrite !arr_length; reflexivity]. rewrite <- (to_arr_abytes 32 (fe_to_bytes g)), <- (to_arr_abytes 32 (fe_to_bytes h)), E. reflexivity.
Qed.

(** Decoding then encoding reduces modulo the prime. *)
Theorem C52_decode_encode : forall s, le_val (abytes (fe_to_bytes (fe_from_bytes s))) = (le_val (abytes s) mod 2 ^ 255) mod p25519.
Proof.
  intros s. destruct (fe_from_bytes_spec s) as [V B]. rewrite fe_to_bytes_spec by (apply (fe_bound_weaken 101 100); [exact B|lia|lia|lia]). exact V.
Qed.

(** The sign and zero tests look at that representative. *)
Theorem C52_is_negative : forall h, fe_bound 330 100 h -> fe_is_negative h = (fe_val h mod p25519) mod 2.
Proof. exact fe_is_negative_spec. Qed.
Theorem C52_is_non_zero : forall h, fe_bound 330 100 h -> fe_is_non_zero h = if Z.eqb (fe_val h mod p25519) 0 then 0 else 1.
Proof. exact fe_is_non_zero_spec. Qed.

(** 2^255 - 19 is prime, and FeInvert inverts: the result times the argument is 1, unless the argument is 0. *)
Theorem C52_prime : prime p25519.
Proof. exact p25519_prime. Qed.
Theorem C52_invert : forall z, fe_bound 22 10 z -> ~ eqp (fe_val z) 0 -> eqp (fe_val z * fe_val (fe_invert z)) 1.
Proof.
  intros z H N. destruct (fe_invert_pow z H) as [V _]. assert (E := eqp_mul (fe_val z) (fe_val z) _ _ eq_refl V). unfold eqp in E |- *. rewrite E.
  apply pow_p_minus_2. intros K. apply N. unfold eqp. rewrite K. reflexivity.
Qed.
Theorem C52_invert_zero : forall z, fe_bound 22 10 z -> eqp (fe_val z) 0 -> eqp (fe_val (fe_invert z)) 0.
Proof.
  intros z H E. destruct (fe_invert_pow z H) as [V _]. unfold eqp in V |- *. rewrite V. apply (eqp_pow _ 0 (p25519 - 2)) in E; [|discriminate].
  unfold eqp in E. rewrite E. rewrite Z.pow_0_l by reflexivity. reflexivity.
Qed.
Theorem C52_pow22523 : forall z, fe_bound 22 10 z -> eqp (fe_val (fe_pow22523 z)) (fe_val z ^ ((p25519 - 5) / 8)).
Proof. intros z H. apply fe_pow22523_pow. exact H. Qed.

(** The key conversion of signature verification: for the Curve25519 key with u-coordinate u (top bit ignored), the Edwards
    key handed to Ed25519 has the y-coordinate (u - 1) / (u + 1), written canonically, and the sign bit found in the top
    bit of the signature. *)
Theorem C52_key_conversion : forall pub sig63 u y, u = le_val (abytes pub) mod 2 ^ 255 -> y = le_val (abytes (mont_to_ed pub sig63)) mod 2 ^ 255 ->
  y < p25519 /\ (~ eqp u (-1) -> eqp (y * (u + 1)) (u - 1)) /\ (eqp u (-1) -> y = 0) /\
  le_val (abytes (mont_to_ed pub sig63)) / 2 ^ 255 = zb sig63 / 128.
Proof.
  intros pub sig63 u y EU EY. rewrite mont_to_ed_val in *. cbv zeta in *. rewrite <- EU in *.
  remember ((u + 1) ^ (p25519 - 2)) as w eqn:EW. remember (((u - 1) * w) mod p25519) as v eqn:EV. assert (RV : 0 <= v < p25519) by (rewrite EV; apply eqp_range).
  assert (RV2 : 0 <= v < 2 ^ 255) by (split; [apply RV|apply Z.lt_trans with p25519; [apply RV|reflexivity]]). destruct (zb_top_bit sig63) as [_ TB].
  assert (Y : y = v). { rewrite EY, (Z.mul_comm (2 ^ 255)), Z.mod_add by discriminate. apply Z.mod_small. exact RV2. }
  rewrite Y. split; [apply RV|]. split; [|split].
  - intros N. rewrite EV. unfold eqp. rewrite Z.mul_mod_idemp_l by discriminate. replace ((u - 1) * w * (u + 1)) with ((u - 1) * ((u + 1) * w)) by ring.
    assert (K : eqp ((u + 1) * w) 1).
    { rewrite EW. apply pow_p_minus_2. intros K. apply N. unfold eqp. replace u with (u + 1 - 1) by ring. rewrite Zminus_mod, K. reflexivity. }
    assert (E := eqp_mul (u - 1) (u - 1) _ _ eq_refl K). unfold eqp in E. rewrite E, Z.mul_1_r. reflexivity.
  - intros E. rewrite EV. apply eqp_add1 in E. change (-1 + 1) with 0 in E. apply (eqp_pow _ 0 (p25519 - 2)) in E; [|discriminate]. rewrite Z.pow_0_l in E by reflexivity.
    rewrite <- EW in E. assert (K := eqp_mul (u - 1) (u - 1) _ _ eq_refl E). unfold eqp in K. rewrite K, Z.mul_0_r. reflexivity.
  - rewrite Z.add_comm, (Z.mul_comm (2 ^ 255)), Z.div_add_l by discriminate. rewrite (Z.div_small v) by exact RV2. apply Z.add_0_r.
Qed.

(** ** Examples: the hypotheses are met at the extremes of the bounds, and the results are not trivial. *)
Definition fe_max : fe := mk_fe 73819750 36909875 (-73819750) 36909875 73819750 (-36909875) 73819750 36909875 (-73819750) 36909875.
Example C52_example_mul : fe_bound 22 10 fe_max /\ (fe_val (fe_mul fe_max fe_max) mod p25519 = (fe_val fe_max * fe_val fe_max) mod p25519) /\
  fe_val (fe_mul fe_max fe_max) <> fe_val fe_max * fe_val fe_max.
Proof. split; [unfold fe_bound, fe_max; cbn [e0 e1 e2 e3 e4 e5 e6 e7 e8 e9]; lia|split; [vm_compute; reflexivity|vm_compute; discriminate]]. Qed.
(** -1 is encoded as p - 1, and p itself as 0. *)
Example C52_example_to_bytes :
  abytes (fe_to_bytes (fe_neg fe_one)) = xec :: repeat xff 30 ++ [x7f] /\
  abytes (fe_to_bytes (fe_from_bytes (to_arr 32 (xed :: repeat xff 30 ++ [x7f])))) = repeat x00 32 /\
  fe_is_negative (fe_neg fe_one) = 0 /\ fe_is_negative fe_one = 1 /\ fe_is_non_zero (fe_from_bytes (to_arr 32 (xed :: repeat xff 30 ++ [x7f]))) = 0.
Proof. split; [vm_compute; reflexivity|split; [vm_compute; reflexivity|split; [vm_compute; reflexivity|split; vm_compute; reflexivity]]]. Qed.
(** The base point: u = 9 becomes y = 4/5, and the sign comes from the signature. *)
Definition four_fifths : Z := 46316835694926478169428394003475163141307993866256225615783033603165251855960.
Example C52_example_conversion :
  let pub := to_arr 32 [x09] in
  eqp (5 * four_fifths) 4 /\ le_val (abytes (mont_to_ed pub x00)) = four_fifths /\ le_val (abytes (mont_to_ed pub xff)) = four_fifths + 2 ^ 255.
Proof.
  cbv zeta. split; [vm_compute; reflexivity|]. assert (U : 9 = le_val (abytes (to_arr 32 [x09])) mod 2 ^ 255) by (vm_compute; reflexivity).
  assert (R : forall b, le_val (abytes (mont_to_ed (to_arr 32 [x09]) b)) = four_fifths + 2 ^ 255 * (zb b / 128)).
  { intros b. destruct (C52_key_conversion (to_arr 32 [x09]) b 9 _ U eq_refl) as (L & E & _ & S). rewrite (Z.div_mod (le_val (abytes (mont_to_ed (to_arr 32 [x09]) b))) (2 ^ 255)) by discriminate.
    rewrite S, Z.add_comm. apply (f_equal2 Z.add); [|reflexivity].
    pose proof (Z.mod_pos_bound (le_val (abytes (mont_to_ed (to_arr 32 [x09]) b))) (2 ^ 255) eq_refl) as P. generalize dependent (le_val (abytes (mont_to_ed (to_arr 32 [x09]) b)) mod 2 ^ 255).
    intros y L E P. specialize (E ltac:(unfold eqp; vm_compute; discriminate)).
    assert (D : (p25519 | 10 * (y - four_fifths))).
    { apply Z.mod_divide; [discriminate|]. replace (10 * (y - four_fifths)) with (y * (9 + 1) - 10 * four_fifths) by ring. rewrite Zminus_mod, E. vm_compute. reflexivity. }
    apply Z.gauss in D; [|vm_compute; reflexivity]. destruct D as (k & D). assert (0 <= four_fifths < p25519) by (vm_compute; split; [discriminate|reflexivity]).
    assert (k = 0). { clear - L P D H. generalize dependent four_fifths. intros q D H. assert (0 < p25519) by reflexivity. generalize dependent p25519. intros p. intros. nia. }
    subst k. lia. }
  split; [rewrite R; reflexivity|rewrite R]. change (zb xff / 128) with 1. ring.
Qed.
(** The same by running the code (checked when this file is compiled). *)
Check (eq_refl (x58 :: repeat x66 31) <: abytes (mont_to_ed (to_arr 32 [x09]) x00) = x58 :: repeat x66 31).
Check (eq_refl (x58 :: repeat x66 30 ++ [xe6]) <: abytes (mont_to_ed (to_arr 32 [x09]) xff) = x58 :: repeat x66 30 ++ [xe6]).
(** Beyond the bounds the limbs do overflow: the bound is not idle. *)
Example C52_overflow_refuted : exists f, ~ fe_bound 22 10 f /\ ~ eqp (fe_val (fe_mul f f)) (fe_val f * fe_val f).
Proof.
  exists (mk_fe (2 ^ 31 - 1) (2 ^ 31 - 1) (2 ^ 31 - 1) (2 ^ 31 - 1) (2 ^ 31 - 1) (2 ^ 31 - 1) (2 ^ 31 - 1) (2 ^ 31 - 1) (2 ^ 31 - 1) (2 ^ 31 - 1)). split.
  - unfold fe_bound. cbn [e0]. lia.
  - unfold eqp. vm_compute. discriminate.
Qed.

Print Assumptions C52_add_exact.
Print Assumptions C52_sub_exact.
Print Assumptions C52_neg_exact.
Print Assumptions C52_mul.
Print Assumptions C52_square.
Print Assumptions C52_square2.
Print Assumptions C52_cmove.
Print Assumptions C52_from_bytes.
Print Assumptions C52_to_bytes.
Print Assumptions C52_canonical.
Print Assumptions C52_decode_encode.
Print Assumptions C52_is_negative.
Print Assumptions C52_is_non_zero.
Print Assumptions C52_prime.
Print Assumptions C52_invert.
Print Assumptions C52_invert_zero.
Print Assumptions C52_pow22523.
Print Assumptions C52_key_conversion.
