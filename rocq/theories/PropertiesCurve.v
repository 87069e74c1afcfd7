(** PropertiesCurve.v: C56 (the Edwards group operations and fixed-base scalar multiplication), C59 (point decompression).
    Specification: CurveSpec.v. [ext_rep h P] (EdwardsProofs.v) says that the limbs of h are small and that
    X = xZ, Y = yZ, T = xyZ, Z <> 0 for the coordinates x, y of P. *)
From Verif Require Import Base Crypto Field25519 FieldSpec FastZ FieldProofs FieldProofs2 ScalarSpec Fp CurveSpec CurveGroup EdBase Edwards EdwardsProofs EdwardsProofs2 EdwardsTable EdwardsMult EdwardsOrder OrderPrime KdfProofs PropertiesField XedProofs EdwardsDecode.
From Coq Require Import ZArith Znumtheory List Lia.
Import ListNotations.
Local Open Scope Z_scope.
Local Opaque padd popp.

(** ** C56 *)
(** GeScalarMultBase followed by ToBytes: the canonical encoding of a B, for every 32-byte a below 2^255. *)
Theorem C56_scalar_mult_base : forall a : arr32, le_val (abytes a) < 2 ^ 255 ->
  encodes (ext_to_bytes (scalar_mult_base a)) (zmul (le_val (abytes a)) base_point).
Proof. intros a H. apply ext_to_bytes_rep, scalar_mult_base_rep. exact H. Qed.
(** Doubling and mixed addition follow the addition law, on all points, equal, opposite or neutral ones included. *)
Theorem C56_double : forall h P, ext_rep h P -> ext_rep (comp_to_ext (ext_double h)) (padd P P).
Proof. intros h P H. apply comp_to_ext_rep. unfold ext_double. apply proj_double_rep, ext_to_proj_rep. exact H. Qed.
Theorem C56_mixed_add : forall h q P Q, ext_rep h P -> pc_rep q Q -> ext_rep (comp_to_ext (mixed_add h q)) (padd P Q).
Proof. intros h q P Q H1 H2. apply comp_to_ext_rep, mixed_add_rep; [exact H1|exact H2]. Qed.
(** ToBytes of either representation is the canonical encoding. *)
Theorem C56_to_bytes : forall h P, ext_rep h P -> encodes (ext_to_bytes h) P /\ encodes (proj_to_bytes (ext_to_proj h)) P.
Proof. intros h P H. split; [apply ext_to_bytes_rep; exact H|apply proj_to_bytes_rep, ext_to_proj_rep; exact H]. Qed.

(** Entry j of row i of the table in const.go is (j+1) 256^i B. *)
Lemma row_nth : forall row P k j e, row_rep P k row -> nth_error row j = Some e -> pc_rep e (zmul (k + Z.of_nat j) P).
Proof.
  induction row as [|x row IH]; intros P k j e R H; destruct j as [|j]; cbn [nth_error] in H; try discriminate H.
  - injection H as H. subst x. rewrite Z.add_0_r. exact (proj1 R).
  - assert (E : k + Z.of_nat (S j) = k + 1 + Z.of_nat j) by (clear; lia). rewrite E. exact (IH P (k + 1) j e (proj2 R) H).
Qed.
Lemma table_nth : forall rows P i row j e, on_curve P -> table_rep P rows -> nth_error rows i = Some row -> nth_error row j = Some e ->
  pc_rep e (zmul ((Z.of_nat j + 1) * 256 ^ Z.of_nat i) P).
Proof.
  induction rows as [|r rows IH]; intros P i row j e C T H1 H2; destruct i as [|i]; cbn [nth_error] in H1; try discriminate H1.
  - injection H1 as H1. subst r. destruct T as (_ & R & _). assert (E : (Z.of_nat j + 1) * 256 ^ Z.of_nat 0 = 1 + Z.of_nat j) by (clear; lia).
    rewrite E. exact (row_nth row P 1 j e R H2).
  - destruct T as (_ & _ & T). pose proof (IH (zmul 256 P) i row j e (zmul_on_curve 256 P C) T H1 H2) as K. rewrite <- (zmul_mul _ _ P C) in K.
    assert (E : (Z.of_nat j + 1) * 256 ^ Z.of_nat (S i) = (Z.of_nat j + 1) * 256 ^ Z.of_nat i * 256). { rewrite Nat2Z.inj_succ, Z.pow_succ_r by apply Nat2Z.is_nonneg. ring. }
    rewrite E. exact K.
Qed.
Theorem C56_table : forall i row j e, nth_error base_table i = Some row -> nth_error row j = Some e ->
  pc_rep e (zmul ((Z.of_nat j + 1) * 256 ^ Z.of_nat i) base_point).
Proof. intros i row j e. apply table_nth; [exact base_on_curve|exact base_table_rep]. Qed.

(** The base point has prime order L. *)
Theorem C56_order : prime order_l /\ forall z, zmul z base_point = pzero <-> (order_l | z).
Proof. split; [exact order_l_prime|exact zmul_zero_iff]. Qed.
(** Two scalars give the same bytes exactly when they agree modulo L. *)
Lemma encodes_inj : forall s P Q, on_curve P -> on_curve Q -> encodes s P -> encodes s Q -> P = Q.
Proof. intros s P Q CP CQ EP EQ. exact (decodes_unique s P Q (encodes_decodes s P CP EP) (encodes_decodes s Q CQ EQ)). Qed.
Lemma encodes_eq : forall s t P, encodes s P -> encodes t P -> s = t.
Proof. intros s t P H1 H2. apply arr_inj_val. unfold encodes in *. rewrite H1, H2. reflexivity. Qed.
Theorem C56_same_public : forall a b : arr32, le_val (abytes a) < 2 ^ 255 -> le_val (abytes b) < 2 ^ 255 ->
  (ext_to_bytes (scalar_mult_base a) = ext_to_bytes (scalar_mult_base b) <-> le_val (abytes a) mod order_l = le_val (abytes b) mod order_l).
Proof.
  intros a b HA HB. pose proof (C56_scalar_mult_base a HA) as EA. pose proof (C56_scalar_mult_base b HB) as EB.
  generalize dependent (ext_to_bytes (scalar_mult_base a)). intros s EA. generalize dependent (ext_to_bytes (scalar_mult_base b)). intros t EB.
  pose proof base_on_curve as C. pose proof zmul_zero_iff as Z. pose proof zmul_mod_order as M. generalize dependent base_point. intros B EA EB C Z M.
  generalize dependent (le_val (abytes a)). intros x _ EA. generalize dependent (le_val (abytes b)). intros y _ EB. split.
  - intros E. rewrite E in EA. pose proof (encodes_inj t _ _ (zmul_on_curve x B C) (zmul_on_curve y B C) EA EB) as K.
    assert (D : (order_l | x - y)). { apply Z. rewrite (zmul_sub x y B C), K. apply padd_opp. exact (zmul_on_curve y B C). }
    destruct D as (q & D). assert (E2 : x = y + q * order_l) by (clear - D; lia). rewrite E2. apply Z.mod_add. discriminate.
  - intros E. rewrite <- (M x) in EA. rewrite <- (M y) in EB. rewrite E in EA. exact (encodes_eq s t _ EA EB).
Qed.
(** A clamped private key never gives the neutral element. *)
Theorem C56_clamped_not_neutral : forall k, zmul (le_val (abytes (clamp k))) base_point <> pzero.
Proof. intros k. apply (clamped_nonzero _ ((le_val (abytes k) / 8) mod 2 ^ 251)); [apply clamp_val|apply Z.mod_pos_bound; lia]. Qed.
(** The bound on the scalar is needed: with a leading digit above 8 selectPoint finds no table entry. *)
Definition high_scalar : arr32 := to_arr 32 (repeat x00 31 ++ [x90]).
Lemma select_none : forall P row b, row_rep P 1 row -> length row = 8%nat -> b = 0 \/ b = 9 -> pc_rep (select_point row b) pzero.
Proof.
  intros P row b R L [->| ->]; [exact (select_point_rep P row 0 R L ltac:(lia))|]. do 8 (destruct row as [|? row]; [discriminate|]). destruct row; [|discriminate]. clear R L.
  unfold select_point. cbv zeta. lazymatch goal with |- context [select_loop _ _ 0 ?x] => let v := eval vm_compute in x in change x with v end.
  cbn [select_loop Z.add Pos.add Pos.succ]. eval_select. rewrite ?pc_cmove_0, ?pc_cmove_1. exact pc_zero_rep.
Qed.
Lemma rows_none : forall rows es h P0 P, ext_rep h P0 -> table_rep P rows -> Forall (fun b => b = 0 \/ b = 9) es -> ext_rep (add_rows h rows es) P0.
Proof.
  induction rows as [|row rows IH]; intros es h P0 P R T D; destruct es as [|e es]; cbn [add_rows]; try exact R.
  inversion D as [|? ? D1 D2]; subst. destruct T as (TL & TR & TT).
  pose proof (comp_to_ext_rep _ _ (mixed_add_rep _ _ _ _ R (select_none P row e TR TL D1))) as R1. rewrite padd_zero_r in R1. exact (IH es _ P0 _ R1 TT D2).
Qed.
Lemma high_digits : recode 0 (nibbles (abytes high_scalar)) = repeat 0 63 ++ [9].
Proof. vm_compute. reflexivity. Qed.
Lemma high_run : ext_rep (scalar_mult_base high_scalar) pzero.
Proof.
  unfold scalar_mult_base. cbv zeta. rewrite high_digits. assert (DO : Forall (fun b => b = 0 \/ b = 9) (odds (repeat 0 63 ++ [9]))) by (cbn; repeat constructor; lia).
  assert (DE : Forall (fun b => b = 0 \/ b = 9) (evens (repeat 0 63 ++ [9]))) by (cbn; repeat constructor; lia).
  pose proof base_table_rep as T. generalize dependent base_point. intros B T. generalize dependent base_table. intros tab T.
  generalize dependent (odds (repeat 0 63 ++ [9])). intros od DO. generalize dependent (evens (repeat 0 63 ++ [9])). intros ev DE.
  apply (rows_none tab ev _ pzero B); [|exact T|exact DE]. pose proof (rows_none tab od ext_zero pzero B ext_zero_rep T DO) as R.
  assert (DD : padd pzero pzero = pzero) by apply padd_zero_r.
  unfold ext_double. pose proof (proj_double_rep _ _ (ext_to_proj_rep _ _ R)) as R1. rewrite DD in R1.
  pose proof (proj_double_rep _ _ (comp_to_proj_rep _ _ R1)) as R2. rewrite DD in R2. pose proof (proj_double_rep _ _ (comp_to_proj_rep _ _ R2)) as R3. rewrite DD in R3.
  pose proof (comp_to_ext_rep _ _ (proj_double_rep _ _ (comp_to_proj_rep _ _ R3))) as R4. rewrite DD in R4. exact R4.
Qed.
Theorem C56_high_scalar_refuted : exists a : arr32, ~ encodes (ext_to_bytes (scalar_mult_base a)) (zmul (le_val (abytes a)) base_point).
Proof.
  exists high_scalar. intros H.
  assert (N : encodes (ext_to_bytes (scalar_mult_base high_scalar)) pzero).
  { apply ext_to_bytes_rep. exact high_run. }
  pose proof (encodes_inj _ _ _ (zmul_on_curve _ _ base_on_curve) pzero_on_curve H N) as K. apply zmul_zero_iff in K.
  apply Z.mod_divide in K; [|discriminate]. apply (f_equal (fun z => z =? 0)) in K. vm_compute in K. discriminate K.
Qed.

(** ** C59 *)
(** FromBytes succeeds exactly on the strings that decode to a point, and then represents that point. *)
Theorem C59_from_bytes : forall s,
  (forall h, ext_from_bytes s = Some h -> exists P, decodes s P /\ ext_rep h P) /\ (ext_from_bytes s = None -> forall P, ~ decodes s P).
Proof. intros s. split; [exact (from_bytes_some s)|]. intros H P. exact (from_bytes_none s P H). Qed.
(** At most one point is denoted by a string. *)
Theorem C59_unique : forall s P Q, decodes s P -> decodes s Q -> P = Q.
Proof. exact decodes_unique. Qed.
(** What ToBytes writes FromBytes reads back. *)
Theorem C59_roundtrip : forall h P, ext_rep h P -> exists h', ext_from_bytes (ext_to_bytes h) = Some h' /\ ext_rep h' P.
Proof.
  intros h P R. pose proof (encodes_decodes _ P (proj1 R) (ext_to_bytes_rep h P R)) as D. generalize dependent (ext_to_bytes h). intros s D.
  pose proof (from_bytes_some s) as FS. pose proof (from_bytes_none s P) as FN. destruct (ext_from_bytes s) as [h'|]; [|exfalso; exact (FN eq_refl D)].
  exists h'. split; [reflexivity|]. destruct (FS h' eq_refl) as (Q & DQ & RQ). rewrite (decodes_unique s P Q D DQ). exact RQ.
Qed.
(** The converse fails: non-canonical strings are read too, so different bytes can mean the same point. *)
Definition noncanonical : arr32 := to_arr 32 (xee :: repeat xff 30 ++ [x7f]).
Theorem C59_canonical_only_refuted : exists (s t : arr32) P, s <> t /\ decodes s P /\ decodes t P.
Proof.
  exists noncanonical, (to_arr 32 [x01]), pzero. split; [|split].
  - intros E. apply (f_equal abytes) in E. vm_compute in E. discriminate E.
  - split; [exact pzero_on_curve|]. split; [apply F_eq; vm_compute; reflexivity|left; reflexivity].
  - split; [exact pzero_on_curve|]. split; [apply F_eq; vm_compute; reflexivity|left; reflexivity].
Qed.

(** ** Examples *)
(** 1 B is the standard encoding of the base point; it decompresses; 2 is not the y-coordinate of a point. *)
Definition base_bytes : arr32 := to_arr 32 (x58 :: repeat x66 31).
Lemma base_encoded : encodes base_bytes base_point.
Proof.
  unfold encodes, enc_val, base_point, px, py. rewrite <- base_y_ok. cbn [fst snd fz ofZ].
  assert (E1 : base_y_val mod p25519 = base_y_val) by (vm_compute; reflexivity). rewrite E1. vm_compute. reflexivity.
Qed.
Example C56_example_base : ext_to_bytes (scalar_mult_base (to_arr 32 [x01])) = base_bytes.
Proof.
  assert (V : le_val (abytes (to_arr 32 [x01])) = 1) by (vm_compute; reflexivity).
  pose proof (C56_scalar_mult_base (to_arr 32 [x01])) as H. rewrite V in H. rewrite zmul_1 in H. exact (encodes_eq _ _ _ (H eq_refl) base_encoded).
Qed.
Lemma two_not_y : forall x : F, ~ on_curve (x, ofZ 2).
Proof.
  intros x H. assert (N : forall s : F, fmul s s <> ofZ (3 * (1 + 4 * d_val))).
  { assert (E : ofZ (3 * (1 + 4 * d_val)) = ofZ (3 * (1 + 4 * d_val) mod p25519)) by (symmetry; apply ofZ_mod). rewrite E.
    eapply not_square; [vm_compute; reflexivity|vm_compute; reflexivity|split; vm_compute; reflexivity]. }
  apply (N (fmul (fadd f1 (fmul (ofZ 4) d_ed)) x)). rewrite !ofZ_mul, ofZ_add, ofZ_mul, d_val_ok. clear N. unfold on_curve, px, py in H. cbn [fst snd] in H.
  generalize dependent d_ed. intros d H. change (ofZ 1) with f1.
  assert (K : fmul (fadd f1 (fmul (ofZ 4) d)) (fmul x x) = ofZ 3).
  { transitivity (fsub (fadd (fmul (fmul (ofZ 2) (ofZ 2)) f1) (fsub (fadd f1 (fmul d (fmul (fmul x x) (fmul (ofZ 2) (ofZ 2))))) (fsub (fmul (ofZ 2) (ofZ 2)) (fmul x x)))) f1); [ring|].
    rewrite H. ring. }
  transitivity (fmul (fadd f1 (fmul (ofZ 4) d)) (fmul (fadd f1 (fmul (ofZ 4) d)) (fmul x x))); [ring|]. rewrite K. ring.
Qed.
Example C59_example : (exists h, ext_from_bytes base_bytes = Some h) /\ ext_from_bytes (to_arr 32 [x02]) = None.
Proof.
  split.
  - pose proof (from_bytes_none base_bytes base_point) as H. pose proof (encodes_decodes base_bytes base_point base_on_curve base_encoded) as D.
    generalize dependent base_bytes. intros s H D. destruct (ext_from_bytes s) as [h|]; [exists h; reflexivity|exfalso; exact (H eq_refl D)].
  - pose proof (from_bytes_some (to_arr 32 [x02])) as H. assert (V : le_val (abytes (to_arr 32 [x02])) mod 2 ^ 255 = 2) by (vm_compute; reflexivity).
    generalize dependent (to_arr 32 [x02]). intros s H V. destruct (ext_from_bytes s) as [h|]; [|reflexivity]. exfalso.
    destruct (H h eq_refl) as ([x y] & (C & Y & _) & _). rewrite V in Y. unfold py in Y. cbn [snd] in Y. rewrite Y in C. exact (two_not_y x C).
Qed.
(** The same by running the code (checked when this file is compiled). *)
Check (eq_refl (base_bytes) <: ext_to_bytes (scalar_mult_base (to_arr 32 [x01])) = base_bytes).
Check (eq_refl (@None ext) <: ext_from_bytes (to_arr 32 [x02]) = None).
Check (eq_refl (x01 :: repeat x00 31) <: abytes (ext_to_bytes (scalar_mult_base high_scalar)) = x01 :: repeat x00 31).

Print Assumptions C56_scalar_mult_base.
Print Assumptions C56_double.
Print Assumptions C56_mixed_add.
Print Assumptions C56_to_bytes.
Print Assumptions C56_table.
Print Assumptions C56_order.
Print Assumptions C56_same_public.
Print Assumptions C56_clamped_not_neutral.
Print Assumptions C56_high_scalar_refuted.
Print Assumptions C59_from_bytes.
Print Assumptions C59_unique.
Print Assumptions C59_roundtrip.
Print Assumptions C59_canonical_only_refuted.
