(** FieldProofs2.v: additions, selection, byte encodings, powers. *)
From Verif Require Import Base Field25519 FieldSpec FieldProofs.
From Coq Require Import ZArith Lia List.
Local Open Scope Z_scope.

(** * Additions *)

Lemma limb_fe_add : forall n m d x y k, 0 < d -> n + m < 64 * d -> d * Z.abs x <= n * 2 ^ k -> d * Z.abs y <= m * 2 ^ k -> (0 <=? k) && (k <=? 25) = true ->
  i32 (x + y) = x + y /\ d * Z.abs (x + y) <= (n + m) * 2 ^ k.
Proof.
  intros n m d x y k HD HN X Y HK. apply andb_prop in HK. destruct HK as [K1 K2]. apply Z.leb_le in K1, K2. change (2 ^ 31) with (64 * 2 ^ 25).
  assert (0 < 2 ^ k <= 2 ^ 25) by (split; [apply Z.pow_pos_nonneg; lia|apply Z.pow_le_mono_r; lia]). set (q := 2 ^ k) in *.
  assert (Z.abs (x + y) <= Z.abs x + Z.abs y) by lia. assert (d * Z.abs (x + y) <= d * Z.abs x + d * Z.abs y) by nia.
  assert (H3 : d * Z.abs (x + y) <= (n + m) * q) by lia. split; [|exact H3]. apply i32_id.
  assert (0 <= (n + m) * q) by (assert (0 <= d * Z.abs (x + y)) by (apply Z.mul_nonneg_nonneg; lia); lia).
  assert (0 <= n + m) by nia. assert ((n + m) * q <= (n + m) * 2 ^ 25) by nia.
  assert (Z.abs (x + y) < 64 * 2 ^ 25) by nia. change (2 ^ 31) with (64 * 2 ^ 25). lia.
Qed.
Lemma limb_fe_sub : forall n m d x y k, 0 < d -> n + m < 64 * d -> d * Z.abs x <= n * 2 ^ k -> d * Z.abs y <= m * 2 ^ k -> (0 <=? k) && (k <=? 25) = true ->
  i32 (x - y) = x - y /\ d * Z.abs (x - y) <= (n + m) * 2 ^ k.
Proof.
  intros n m d x y k HD HN X Y HK. apply andb_prop in HK. destruct HK as [K1 K2]. apply Z.leb_le in K1, K2. change (2 ^ 31) with (64 * 2 ^ 25).
  assert (0 < 2 ^ k <= 2 ^ 25) by (split; [apply Z.pow_pos_nonneg; lia|apply Z.pow_le_mono_r; lia]). set (q := 2 ^ k) in *.
  assert (Z.abs (x - y) <= Z.abs x + Z.abs y) by lia. assert (d * Z.abs (x - y) <= d * Z.abs x + d * Z.abs y) by nia.
  assert (H3 : d * Z.abs (x - y) <= (n + m) * q) by lia. split; [|exact H3]. apply i32_id.
  assert (0 <= (n + m) * q) by (assert (0 <= d * Z.abs (x - y)) by (apply Z.mul_nonneg_nonneg; lia); lia).
  assert (0 <= n + m) by nia. assert ((n + m) * q <= (n + m) * 2 ^ 25) by nia.
  assert (Z.abs (x - y) < 64 * 2 ^ 25) by nia. change (2 ^ 31) with (64 * 2 ^ 25). lia.
Qed.
Lemma fe_add_spec : forall a b n m d, fe_bound n d a -> fe_bound m d b -> 0 < d -> n + m < 64 * d ->
  fe_val (fe_add a b) = fe_val a + fe_val b /\ fe_bound (n + m) d (fe_add a b).
Proof.
  intros [a0 a1 a2 a3 a4 a5 a6 a7 a8 a9] [b0 b1 b2 b3 b4 b5 b6 b7 b8 b9] n m d (A0 & A1 & A2 & A3 & A4 & A5 & A6 & A7 & A8 & A9)
    (B0 & B1 & B2 & B3 & B4 & B5 & B6 & B7 & B8 & B9) HD HN. cbn [e0 e1 e2 e3 e4 e5 e6 e7 e8 e9] in *.
  pose proof (fun x y k => limb_fe_add n m d x y k HD HN) as K.
  unfold fe_add, add32. cbn [e0 e1 e2 e3 e4 e5 e6 e7 e8 e9].
  destruct (K _ _ _ A0 B0 eq_refl) as [-> ?], (K _ _ _ A1 B1 eq_refl) as [-> ?], (K _ _ _ A2 B2 eq_refl) as [-> ?], (K _ _ _ A3 B3 eq_refl) as [-> ?], (K _ _ _ A4 B4 eq_refl) as [-> ?], (K _ _ _ A5 B5 eq_refl) as [-> ?], (K _ _ _ A6 B6 eq_refl) as [-> ?], (K _ _ _ A7 B7 eq_refl) as [-> ?], (K _ _ _ A8 B8 eq_refl) as [-> ?], (K _ _ _ A9 B9 eq_refl) as [-> ?].
  split; [clear; unfold fe_val; cbn [e0 e1 e2 e3 e4 e5 e6 e7 e8 e9]; ring|repeat split; assumption].
Qed.

Lemma fe_sub_spec : forall a b n m d, fe_bound n d a -> fe_bound m d b -> 0 < d -> n + m < 64 * d ->
  fe_val (fe_sub a b) = fe_val a - fe_val b /\ fe_bound (n + m) d (fe_sub a b).
Proof.
  intros [a0 a1 a2 a3 a4 a5 a6 a7 a8 a9] [b0 b1 b2 b3 b4 b5 b6 b7 b8 b9] n m d (A0 & A1 & A2 & A3 & A4 & A5 & A6 & A7 & A8 & A9)
    (B0 & B1 & B2 & B3 & B4 & B5 & B6 & B7 & B8 & B9) HD HN. cbn [e0 e1 e2 e3 e4 e5 e6 e7 e8 e9] in *.
  pose proof (fun x y k => limb_fe_sub n m d x y k HD HN) as K.
  unfold fe_sub, sub32. cbn [e0 e1 e2 e3 e4 e5 e6 e7 e8 e9].
  destruct (K _ _ _ A0 B0 eq_refl) as [-> ?], (K _ _ _ A1 B1 eq_refl) as [-> ?], (K _ _ _ A2 B2 eq_refl) as [-> ?], (K _ _ _ A3 B3 eq_refl) as [-> ?], (K _ _ _ A4 B4 eq_refl) as [-> ?], (K _ _ _ A5 B5 eq_refl) as [-> ?], (K _ _ _ A6 B6 eq_refl) as [-> ?], (K _ _ _ A7 B7 eq_refl) as [-> ?], (K _ _ _ A8 B8 eq_refl) as [-> ?], (K _ _ _ A9 B9 eq_refl) as [-> ?].
  split; [clear; unfold fe_val; cbn [e0 e1 e2 e3 e4 e5 e6 e7 e8 e9]; ring|repeat split; assumption].
Qed.

Lemma limb_neg : forall n d x k, 0 < d -> n < 64 * d -> d * Z.abs x <= n * 2 ^ k -> (0 <=? k) && (k <=? 25) = true -> i32 (- x) = - x /\ d * Z.abs (- x) <= n * 2 ^ k.
Proof.
  intros n d x k HD HN X HK. assert (Y : d * Z.abs 0 <= 0 * 2 ^ k) by (cbn [Z.abs]; lia).
  destruct (limb_fe_sub 0 n d 0 x k HD HN Y X HK) as [A B]. replace (0 - x) with (- x) in * by lia. replace (0 + n) with n in B by lia. auto.
Qed.

Lemma fe_neg_spec : forall a n d, fe_bound n d a -> 0 < d -> n < 64 * d -> fe_val (fe_neg a) = - fe_val a /\ fe_bound n d (fe_neg a).
Proof.
  intros [a0 a1 a2 a3 a4 a5 a6 a7 a8 a9] n d (A0 & A1 & A2 & A3 & A4 & A5 & A6 & A7 & A8 & A9) HD HN. cbn [e0 e1 e2 e3 e4 e5 e6 e7 e8 e9] in *.
  pose proof (fun x k => limb_neg n d x k HD HN) as K. unfold fe_neg. cbn [e0 e1 e2 e3 e4 e5 e6 e7 e8 e9].
  destruct (K _ _ A0 eq_refl) as [-> ?], (K _ _ A1 eq_refl) as [-> ?], (K _ _ A2 eq_refl) as [-> ?], (K _ _ A3 eq_refl) as [-> ?], (K _ _ A4 eq_refl) as [-> ?], (K _ _ A5 eq_refl) as [-> ?], (K _ _ A6 eq_refl) as [-> ?], (K _ _ A7 eq_refl) as [-> ?], (K _ _ A8 eq_refl) as [-> ?], (K _ _ A9 eq_refl) as [-> ?].
  split; [clear; unfold fe_val; cbn [e0 e1 e2 e3 e4 e5 e6 e7 e8 e9]; ring|repeat split; assumption].
Qed.

Lemma fe_cmove_spec : forall f g, fe_cmove f g 0 = f /\ fe_cmove f g 1 = g.
Proof.
  assert (K0 : forall x y, cmove 0 x y = x) by (intros x y; unfold cmove; change (i32 (- 0)) with 0; rewrite Z.land_0_l, Z.lxor_0_r; reflexivity).
  assert (K1 : forall x y, cmove 1 x y = y) by (intros x y; unfold cmove; change (i32 (- (1))) with (-1);
    rewrite Z.land_m1_l, <- Z.lxor_assoc, Z.lxor_nilpotent, Z.lxor_0_l; reflexivity).
  intros [f0 f1 f2 f3 f4 f5 f6 f7 f8 f9] [g0 g1 g2 g3 g4 g5 g6 g7 g8 g9]. unfold fe_cmove. cbn [e0 e1 e2 e3 e4 e5 e6 e7 e8 e9].
  rewrite !K0, !K1. split; reflexivity.
Qed.

(** * Bytes *)

Lemma zb_range : forall b, 0 <= zb b < 256.
Proof. intros b. unfold zb. destruct b; cbn; lia. Qed.

Lemma lor_disjoint : forall a b n, 0 <= n -> 0 <= a < 2 ^ n -> Z.lor a (b * 2 ^ n) = a + b * 2 ^ n.
Proof.
  intros a b n Hn Ha. rewrite <- Z.shiftl_mul_pow2 by lia.
  assert (E : Z.land a (Z.shiftl b n) = 0).
  { apply Z.bits_inj'. intros k Hk. rewrite Z.land_spec, Z.bits_0, Z.shiftl_spec by lia.
    destruct (Z.lt_ge_cases k n) as [L|L].
    - rewrite (Z.testbit_neg_r b) by lia. apply andb_false_r.
    - rewrite <- (Z.mod_small a (2 ^ n)) by lia. rewrite Z.mod_pow2_bits_high by lia. reflexivity. }
  rewrite Z.add_nocarry_lxor by exact E. symmetry. apply Z.lxor_lor, E.
Qed.

Lemma load3_val : forall a b c r, load3 (a :: b :: c :: r) = zb a + 2 ^ 8 * zb b + 2 ^ 16 * zb c.
Proof.
  intros a b c r. cbn [load3]. unfold shl64. pose proof (zb_range a). pose proof (zb_range b). pose proof (zb_range c).
  rewrite !i64_id by lia. rewrite (lor_disjoint (zb a)) by lia. rewrite lor_disjoint by lia. lia.
Qed.
Lemma load4_val : forall a b c d r, load4 (a :: b :: c :: d :: r) = zb a + 2 ^ 8 * zb b + 2 ^ 16 * zb c + 2 ^ 24 * zb d.
Proof.
  intros a b c d r. cbn [load4]. unfold shl64. pose proof (zb_range a). pose proof (zb_range b). pose proof (zb_range c). pose proof (zb_range d).
  rewrite !i64_id by lia. rewrite (lor_disjoint (zb a)) by lia. rewrite (lor_disjoint (zb a + zb b * 2 ^ 8)) by lia. rewrite lor_disjoint by lia. lia.
Qed.

Lemma arr32_list : forall s : arr32, exists a0 a1 a2 a3 a4 a5 a6 a7 a8 a9 a10 a11 a12 a13 a14 a15 a16 a17 a18 a19 a20 a21 a22 a23 a24 a25 a26 a27 a28 a29 a30 a31,
  abytes s = [a0; a1; a2; a3; a4; a5; a6; a7; a8; a9; a10; a11; a12; a13; a14; a15; a16; a17; a18; a19; a20; a21; a22; a23; a24; a25; a26; a27; a28; a29; a30; a31].
Proof.
  intros s. pose proof (arr_length 32 s) as H. destruct (abytes s) as [|a0 l]; [discriminate|].
  do 31 (destruct l as [|? l]; [discriminate|]). destruct l; [|discriminate]. repeat eexists.
Qed.

Lemma is_shl64 : forall x B n, 0 <= x <= B -> (B * 2 ^ n <? 2 ^ 62) && (0 <=? n) = true -> shl64 x n = x * 2 ^ n /\ Z.abs (x * 2 ^ n) <= 2 ^ 62.
Proof.
  intros x B n Hx H. apply andb_prop in H. destruct H as [H1 H2]. apply Z.ltb_lt in H1. apply Z.leb_le in H2.
  assert (0 < 2 ^ n) by (apply Z.pow_pos_nonneg; lia). set (q := 2 ^ n) in *. assert (0 <= x * q <= B * q) by nia.
  unfold shl64. fold q. split; [apply i64_id|]; lia.
Qed.

(** The wide value of FeFromBytes, with the nine loads abstracted. *)
Lemma from_loads : forall l0 l1 l2 l3 l4 l5 l6 l7 l8 l9,
  0 <= l0 < 2 ^ 32 -> 0 <= l1 < 2 ^ 24 -> 0 <= l2 < 2 ^ 24 -> 0 <= l3 < 2 ^ 24 -> 0 <= l4 < 2 ^ 24 -> 0 <= l5 < 2 ^ 32 -> 0 <= l6 < 2 ^ 24 ->
  0 <= l7 < 2 ^ 24 -> 0 <= l8 < 2 ^ 24 -> 0 <= l9 < 2 ^ 24 ->
  let r := fe_combine l0 (shl64 l1 6) (shl64 l2 5) (shl64 l3 3) (shl64 l4 2) l5 (shl64 l6 7) (shl64 l7 5) (shl64 l8 4) (shl64 (l9 mod 2 ^ 23) 2) in
  eqp (fe_val r) ((l0 + 2 ^ 32 * l1 + 2 ^ 56 * l2 + 2 ^ 80 * l3 + 2 ^ 104 * l4 + 2 ^ 128 * l5 + 2 ^ 160 * l6 + 2 ^ 184 * l7 + 2 ^ 208 * l8 + 2 ^ 232 * l9) mod 2 ^ 255)
  /\ fe_bound 101 100 r.
Proof.
  intros l0 l1 l2 l3 l4 l5 l6 l7 l8 l9 H0 H1 H2 H3 H4 H5 H6 H7 H8 H9 r. subst r.
  assert (W : forall x n, 0 <= x < 2 ^ 24 -> (0 <=? n) && (n <=? 7) = true -> shl64 x n = x * 2 ^ n /\ Z.abs (x * 2 ^ n) <= 2 ^ 62).
  { clear. intros x n Hx Hn. apply andb_prop in Hn. destruct Hn as [A B]. apply Z.leb_le in A, B. apply is_shl64 with (B := 2 ^ 24); [lia|].
    apply andb_true_intro. split; [apply Z.ltb_lt|apply Z.leb_le; lia]. assert (2 ^ n <= 2 ^ 7) by (apply Z.pow_le_mono_r; lia). lia. }
  assert (H10 : 0 <= l9 mod 2 ^ 23 < 2 ^ 23) by (apply Z.mod_pos_bound; lia).
  destruct (W l1 6 H1 eq_refl) as [-> ?], (W l2 5 H2 eq_refl) as [-> ?], (W l3 3 H3 eq_refl) as [-> ?], (W l4 2 H4 eq_refl) as [-> ?], (W l6 7 H6 eq_refl) as [-> ?],
    (W l7 5 H7 eq_refl) as [-> ?], (W l8 4 H8 eq_refl) as [-> ?], (W (l9 mod 2 ^ 23) 2) as [-> ?]; [lia|reflexivity|].
  match goal with |- context [fe_combine ?a ?b ?c ?d ?e ?f ?g ?h ?i ?j] => destruct (fe_combine_spec a b c d e f g h i j) as [V B] end.
  { repeat split; cbn [e0 e1 e2 e3 e4 e5 e6 e7 e8 e9]; try assumption; [clear -H0; lia|clear -H5; lia]. }
  split; [|exact B]. rewrite <- V || (unfold eqp in *; rewrite V; f_equal).
  unfold fe_val. cbn [e0 e1 e2 e3 e4 e5 e6 e7 e8 e9].
  apply Z.mod_unique with (q := l9 / 2 ^ 23).
  - left. clear -H0 H1 H2 H3 H4 H5 H6 H7 H8 H10. set (m := l9 mod 2 ^ 23) in *. clearbody m. lia.
  - pose proof (Z.div_mod l9 (2 ^ 23) ltac:(lia)) as E. rewrite E at 1. clear. set (m := l9 mod 2 ^ 23). set (q := l9 / 2 ^ 23). clearbody m q. ring.
Qed.

Lemma fe_from_bytes_spec : forall s, eqp (fe_val (fe_from_bytes s)) (le_val (abytes s) mod 2 ^ 255) /\ fe_bound 101 100 (fe_from_bytes s).
Proof.
  intros s. destruct (arr32_list s) as (a0 & a1 & a2 & a3 & a4 & a5 & a6 & a7 & a8 & a9 & a10 & a11 & a12 & a13 & a14 & a15 & a16 & a17 & a18 & a19
    & a20 & a21 & a22 & a23 & a24 & a25 & a26 & a27 & a28 & a29 & a30 & a31 & E).
  unfold fe_from_bytes. rewrite E. cbv zeta. cbn [skipn]. rewrite !load3_val, !load4_val.
  assert (R3 : forall a b c, 0 <= zb a + 2 ^ 8 * zb b + 2 ^ 16 * zb c < 2 ^ 24).
  { clear. intros a b c. pose proof (zb_range a). pose proof (zb_range b). pose proof (zb_range c). lia. }
  assert (R4 : forall a b c d, 0 <= zb a + 2 ^ 8 * zb b + 2 ^ 16 * zb c + 2 ^ 24 * zb d < 2 ^ 32).
  { clear. intros a b c d. pose proof (zb_range a). pose proof (zb_range b). pose proof (zb_range c). pose proof (zb_range d). lia. }
  change 8388607 with (Z.ones 23). rewrite Z.land_ones by lia.
  pose proof (from_loads _ _ _ _ _ _ _ _ _ _ (R4 a0 a1 a2 a3) (R3 a4 a5 a6) (R3 a7 a8 a9) (R3 a10 a11 a12) (R3 a13 a14 a15) (R4 a16 a17 a18 a19)
    (R3 a20 a21 a22) (R3 a23 a24 a25) (R3 a26 a27 a28) (R3 a29 a30 a31)) as [V B].
  split; [|exact B]. unfold eqp in *. rewrite V. f_equal. f_equal. clear. cbn [le_val]. ring.
Qed.

(** * Freezing *)

(** Nested floors. *)
Lemma nested_floor : forall h S w s, 0 <= w -> 0 <= s -> (h + S / 2 ^ w) / 2 ^ s = (2 ^ w * h + S) / 2 ^ (w + s).
Proof.
  intros h S w s Hw Hs. rewrite Z.pow_add_r by lia. assert (0 < 2 ^ w) by (apply Z.pow_pos_nonneg; lia). assert (0 < 2 ^ s) by (apply Z.pow_pos_nonneg; lia).
  rewrite <- Z.div_div by lia. f_equal. rewrite (Z.mul_comm (2 ^ w) h), Z.div_add_l by lia. reflexivity.
Qed.

Lemma i32_small : forall z, Z.abs z < 2 ^ 31 -> i32 z = z.
Proof. intros z H. apply i32_id. lia. Qed.

Lemma shr_bound : forall x s B, Z.abs x <= B -> 0 <= s -> Z.abs (shr x s) <= B.
Proof.
  intros x s B H Hs. unfold shr. assert (0 < 2 ^ s) by (apply Z.pow_pos_nonneg; lia). set (q := 2 ^ s) in *.
  assert (- B <= x / q) by (apply Z.div_le_lower_bound; nia). assert (x / q <= B) by (apply Z.div_le_upper_bound; nia). lia.
Qed.

(** One step of the quotient chain (ecc/edwards25519/edwards25519.go:140-150). *)
Lemma q_step : forall h q S w s, q = S / 2 ^ w -> Z.abs h <= 2 ^ 27 -> Z.abs q <= 2 ^ 5 -> (0 <=? w) && (25 <=? s) && (s <=? 26) = true ->
  shr (add32 h q) s = (2 ^ w * h + S) / 2 ^ (w + s) /\ Z.abs (shr (add32 h q) s) <= 2 ^ 5.
Proof.
  intros h q S w s E H Q C. apply andb_prop in C. destruct C as [C C3]. apply andb_prop in C. destruct C as [C1 C2]. apply Z.leb_le in C1, C2, C3.
  unfold add32. rewrite i32_small by lia. split.
  - rewrite E. unfold shr. apply nested_floor; lia.
  - unfold shr. assert (2 ^ 25 <= 2 ^ s) by (apply Z.pow_le_mono_r; lia). set (p := 2 ^ s) in *.
    assert (- 5 <= (h + q) / p) by (apply Z.div_le_lower_bound; nia). assert ((h + q) / p <= 5) by (apply Z.div_le_upper_bound; nia). lia.
Qed.

(** One carry of the second half (153-180). *)
Lemma carry32_step : forall s h hn, Z.abs h <= 2 ^ 28 -> Z.abs hn <= 2 ^ 27 -> (25 <=? s) && (s <=? 26) = true ->
  carry32 s h hn = (h mod 2 ^ s, hn + h / 2 ^ s) /\ 0 <= h mod 2 ^ s < 2 ^ s /\ Z.abs (hn + h / 2 ^ s) <= 2 ^ 28.
Proof.
  intros s h hn H HN C. apply andb_prop in C. destruct C as [C2 C3]. apply Z.leb_le in C2, C3.
  assert (K : s = 25 \/ s = 26) by lia. assert (D : - 8 <= h / 2 ^ s <= 8).
  { assert (2 ^ 25 <= 2 ^ s) by (apply Z.pow_le_mono_r; lia). set (p := 2 ^ s) in *. split; [apply Z.div_le_lower_bound|apply Z.div_le_upper_bound]; nia. }
  assert (M : 0 <= h mod 2 ^ s < 2 ^ s) by (apply Z.mod_pos_bound, Z.pow_pos_nonneg; lia).
  split; [|split; [exact M|lia]]. unfold carry32, shr, shl32, sub32, add32.
  assert (E := Z.div_mod h (2 ^ s) ltac:(destruct K; subst; lia)).
  assert (B : Z.abs (h / 2 ^ s * 2 ^ s) < 2 ^ 31) by (destruct K; subst; lia).
  rewrite (i32_small (h / 2 ^ s * 2 ^ s)) by exact B. rewrite !i32_small by (destruct K; subst; lia). f_equal. lia.
Qed.

Definition frozen (t : fe) : Prop :=
  0 <= e0 t < 2 ^ 26 /\ 0 <= e1 t < 2 ^ 25 /\ 0 <= e2 t < 2 ^ 26 /\ 0 <= e3 t < 2 ^ 25 /\ 0 <= e4 t < 2 ^ 26 /\ 0 <= e5 t < 2 ^ 25 /\
  0 <= e6 t < 2 ^ 26 /\ 0 <= e7 t < 2 ^ 25 /\ 0 <= e8 t < 2 ^ 26 /\ 0 <= e9 t < 2 ^ 25.

Lemma frozen_range : forall t, frozen t -> 0 <= fe_val t < 2 ^ 255.
Proof.
  intros [h0 h1 h2 h3 h4 h5 h6 h7 h8 h9] (A0 & A1 & A2 & A3 & A4 & A5 & A6 & A7 & A8 & A9). unfold fe_val. cbn [e0 e1 e2 e3 e4 e5 e6 e7 e8 e9] in *. lia.
Qed.

(** The number of multiples of p, from the two-limb view v = L + 2^230 h9. *)
Lemma freeze_arith : forall v L h9 q0, v = L + 2 ^ 230 * h9 -> Z.abs L < 2 ^ 232 -> 100 * Z.abs h9 <= 330 * 2 ^ 24 -> q0 = (19 * h9 + 2 ^ 24) / 2 ^ 25 ->
  -2 <= (v + q0) / 2 ^ 255 <= 2 /\ 0 <= v - (v + q0) / 2 ^ 255 * p25519 < p25519.
Proof.
  intros v L h9 q0 Ev HL Hh Eq. set (q := v / p25519).
  assert (R := Z.mod_pos_bound v p25519 ltac:(reflexivity)). assert (D := Z.div_mod v p25519 ltac:(discriminate)). fold q in D. set (r := v mod p25519) in *.
  assert (E := Z.div_mod (19 * h9 + 2 ^ 24) (2 ^ 25) ltac:(lia)). assert (M := Z.mod_pos_bound (19 * h9 + 2 ^ 24) (2 ^ 25) ltac:(lia)). rewrite <- Eq in E.
  set (m := (19 * h9 + 2 ^ 24) mod 2 ^ 25) in *. clearbody m r q. clear Eq. unfold p25519 in *.
  assert (V : Z.abs v < 2 ^ 255 + 2 ^ 254 + 2 ^ 253) by lia. assert (Q : -2 <= q <= 2) by lia.
  assert (N : 0 <= q0 - 19 * q <= 19) by lia.
  assert (K : (v + q0) / 2 ^ 255 = q). { symmetry. apply Z.div_unique with (r := r - 19 * q + q0); [left; lia|lia]. }
  rewrite K. split; [exact Q|lia].
Qed.
