(** FieldProofs.v: the limb arithmetic computes modulo 2^255-19. *)
From Verif Require Import Base Field25519 FieldSpec.
From Coq Require Import ZArith Lia List.
Local Open Scope Z_scope.

(** * Machine integers *)

Lemma i32_id : forall z, - 2 ^ 31 <= z < 2 ^ 31 -> i32 z = z.
Proof. intros z H. unfold i32. rewrite Z.mod_small by lia. lia. Qed.
Lemma i64_id : forall z, - 2 ^ 63 <= z < 2 ^ 63 -> i64 z = z.
Proof. intros z H. unfold i64. rewrite Z.mod_small by lia. lia. Qed.

Lemma i64_eqm : forall z, exists k, i64 z = z + k * 2 ^ 64.
Proof.
  intros z. unfold i64. exists (- ((z + 2 ^ 63) / 2 ^ 64)). pose proof (Z.div_mod (z + 2 ^ 63) (2 ^ 64) ltac:(lia)). lia.
Qed.
Lemma i64_shift : forall z k, i64 (z + k * 2 ^ 64) = i64 z.
Proof. intros z k. unfold i64. replace (z + k * 2 ^ 64 + 2 ^ 63) with (z + 2 ^ 63 + k * 2 ^ 64) by ring. rewrite Z.mod_add by lia. reflexivity. Qed.
Lemma i64_add : forall a b, i64 (i64 a + i64 b) = i64 (a + b).
Proof.
  intros a b. destruct (i64_eqm a) as (j & ->), (i64_eqm b) as (k & ->).
  replace (a + j * 2 ^ 64 + (b + k * 2 ^ 64)) with (a + b + (j + k) * 2 ^ 64) by ring. apply i64_shift.
Qed.
Lemma i64_add_l : forall a b, i64 (i64 a + b) = i64 (a + b).
Proof.
  intros a b. destruct (i64_eqm a) as (j & ->). replace (a + j * 2 ^ 64 + b) with (a + b + j * 2 ^ 64) by ring. apply i64_shift.
Qed.
Lemma i64_add_r : forall a b, i64 (a + i64 b) = i64 (a + b).
Proof. intros a b. rewrite Z.add_comm, i64_add_l, Z.add_comm. reflexivity. Qed.

(** * Carries *)

Lemma carry64_spec : forall s h hn B Bn, 25 <= s <= 26 -> Z.abs h <= B -> Z.abs hn <= Bn -> B + 2 ^ 33 < 2 ^ 63 -> Bn + 2 ^ 40 < 2 ^ 63 ->
  exists c, carry64 s h hn = (h - c * 2 ^ s, hn + c) /\ Z.abs c * 2 ^ s <= B + 2 ^ (s - 1) /\ - 2 ^ (s - 1) <= h - c * 2 ^ s < 2 ^ (s - 1).
Proof.
  intros s h hn B Bn Hs Hh Hn HB HBn.
  assert (E : 2 ^ s = 2 * 2 ^ (s - 1)) by (rewrite <- Z.pow_succ_r by lia; f_equal; lia).
  assert (P : 2 ^ 24 <= 2 ^ (s - 1)) by (apply Z.pow_le_mono_r; lia).
  assert (PU : 2 ^ (s - 1) <= 2 ^ 31) by (apply Z.pow_le_mono_r; lia).
  unfold carry64, add64, sub64, shl64, shr. set (t := 2 ^ (s - 1)) in *. rewrite E.
  rewrite (i64_id (h + t)) by lia. set (c := (h + t) / (2 * t)).
  pose proof (Z.div_mod (h + t) (2 * t) ltac:(lia)) as D. pose proof (Z.mod_pos_bound (h + t) (2 * t) ltac:(lia)) as M. fold c in D.
  exists c.
  assert (HC : - t <= h - c * (2 * t) < t) by lia.
  assert (HA : Z.abs c * (2 * t) <= B + t).
  { destruct (Z.abs_spec c) as [[? ->]|[? ->]]; lia. }
  assert (HC1 : Z.abs c <= 2 ^ 39) by nia.
  rewrite (i64_id (c * (2 * t))) by lia. rewrite (i64_id (h - _)) by lia. rewrite (i64_id (hn + c)) by lia. auto.
Qed.

Lemma carry64_19_spec : forall h h0 B B0, Z.abs h <= B -> Z.abs h0 <= B0 -> B + 2 ^ 33 < 2 ^ 63 -> B0 + 2 ^ 45 < 2 ^ 63 ->
  exists c, carry64_19 h h0 = (h - c * 2 ^ 25, h0 + 19 * c) /\ Z.abs c * 2 ^ 25 <= B + 2 ^ 24 /\ - 2 ^ 24 <= h - c * 2 ^ 25 < 2 ^ 24.
Proof.
  intros h h0 B B0 Hh H0 HB HB0. unfold carry64_19, add64, sub64, shl64, mul64, shr.
  rewrite (i64_id (h + 2 ^ 24)) by lia. set (c := (h + 2 ^ 24) / 2 ^ 25).
  pose proof (Z.div_mod (h + 2 ^ 24) (2 ^ 25) ltac:(lia)) as D. pose proof (Z.mod_pos_bound (h + 2 ^ 24) (2 ^ 25) ltac:(lia)) as M. fold c in D.
  exists c. rewrite (i64_id (c * 2 ^ 25)) by lia. rewrite (i64_id (h - _)) by lia. rewrite (i64_id (c * 19)) by lia. rewrite (i64_id (h0 + _)) by lia.
  split; [f_equal; ring|]. split; lia.
Qed.

Lemma eqp_add_multiple : forall a b k, a = b + k * p25519 -> eqp a b.
Proof. intros a b k ->. unfold eqp. apply Z.mod_add. unfold p25519. lia. Qed.

(** Any ten int64 values up to 2^62. *)
Definition wide_bound (t : fe) : Prop :=
  Z.abs (e0 t) <= 2 ^ 62 /\ Z.abs (e1 t) <= 2 ^ 62 /\ Z.abs (e2 t) <= 2 ^ 62 /\ Z.abs (e3 t) <= 2 ^ 62 /\ Z.abs (e4 t) <= 2 ^ 62 /\
  Z.abs (e5 t) <= 2 ^ 62 /\ Z.abs (e6 t) <= 2 ^ 62 /\ Z.abs (e7 t) <= 2 ^ 62 /\ Z.abs (e8 t) <= 2 ^ 62 /\ Z.abs (e9 t) <= 2 ^ 62.

(** One carry with numeric bounds: all side conditions are closed. *)
Lemma carry64_step : forall s h hn B Bn Cb, Z.abs h <= B -> Z.abs hn <= Bn -> (25 <=? s) && (s <=? 26) = true -> (B + 2 ^ 33 <? 2 ^ 63) = true ->
  (Bn + 2 ^ 40 <? 2 ^ 63) = true -> (B + 2 ^ (s - 1) <? (Cb + 1) * 2 ^ s) = true ->
  exists c, carry64 s h hn = (h - c * 2 ^ s, hn + c) /\ Z.abs (h - c * 2 ^ s) <= 2 ^ (s - 1) /\ Z.abs (hn + c) <= Bn + Cb.
Proof.
  intros s h hn B Bn Cb H1 H2 H3 H4 H5 H6. apply andb_prop in H3. destruct H3 as [H3 H3']. apply Z.leb_le in H3, H3'. apply Z.ltb_lt in H4, H5, H6.
  destruct (carry64_spec s h hn B Bn) as (c & E & A & R); auto. exists c. split; [exact E|]. split; [lia|].
  assert (0 < 2 ^ s) by (apply Z.pow_pos_nonneg; lia). assert (Z.abs c < Cb + 1) by nia. lia.
Qed.
Lemma carry64_19_step : forall h h0 B B0 Cb, Z.abs h <= B -> Z.abs h0 <= B0 -> (B + 2 ^ 33 <? 2 ^ 63) = true -> (B0 + 2 ^ 45 <? 2 ^ 63) = true ->
  (B + 2 ^ 24 <? (Cb + 1) * 2 ^ 25) = true ->
  exists c, carry64_19 h h0 = (h - c * 2 ^ 25, h0 + 19 * c) /\ Z.abs (h - c * 2 ^ 25) <= 2 ^ 24 /\ Z.abs (h0 + 19 * c) <= B0 + 19 * Cb.
Proof.
  intros h h0 B B0 Cb H1 H2 H3 H4 H5. apply Z.ltb_lt in H3, H4, H5. destruct (carry64_19_spec h h0 B B0) as (c & E & A & R); auto.
  exists c. split; [exact E|]. split; lia.
Qed.

Lemma i32_abs : forall z B, Z.abs z <= B -> (B <? 2 ^ 31) = true -> i32 z = z.
Proof. intros z B H1 H2. apply Z.ltb_lt in H2. apply i32_id. lia. Qed.
Lemma scaled : forall z B n d k, Z.abs z <= B -> (0 <=? d) && (d * B <=? n * k) = true -> d * Z.abs z <= n * k.
Proof. intros z B n d k H1 H2. apply andb_prop in H2. destruct H2 as [H2 H3]. apply Z.leb_le in H2, H3. nia. Qed.

Lemma fe_combine_spec : forall h0 h1 h2 h3 h4 h5 h6 h7 h8 h9, wide_bound (mk_fe h0 h1 h2 h3 h4 h5 h6 h7 h8 h9) ->
  eqp (fe_val (fe_combine h0 h1 h2 h3 h4 h5 h6 h7 h8 h9)) (fe_val (mk_fe h0 h1 h2 h3 h4 h5 h6 h7 h8 h9)) /\
  fe_bound 101 100 (fe_combine h0 h1 h2 h3 h4 h5 h6 h7 h8 h9).
Proof.
  intros h0 h1 h2 h3 h4 h5 h6 h7 h8 h9 (H0 & H1 & H2 & H3 & H4 & H5 & H6 & H7 & H8 & H9). cbn [e0 e1 e2 e3 e4 e5 e6 e7 e8 e9] in *.
  unfold fe_combine.
  destruct (carry64_step 26 _ _ _ _ (2 ^ 36) H0 H1 eq_refl eq_refl eq_refl eq_refl) as (a0 & -> & K0 & K1). clear H0 H1.
  destruct (carry64_step 26 _ _ _ _ (2 ^ 36) H4 H5 eq_refl eq_refl eq_refl eq_refl) as (a4 & -> & K4 & K5). clear H4 H5.
  destruct (carry64_step 25 _ _ _ _ (2 ^ 38) K1 H2 eq_refl eq_refl eq_refl eq_refl) as (a1 & -> & L1 & L2). clear K1 H2.
  destruct (carry64_step 25 _ _ _ _ (2 ^ 38) K5 H6 eq_refl eq_refl eq_refl eq_refl) as (a5 & -> & L5 & L6). clear K5 H6.
  destruct (carry64_step 26 _ _ _ _ (2 ^ 37) L2 H3 eq_refl eq_refl eq_refl eq_refl) as (a2 & -> & M2 & M3). clear L2 H3.
  destruct (carry64_step 26 _ _ _ _ (2 ^ 37) L6 H7 eq_refl eq_refl eq_refl eq_refl) as (a6 & -> & M6 & M7). clear L6 H7.
  destruct (carry64_step 25 _ _ _ _ (2 ^ 38) M3 K4 eq_refl eq_refl eq_refl eq_refl) as (a3 & -> & N3 & N4). clear M3 K4.
  destruct (carry64_step 25 _ _ _ _ (2 ^ 38) M7 H8 eq_refl eq_refl eq_refl eq_refl) as (a7 & -> & N7 & N8). clear M7 H8.
  destruct (carry64_step 26 _ _ _ _ (2 ^ 13) N4 L5 eq_refl eq_refl eq_refl eq_refl) as (b4 & -> & P4 & P5). clear N4 L5.
  destruct (carry64_step 26 _ _ _ _ (2 ^ 37) N8 H9 eq_refl eq_refl eq_refl eq_refl) as (a8 & -> & P8 & P9). clear N8 H9.
  destruct (carry64_19_step _ _ _ _ (2 ^ 38) P9 K0 eq_refl eq_refl eq_refl) as (a9 & -> & Q9 & Q0). clear P9 K0.
  destruct (carry64_step 26 _ _ _ _ (2 ^ 17) Q0 L1 eq_refl eq_refl eq_refl eq_refl) as (b0 & -> & S0 & S1). clear Q0 L1.
  rewrite (i32_abs _ _ S0), (i32_abs _ _ S1), (i32_abs _ _ M2), (i32_abs _ _ N3), (i32_abs _ _ P4), (i32_abs _ _ P5), (i32_abs _ _ M6),
    (i32_abs _ _ N7), (i32_abs _ _ P8), (i32_abs _ _ Q9) by reflexivity. split.
  - apply (eqp_add_multiple _ _ (- a9)). clear. unfold fe_val, p25519. cbn [e0 e1 e2 e3 e4 e5 e6 e7 e8 e9]. ring.
  - unfold fe_bound. cbn [e0 e1 e2 e3 e4 e5 e6 e7 e8 e9].
    split; [apply (scaled _ _ _ _ _ S0); reflexivity|]. split; [apply (scaled _ _ _ _ _ S1); reflexivity|]. split; [apply (scaled _ _ _ _ _ M2); reflexivity|].
    split; [apply (scaled _ _ _ _ _ N3); reflexivity|]. split; [apply (scaled _ _ _ _ _ P4); reflexivity|]. split; [apply (scaled _ _ _ _ _ P5); reflexivity|].
    split; [apply (scaled _ _ _ _ _ M6); reflexivity|]. split; [apply (scaled _ _ _ _ _ N7); reflexivity|]. split; [apply (scaled _ _ _ _ _ P8); reflexivity|].
    apply (scaled _ _ _ _ _ Q9); reflexivity.
Qed.

(** * Products *)

(** A machine expression with a value and a bound. *)
Definition is64 (x v B : Z) : Prop := x = v /\ Z.abs v <= B.

Lemma is_var : forall v B, Z.abs v <= B -> is64 v v B.
Proof. intros v B H. split; [reflexivity|exact H]. Qed.
Lemma is_mul32 : forall k x v B, (0 <=? k) = true -> is64 x v B -> (k * B <? 2 ^ 31) = true -> is64 (mul32 k x) (k * v) (k * B).
Proof.
  intros k x v B HK [-> H] HB. apply Z.leb_le in HK. apply Z.ltb_lt in HB. assert (Z.abs (k * v) <= k * B) by (rewrite Z.abs_mul; nia).
  split; [|assumption]. unfold mul32. apply i32_id. lia.
Qed.
Lemma is_mul64 : forall x v B y w D, is64 x v B -> is64 y w D -> (B * D <? 2 ^ 63) = true -> is64 (mul64 x y) (v * w) (B * D).
Proof.
  intros x v B y w D [-> H] [-> H2] HB. apply Z.ltb_lt in HB. assert (Z.abs (v * w) <= B * D) by (rewrite Z.abs_mul; nia).
  split; [|assumption]. unfold mul64. apply i64_id. lia.
Qed.
Lemma is_mul64_k : forall k x v B, (0 <=? k) = true -> is64 x v B -> (k * B <? 2 ^ 63) = true -> is64 (mul64 k x) (k * v) (k * B).
Proof.
  intros k x v B HK [-> H] HB. apply Z.leb_le in HK. apply Z.ltb_lt in HB. assert (Z.abs (k * v) <= k * B) by (rewrite Z.abs_mul; nia).
  split; [|assumption]. unfold mul64. apply i64_id. lia.
Qed.
Lemma is_add64 : forall x v B y w D, is64 x v B -> is64 y w D -> (B + D <? 2 ^ 63) = true -> is64 (add64 x y) (v + w) (B + D).
Proof.
  intros x v B y w D [-> H] [-> H2] HB. apply Z.ltb_lt in HB. assert (Z.abs (v + w) <= B + D) by lia.
  split; [|assumption]. unfold add64. apply i64_id. lia.
Qed.

(** Finds value and bound of an expression built from the operations above. *)
Ltac machine :=
  lazymatch goal with
  | |- is64 (add64 _ _) _ _ => eapply is_add64; [machine|machine|vm_compute; reflexivity]
  | |- is64 (mul64 38 _) _ _ => eapply is_mul64_k; [reflexivity|machine|vm_compute; reflexivity]
  | |- is64 (mul64 19 _) _ _ => eapply is_mul64_k; [reflexivity|machine|vm_compute; reflexivity]
  | |- is64 (mul64 _ _) _ _ => eapply is_mul64; [machine|machine|vm_compute; reflexivity]
  | |- is64 (mul32 _ _) _ _ => eapply is_mul32; [reflexivity|machine|vm_compute; reflexivity]
  | H : Z.abs ?v <= _ |- is64 ?v _ _ => apply is_var; exact H
  end.
Ltac machine_rw t :=
  let v := fresh "v" in let B := fresh "B" in
  evar (v : Z); evar (B : Z);
  let H := fresh "W" in assert (H : is64 t v B) by (subst v B; machine); subst v B; destruct H as [? ?].

Lemma abs_bound : forall n d x k B, d * Z.abs x <= n * k -> (0 <? d) && (n * k <? d * (B + 1)) = true -> Z.abs x <= B.
Proof. intros n d x k B H1 H2. apply andb_prop in H2. destruct H2 as [H2 H3]. apply Z.ltb_lt in H2, H3. nia. Qed.

Lemma wide_ok : forall x v B, is64 x v B -> (B <=? 2 ^ 62) = true -> x = v /\ Z.abs v <= 2 ^ 62.
Proof. intros x v B [-> H] HB. apply Z.leb_le in HB. split; [reflexivity|lia]. Qed.

Lemma fe_mul_wide_spec : forall f g, fe_bound 330 100 f -> fe_bound 330 100 g -> eqp (fe_val (fe_mul f g)) (fe_val f * fe_val g) /\ fe_bound 101 100 (fe_mul f g).
Proof.
  intros [f0 f1 f2 f3 f4 f5 f6 f7 f8 f9] [g0 g1 g2 g3 g4 g5 g6 g7 g8 g9] HF HG.
  destruct HF as (F0 & F1 & F2 & F3 & F4 & F5 & F6 & F7 & F8 & F9). destruct HG as (G0 & G1 & G2 & G3 & G4 & G5 & G6 & G7 & G8 & G9).
  cbn [e0 e1 e2 e3 e4 e5 e6 e7 e8 e9] in *.
  apply (abs_bound _ _ _ _ 110729625) in F0, F2, F4, F6, F8, G0, G2, G4, G6, G8; try reflexivity.
  apply (abs_bound _ _ _ _ 55364812) in F1, F3, F5, F7, F9, G1, G3, G5, G7, G9; try reflexivity.
  unfold fe_mul. cbn [e0 e1 e2 e3 e4 e5 e6 e7 e8 e9]. cbv zeta.
  match goal with |- context [fe_combine ?a ?b ?c ?d ?e ?f ?g ?h ?i ?j] =>
    set (t0 := a); set (t1 := b); set (t2 := c); set (t3 := d); set (t4 := e); set (t5 := f); set (t6 := g); set (t7 := h); set (t8 := i); set (t9 := j) end.
  eassert (W0 : t0 = _ /\ Z.abs _ <= 2 ^ 62) by (eapply wide_ok; [subst t0; machine|vm_compute; reflexivity]). destruct W0 as [E0 A0].
  eassert (W1 : t1 = _ /\ Z.abs _ <= 2 ^ 62) by (eapply wide_ok; [subst t1; machine|vm_compute; reflexivity]). destruct W1 as [E1 A1].
  eassert (W2 : t2 = _ /\ Z.abs _ <= 2 ^ 62) by (eapply wide_ok; [subst t2; machine|vm_compute; reflexivity]). destruct W2 as [E2 A2].
  eassert (W3 : t3 = _ /\ Z.abs _ <= 2 ^ 62) by (eapply wide_ok; [subst t3; machine|vm_compute; reflexivity]). destruct W3 as [E3 A3].
  eassert (W4 : t4 = _ /\ Z.abs _ <= 2 ^ 62) by (eapply wide_ok; [subst t4; machine|vm_compute; reflexivity]). destruct W4 as [E4 A4].
  eassert (W5 : t5 = _ /\ Z.abs _ <= 2 ^ 62) by (eapply wide_ok; [subst t5; machine|vm_compute; reflexivity]). destruct W5 as [E5 A5].
  eassert (W6 : t6 = _ /\ Z.abs _ <= 2 ^ 62) by (eapply wide_ok; [subst t6; machine|vm_compute; reflexivity]). destruct W6 as [E6 A6].
  eassert (W7 : t7 = _ /\ Z.abs _ <= 2 ^ 62) by (eapply wide_ok; [subst t7; machine|vm_compute; reflexivity]). destruct W7 as [E7 A7].
  eassert (W8 : t8 = _ /\ Z.abs _ <= 2 ^ 62) by (eapply wide_ok; [subst t8; machine|vm_compute; reflexivity]). destruct W8 as [E8 A8].
  eassert (W9 : t9 = _ /\ Z.abs _ <= 2 ^ 62) by (eapply wide_ok; [subst t9; machine|vm_compute; reflexivity]). destruct W9 as [E9 A9].
  clearbody t0 t1 t2 t3 t4 t5 t6 t7 t8 t9. subst t0 t1 t2 t3 t4 t5 t6 t7 t8 t9.
  match goal with |- context [fe_combine ?a ?b ?c ?d ?e ?f ?g ?h ?i ?j] => destruct (fe_combine_spec a b c d e f g h i j) as [V B]; [repeat split; assumption|] end.
  split; [|exact B]. clear B. red in V |- *. rewrite V. clear. apply (eqp_add_multiple _ _ (- (2 ^ 0 * (2 * f1 * g9 + f2 * g8 + 2 * f3 * g7 + f4 * g6 + 2 * f5 * g5 + f6 * g4 + 2 * f7 * g3 + f8 * g2 + 2 * f9 * g1) + 2 ^ 26 * (f2 * g9 + f3 * g8 + f4 * g7 + f5 * g6 + f6 * g5 + f7 * g4 + f8 * g3 + f9 * g2) + 2 ^ 51 * (2 * f3 * g9 + f4 * g8 + 2 * f5 * g7 + f6 * g6 + 2 * f7 * g5 + f8 * g4 + 2 * f9 * g3) + 2 ^ 77 * (f4 * g9 + f5 * g8 + f6 * g7 + f7 * g6 + f8 * g5 + f9 * g4) + 2 ^ 102 * (2 * f5 * g9 + f6 * g8 + 2 * f7 * g7 + f8 * g6 + 2 * f9 * g5) + 2 ^ 128 * (f6 * g9 + f7 * g8 + f8 * g7 + f9 * g6) + 2 ^ 153 * (2 * f7 * g9 + f8 * g8 + 2 * f9 * g7) + 2 ^ 179 * (f8 * g9 + f9 * g8) + 2 ^ 204 * (2 * f9 * g9)))).
  unfold fe_val, p25519. cbn [e0 e1 e2 e3 e4 e5 e6 e7 e8 e9]. ring.
Qed.

Lemma fe_bound_22 : forall f, fe_bound 22 10 f -> fe_bound 330 100 f.
Proof. intros f (B0 & B1 & B2 & B3 & B4 & B5 & B6 & B7 & B8 & B9). unfold fe_bound. lia. Qed.
Lemma fe_mul_spec : forall f g, fe_bound 22 10 f -> fe_bound 22 10 g -> eqp (fe_val (fe_mul f g)) (fe_val f * fe_val g) /\ fe_bound 101 100 (fe_mul f g).
Proof. intros f g F G. apply fe_mul_wide_spec; apply fe_bound_22; assumption. Qed.

Lemma fe_square_wide_spec : forall f, fe_bound 330 100 f -> eqp (fe_val (fe_square f)) (fe_val f * fe_val f) /\ fe_bound 101 100 (fe_square f).
Proof.
  intros [f0 f1 f2 f3 f4 f5 f6 f7 f8 f9] HF.
  destruct HF as (F0 & F1 & F2 & F3 & F4 & F5 & F6 & F7 & F8 & F9). cbn [e0 e1 e2 e3 e4 e5 e6 e7 e8 e9] in *.
  apply (abs_bound _ _ _ _ 110729625) in F0, F2, F4, F6, F8; try reflexivity.
  apply (abs_bound _ _ _ _ 55364812) in F1, F3, F5, F7, F9; try reflexivity.
  unfold fe_square, combine_wide, fe_square_wide. cbn [e0 e1 e2 e3 e4 e5 e6 e7 e8 e9]. cbv zeta.
  match goal with |- context [fe_combine ?a ?b ?c ?d ?e ?f ?g ?h ?i ?j] =>
    set (t0 := a); set (t1 := b); set (t2 := c); set (t3 := d); set (t4 := e); set (t5 := f); set (t6 := g); set (t7 := h); set (t8 := i); set (t9 := j) end.
  eassert (W0 : t0 = _ /\ Z.abs _ <= 2 ^ 62) by (eapply wide_ok; [subst t0; machine|vm_compute; reflexivity]). destruct W0 as [E0 A0].
  eassert (W1 : t1 = _ /\ Z.abs _ <= 2 ^ 62) by (eapply wide_ok; [subst t1; machine|vm_compute; reflexivity]). destruct W1 as [E1 A1].
  eassert (W2 : t2 = _ /\ Z.abs _ <= 2 ^ 62) by (eapply wide_ok; [subst t2; machine|vm_compute; reflexivity]). destruct W2 as [E2 A2].
  eassert (W3 : t3 = _ /\ Z.abs _ <= 2 ^ 62) by (eapply wide_ok; [subst t3; machine|vm_compute; reflexivity]). destruct W3 as [E3 A3].
  eassert (W4 : t4 = _ /\ Z.abs _ <= 2 ^ 62) by (eapply wide_ok; [subst t4; machine|vm_compute; reflexivity]). destruct W4 as [E4 A4].
  eassert (W5 : t5 = _ /\ Z.abs _ <= 2 ^ 62) by (eapply wide_ok; [subst t5; machine|vm_compute; reflexivity]). destruct W5 as [E5 A5].
  eassert (W6 : t6 = _ /\ Z.abs _ <= 2 ^ 62) by (eapply wide_ok; [subst t6; machine|vm_compute; reflexivity]). destruct W6 as [E6 A6].
  eassert (W7 : t7 = _ /\ Z.abs _ <= 2 ^ 62) by (eapply wide_ok; [subst t7; machine|vm_compute; reflexivity]). destruct W7 as [E7 A7].
  eassert (W8 : t8 = _ /\ Z.abs _ <= 2 ^ 62) by (eapply wide_ok; [subst t8; machine|vm_compute; reflexivity]). destruct W8 as [E8 A8].
  eassert (W9 : t9 = _ /\ Z.abs _ <= 2 ^ 62) by (eapply wide_ok; [subst t9; machine|vm_compute; reflexivity]). destruct W9 as [E9 A9].
  clearbody t0 t1 t2 t3 t4 t5 t6 t7 t8 t9. subst t0 t1 t2 t3 t4 t5 t6 t7 t8 t9.
  match goal with |- context [fe_combine ?a ?b ?c ?d ?e ?f ?g ?h ?i ?j] => destruct (fe_combine_spec a b c d e f g h i j) as [V B]; [repeat split; assumption|] end.
  split; [|exact B]. clear B. red in V |- *. rewrite V. clear. apply (eqp_add_multiple _ _ (- (2 ^ 0 * (2 * f1 * f9 + f2 * f8 + 2 * f3 * f7 + f4 * f6 + 2 * f5 * f5 + f6 * f4 + 2 * f7 * f3 + f8 * f2 + 2 * f9 * f1) + 2 ^ 26 * (f2 * f9 + f3 * f8 + f4 * f7 + f5 * f6 + f6 * f5 + f7 * f4 + f8 * f3 + f9 * f2) + 2 ^ 51 * (2 * f3 * f9 + f4 * f8 + 2 * f5 * f7 + f6 * f6 + 2 * f7 * f5 + f8 * f4 + 2 * f9 * f3) + 2 ^ 77 * (f4 * f9 + f5 * f8 + f6 * f7 + f7 * f6 + f8 * f5 + f9 * f4) + 2 ^ 102 * (2 * f5 * f9 + f6 * f8 + 2 * f7 * f7 + f8 * f6 + 2 * f9 * f5) + 2 ^ 128 * (f6 * f9 + f7 * f8 + f8 * f7 + f9 * f6) + 2 ^ 153 * (2 * f7 * f9 + f8 * f8 + 2 * f9 * f7) + 2 ^ 179 * (f8 * f9 + f9 * f8) + 2 ^ 204 * (2 * f9 * f9)))).
  unfold fe_val, p25519. cbn [e0 e1 e2 e3 e4 e5 e6 e7 e8 e9]. ring.
Qed.

Lemma fe_square_spec : forall f, fe_bound 22 10 f -> eqp (fe_val (fe_square f)) (fe_val f * fe_val f) /\ fe_bound 101 100 (fe_square f).
Proof. intros f F. apply fe_square_wide_spec, fe_bound_22, F. Qed.

Lemma fe_square2_spec : forall f, fe_bound 330 100 f -> eqp (fe_val (fe_square2 f)) (2 * (fe_val f * fe_val f)) /\ fe_bound 101 100 (fe_square2 f).
Proof.
  intros [f0 f1 f2 f3 f4 f5 f6 f7 f8 f9] HF.
  destruct HF as (F0 & F1 & F2 & F3 & F4 & F5 & F6 & F7 & F8 & F9). cbn [e0 e1 e2 e3 e4 e5 e6 e7 e8 e9] in *.
  apply (abs_bound _ _ _ _ 110729625) in F0, F2, F4, F6, F8; try reflexivity.
  apply (abs_bound _ _ _ _ 55364812) in F1, F3, F5, F7, F9; try reflexivity.
  unfold fe_square2, fe_square_wide. cbn [e0 e1 e2 e3 e4 e5 e6 e7 e8 e9]. cbv zeta.
  match goal with |- context [fe_combine ?a ?b ?c ?d ?e ?f ?g ?h ?i ?j] =>
    set (t0 := a); set (t1 := b); set (t2 := c); set (t3 := d); set (t4 := e); set (t5 := f); set (t6 := g); set (t7 := h); set (t8 := i); set (t9 := j) end.
  eassert (W0 : t0 = _ /\ Z.abs _ <= 2 ^ 62) by (eapply wide_ok; [subst t0; machine|vm_compute; reflexivity]). destruct W0 as [E0 A0].
  eassert (W1 : t1 = _ /\ Z.abs _ <= 2 ^ 62) by (eapply wide_ok; [subst t1; machine|vm_compute; reflexivity]). destruct W1 as [E1 A1].
  eassert (W2 : t2 = _ /\ Z.abs _ <= 2 ^ 62) by (eapply wide_ok; [subst t2; machine|vm_compute; reflexivity]). destruct W2 as [E2 A2].
  eassert (W3 : t3 = _ /\ Z.abs _ <= 2 ^ 62) by (eapply wide_ok; [subst t3; machine|vm_compute; reflexivity]). destruct W3 as [E3 A3].
  eassert (W4 : t4 = _ /\ Z.abs _ <= 2 ^ 62) by (eapply wide_ok; [subst t4; machine|vm_compute; reflexivity]). destruct W4 as [E4 A4].
  eassert (W5 : t5 = _ /\ Z.abs _ <= 2 ^ 62) by (eapply wide_ok; [subst t5; machine|vm_compute; reflexivity]). destruct W5 as [E5 A5].
  eassert (W6 : t6 = _ /\ Z.abs _ <= 2 ^ 62) by (eapply wide_ok; [subst t6; machine|vm_compute; reflexivity]). destruct W6 as [E6 A6].
  eassert (W7 : t7 = _ /\ Z.abs _ <= 2 ^ 62) by (eapply wide_ok; [subst t7; machine|vm_compute; reflexivity]). destruct W7 as [E7 A7].
  eassert (W8 : t8 = _ /\ Z.abs _ <= 2 ^ 62) by (eapply wide_ok; [subst t8; machine|vm_compute; reflexivity]). destruct W8 as [E8 A8].
  eassert (W9 : t9 = _ /\ Z.abs _ <= 2 ^ 62) by (eapply wide_ok; [subst t9; machine|vm_compute; reflexivity]). destruct W9 as [E9 A9].
  clearbody t0 t1 t2 t3 t4 t5 t6 t7 t8 t9. subst t0 t1 t2 t3 t4 t5 t6 t7 t8 t9.
  match goal with |- context [fe_combine ?a ?b ?c ?d ?e ?f ?g ?h ?i ?j] => destruct (fe_combine_spec a b c d e f g h i j) as [V B]; [repeat split; assumption|] end.
  split; [|exact B]. clear B. red in V |- *. rewrite V. clear. apply (eqp_add_multiple _ _ (2 * (- (2 ^ 0 * (2 * f1 * f9 + f2 * f8 + 2 * f3 * f7 + f4 * f6 + 2 * f5 * f5 + f6 * f4 + 2 * f7 * f3 + f8 * f2 + 2 * f9 * f1) + 2 ^ 26 * (f2 * f9 + f3 * f8 + f4 * f7 + f5 * f6 + f6 * f5 + f7 * f4 + f8 * f3 + f9 * f2) + 2 ^ 51 * (2 * f3 * f9 + f4 * f8 + 2 * f5 * f7 + f6 * f6 + 2 * f7 * f5 + f8 * f4 + 2 * f9 * f3) + 2 ^ 77 * (f4 * f9 + f5 * f8 + f6 * f7 + f7 * f6 + f8 * f5 + f9 * f4) + 2 ^ 102 * (2 * f5 * f9 + f6 * f8 + 2 * f7 * f7 + f8 * f6 + 2 * f9 * f5) + 2 ^ 128 * (f6 * f9 + f7 * f8 + f8 * f7 + f9 * f6) + 2 ^ 153 * (2 * f7 * f9 + f8 * f8 + 2 * f9 * f7) + 2 ^ 179 * (f8 * f9 + f9 * f8) + 2 ^ 204 * (2 * f9 * f9))))).
  unfold fe_val, p25519. cbn [e0 e1 e2 e3 e4 e5 e6 e7 e8 e9]. ring.
Qed.
