(** FieldProofs4.v: the key conversion of signature verification. *)
From Verif Require Import Base Field25519 FieldSpec FieldProofs FieldProofs2 FieldProofs3 FieldPrime.
From Coq Require Import ZArith Lia List.
Import ListNotations.
Local Open Scope Z_scope.
Local Open Scope list_scope.

Lemma le_val_snoc : forall l b, le_val (l ++ [b]) = le_val l + 256 ^ Z.of_nat (length l) * zb b.
Proof.
  induction l as [|a l IH]; intros b; cbn [app le_val length]; [change (256 ^ Z.of_nat 0) with 1; lia|]. rewrite IH, Nat2Z.inj_succ, Z.pow_succ_r by lia. ring.
Qed.
Lemma le_val_bound : forall l, 0 <= le_val l < 256 ^ Z.of_nat (length l).
Proof.
  induction l as [|a l IH]; [cbn; lia|]. cbn [le_val length]. rewrite Nat2Z.inj_succ, Z.pow_succ_r by lia. pose proof (zb_range a). lia.
Qed.
Lemma on_last_snoc : forall f l b, on_last f (l ++ [b]) = l ++ [f b].
Proof. intros f l b. unfold on_last. rewrite rev_app_distr. cbn [rev app]. rewrite rev_involutive. reflexivity. Qed.
Lemma arr32_snoc : forall s : arr32, exists l b, abytes s = l ++ [b] /\ length l = 31%nat.
Proof.
  intros s. pose proof (arr_length 32 s) as H. destruct (exists_last (l := abytes s)) as (l & b & E).
  - intros E. rewrite E in H. discriminate.
  - exists l, b. split; [exact E|]. rewrite E, app_length in H. cbn in H. lia.
Qed.
Lemma byte_cases : forall P : byte -> Prop, (forall n, (n < 256)%nat -> P (n2b (N.of_nat n))) -> forall b, P b.
Proof. intros P H b. rewrite <- (n2b_b2n b). pose proof (b2n_lt b). rewrite <- (N2Nat.id (b2n b)). apply H. lia. Qed.
Lemma byte_check : forall f : byte -> bool, forallb (fun n => f (n2b (N.of_nat n))) (seq 0 256) = true -> forall b, f b = true.
Proof. intros f H. apply byte_cases. intros n Hn. rewrite forallb_forall in H. apply H, in_seq. lia. Qed.

Lemma zb_clear_top : forall b, zb (clear_top b) = zb b mod 128.
Proof. intros b. apply Z.eqb_eq. revert b. apply byte_check. vm_compute. reflexivity. Qed.
Lemma zb_top_bit : forall b, zb b = zb b mod 128 + 128 * (zb b / 128) /\ 0 <= zb b / 128 <= 1.
Proof. intros b. pose proof (zb_range b). pose proof (Z.div_mod (zb b) 128 ltac:(lia)). pose proof (Z.mod_pos_bound (zb b) 128 ltac:(lia)). lia. Qed.
Lemma zb_set_top : forall s b, zb b < 128 -> zb (set_top s b) = zb b + 128 * (zb s / 128).
Proof.
  intros s b H. unfold set_top.
  assert (E : N.land (b2n s) 128 = Z.to_N (128 * (zb s / 128))).
  { apply N.eqb_eq. revert s. apply byte_check. vm_compute. reflexivity. }
  rewrite E. destruct (zb_top_bit s) as [_ B]. assert (C : zb s / 128 = 0 \/ zb s / 128 = 1) by lia. destruct C as [-> | ->].
  - change (Z.to_N (128 * 0)) with 0%N. rewrite N.lor_0_r, n2b_b2n. lia.
  - change (Z.to_N (128 * 1)) with 128%N. apply Z.eqb_eq. revert H.
    assert (K : forall b, (negb (zb b <? 128) || (zb (n2b (N.lor (b2n b) 128)) =? zb b + 128 * 1))%bool = true) by (apply byte_check; vm_compute; reflexivity).
    intros H. specialize (K b). apply Z.ltb_lt in H. rewrite H in K. exact K.
Qed.

Lemma clear_top_val : forall s : arr32, le_val (abytes (to_arr 32 (on_last clear_top (abytes s)))) mod 2 ^ 255 = le_val (abytes s) mod 2 ^ 255.
Proof.
  intros s. destruct (arr32_snoc s) as (l & b & E & L). rewrite E, on_last_snoc. rewrite to_arr_exact by (rewrite app_length, L; reflexivity).
  rewrite !le_val_snoc, L, zb_clear_top. destruct (zb_top_bit b) as [H _]. rewrite H at 2. change (256 ^ Z.of_nat 31) with (2 ^ 248).
  replace (le_val l + 2 ^ 248 * (zb b mod 128 + 128 * (zb b / 128))) with (le_val l + 2 ^ 248 * (zb b mod 128) + (zb b / 128) * 2 ^ 255) by ring.
  symmetry. apply Z.mod_add. lia.
Qed.

Lemma set_top_val : forall (s : arr32) t, le_val (abytes s) < 2 ^ 255 ->
  le_val (abytes (to_arr 32 (on_last (set_top t) (abytes s)))) = le_val (abytes s) + 2 ^ 255 * (zb t / 128).
Proof.
  intros s t. destruct (arr32_snoc s) as (l & b & E & L). rewrite E, on_last_snoc. rewrite to_arr_exact by (rewrite app_length, L; reflexivity).
  rewrite !le_val_snoc, L. change (256 ^ Z.of_nat 31) with (2 ^ 248). intros H. pose proof (le_val_bound l) as B. pose proof (zb_range b).
  rewrite zb_set_top by lia. ring.
Qed.

Lemma fe_one_bound : fe_bound 1 100 fe_one.
Proof. repeat split; cbn; lia. Qed.
Lemma fe_one_val : fe_val fe_one = 1.
Proof. reflexivity. Qed.

Lemma eqp_range : forall a, 0 <= a mod p25519 < p25519.
Proof. intros a. apply Z.mod_pos_bound. reflexivity. Qed.

Lemma eqp_add1 : forall a b, eqp a b -> eqp (a + 1) (b + 1).
Proof. intros a b H. unfold eqp in *. rewrite (Zplus_mod a), H, <- Zplus_mod. reflexivity. Qed.
Lemma eqp_sub1 : forall a b, eqp a b -> eqp (a - 1) (b - 1).
Proof. intros a b H. unfold eqp in *. rewrite (Zminus_mod a), H, <- Zminus_mod. reflexivity. Qed.
Lemma eqp_pow : forall a b e, 0 <= e -> eqp a b -> eqp (a ^ e) (b ^ e).
Proof. intros a b e He H. unfold eqp in *. rewrite (mod_pow_eqp a e He), (mod_pow_eqp b e He), H. reflexivity. Qed.

Lemma mont_to_ed_val : forall pub sig63, let u := le_val (abytes pub) mod 2 ^ 255 in
  le_val (abytes (mont_to_ed pub sig63)) = ((u - 1) * (u + 1) ^ (p25519 - 2)) mod p25519 + 2 ^ 255 * (zb sig63 / 128).
Proof.
  intros pub sig63 u. unfold mont_to_ed. cbv zeta. set (pub' := to_arr 32 (on_last clear_top (abytes pub))). destruct (fe_from_bytes_spec pub') as [V B].
  assert (U : eqp (fe_val (fe_from_bytes pub')) u) by (unfold eqp in *; rewrite V; unfold pub'; rewrite clear_top_val; reflexivity).
  set (x := fe_from_bytes pub') in *. clearbody x. clear V.
  destruct (fe_sub_spec x fe_one 101 1 100 B fe_one_bound ltac:(lia) ltac:(lia)) as [V1 B1]. destruct (fe_add_spec x fe_one 101 1 100 B fe_one_bound ltac:(lia) ltac:(lia)) as [V2 B2].
  rewrite fe_one_val in V1, V2. apply (fe_bound_weaken _ _ 22 10) in B1; [|lia|lia|lia]. apply (fe_bound_weaken _ _ 22 10) in B2; [|lia|lia|lia].
  destruct (fe_invert_pow _ B2) as [V3 B3]. destruct (fe_mul_spec _ _ B1 (b101 _ B3)) as [V4 B4].
  apply (fe_bound_weaken _ _ 330 100) in B4; [|lia|lia|lia]. pose proof (fe_to_bytes_spec _ B4) as V5. set (y := fe_mul _ _) in *.
  assert (R : le_val (abytes (fe_to_bytes y)) < 2 ^ 255) by (rewrite V5; apply Z.lt_trans with p25519; [apply eqp_range|reflexivity]).
  rewrite set_top_val by exact R. rewrite V5. f_equal. unfold eqp in V4. rewrite V4. rewrite V1.
  apply eqp_mul; [apply eqp_sub1; exact U|]. unfold eqp in V3 |- *. rewrite V3, V2. apply eqp_pow; [discriminate|]. apply eqp_add1. exact U.
Qed.
