(** AsyncProofs.v: proofs for C91. *)
From Verif Require Import Base Crypto Field25519 Scalar25519 FieldSpec FieldProofs ScalarSpec ScalarProofs ScalarProofs2 Fp CurveSpec CurveGroup EdwardsProofs EdwardsProofs2 EdwardsTable EdwardsMult EdwardsOrder OrderPrime EdBase Edwards XEdDSA XedSpec XedProofs FieldProofs4 FieldProofs4 PropertiesField PropertiesXed.
From Coq Require Import ZArith Znumtheory List Lia Ring Field.
Import ListNotations.
Local Open Scope F_scope.

(** A point with y = 0 has order four. *)
Lemma double_y0 : forall x : F, padd (x, 0) (x, 0) = (0, x * x).
Proof.
  intros x. unfold padd. cbn [px py fst snd]. assert (E1 : 1 + d_ed * x * x * 0 * 0 = 1) by ring. assert (E2 : 1 - d_ed * x * x * 0 * 0 = 1) by ring. rewrite E1, E2.
  apply (f_equal2 pair); field; exact f1_neq_0.
Qed.
Lemma double_x0 : forall y : F, padd (0, y) (0, y) = (0, y * y).
Proof.
  intros y. unfold padd. cbn [px py fst snd]. assert (E1 : 1 + d_ed * 0 * 0 * y * y = 1) by ring. assert (E2 : 1 - d_ed * 0 * 0 * y * y = 1) by ring. rewrite E1, E2.
  apply (f_equal2 pair); field; exact f1_neq_0.
Qed.
Lemma y0_square : forall x : F, on_curve (x, 0) -> x * x = - f1.
Proof. intros x H. unfold on_curve in H. cbn [px py fst snd] in H. assert (E : - (x * x) = 1) by (transitivity (0 * 0 - x * x); [ring|]; rewrite H; ring). transitivity (- (- (x * x))); [ring|]. rewrite E. reflexivity. Qed.
Lemma four_y0 : forall x : F, on_curve (x, 0) -> zmul 4 (x, 0) = pzero.
Proof.
  intros x H. change 4%Z with (2 + 2)%Z. rewrite (zmul_add _ _ _ H). assert (E : zmul 2 (x, 0) = (0, - f1)).
  { change 2%Z with (1 + 1)%Z. rewrite (zmul_add _ _ _ H), zmul_1, double_y0, (y0_square x H). reflexivity. }
  rewrite E, double_x0. unfold pzero. apply (f_equal2 pair); ring.
Qed.
Lemma fz_zero : forall a : F, fz a = 0%Z -> a = 0.
Proof. intros a H. rewrite <- (ofZ_fz a), H. reflexivity. Qed.
(** No multiple of the base point has y = 0. *)
Lemma base_multiple_y : forall r, py (zmul r base_point) <> 0.
Proof.
  intros r H. assert (C := zmul_on_curve r base_point base_on_curve). assert (Z : zmul 4 (zmul r base_point) = pzero).
  { destruct (zmul r base_point) as [x y]. cbn [py snd] in H. subst y. exact (four_y0 x C). }
  rewrite <- (zmul_mul 4 r _ base_on_curve) in Z. apply zmul_zero_iff in Z. apply Gauss in Z.
  - apply (proj2 (zmul_zero_iff r)) in Z. rewrite Z in H. exact (f1_neq_0 H).
  - apply prime_rel_prime; [exact order_l_prime|]. intros K. apply Z.divide_pos_le in K; [|lia]. unfold order_l in K. lia.
Qed.
Lemma le_val_zeros : forall n, le_val (repeat x00 n) = 0%Z.
Proof. induction n as [|n IH]; [reflexivity|]. cbn [repeat le_val]. rewrite IH. reflexivity. Qed.
Lemma nonce_part : forall (R s : arr32) f, firstn 32 (abytes (to_arr 64 (on_last f (abytes R ++ abytes s)))) = abytes R.
Proof.
  intros R s f. destruct (arr32_snoc s) as (l & b & E & L). rewrite E, app_assoc, on_last_snoc.
  rewrite to_arr_exact by (rewrite !app_length, arr_length, L; reflexivity). rewrite <- app_assoc.
  rewrite firstn_app, arr_length, firstn_all2 by (rewrite arr_length; apply le_n). rewrite Nat.sub_diag, firstn_O, app_nil_r. reflexivity.
Qed.
Lemma signature_not_zero : forall sha512 k m z, xeddsa_sign sha512 k m z <> zero_arr 64.
Proof.
  intros sha512 k m z. unfold xeddsa_sign. cbv zeta.
  pose proof (sc_reduce_spec (sha512 (diversifier ++ abytes k ++ m ++ abytes z))) as RV.
  assert (RB := order_lt_255 (le_val (abytes (sha512 (diversifier ++ abytes k ++ m ++ abytes z))))). rewrite <- RV in RB. clear RV.
  generalize dependent (sc_reduce (sha512 (diversifier ++ abytes k ++ m ++ abytes z))). intros rr RB.
  assert (RB2 : (le_val (abytes rr) < 2 ^ 255)%Z) by (unfold order_l in RB; lia).
  pose proof (ext_to_bytes_rep _ _ (scalar_mult_base_rep rr RB2)) as ER. generalize dependent (ext_to_bytes (scalar_mult_base rr)). intros R ER.
  generalize (sc_mul_add (sc_reduce (sha512 (abytes R ++ abytes (ext_to_bytes (scalar_mult_base k)) ++ m))) k rr). intros s.
  generalize (set_top (last (abytes (ext_to_bytes (scalar_mult_base k))) x00)). intros f H.
  apply (f_equal (fun a : arr64 => firstn 32 (abytes a))) in H. rewrite nonce_part in H. change (firstn 32 (abytes (zero_arr 64))) with (repeat x00 32) in H.
  assert (E0 : le_val (abytes R) = 0%Z) by (rewrite H; apply le_val_zeros). clear H. unfold encodes in ER. rewrite E0 in ER. symmetry in ER. revert ER.
  generalize (base_multiple_y (le_val (abytes rr))). generalize (zmul (le_val (abytes rr)) base_point). intros P N E. apply N. apply fz_zero.
  unfold enc_val in E. assert (RY := fz_range (py P)). assert (M := Z.mod_pos_bound (fz (px P)) 2 ltac:(lia)). lia.
Qed.
