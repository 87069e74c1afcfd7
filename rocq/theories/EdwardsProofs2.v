(** EdwardsProofs2.v: encoding of group elements. *)
From Verif Require Import Base Field25519 FieldSpec FieldProofs FieldProofs2 FieldProofs3 FieldProofs4 FieldPrime Fermat Fp CurveSpec CurveGroup EdBase Edwards EdwardsProofs.
From Coq Require Import ZArith NArith List Lia.
Import ListNotations.
Local Open Scope Z_scope.

Lemma fv_invert : forall z, tight z -> fv z <> f0 -> fmul (fv z) (fv (fe_invert z)) = f1 /\ tight (fe_invert z).
Proof.
  intros z B N. destruct (fe_invert_pow z (tight_22 _ B)) as [V T]. split; [|exact T].
  unfold fv in *. rewrite <- ofZ_mul. apply ofZ_eq. assert (E := eqp_mul (fe_val z) (fe_val z) _ _ eq_refl V). unfold eqp in E |- *. rewrite E.
  apply pow_p_minus_2. intros K. apply N. apply ofZ_eq. unfold eqp. rewrite K. reflexivity.
Qed.

Lemma xor_top_0 : forall b, xor_top 0 b = b.
Proof. intros b. destruct b; reflexivity. Qed.
Lemma xor_top_1 : forall b, zb b < 128 -> zb (xor_top 1 b) = zb b + 128.
Proof. intros b. destruct b; vm_compute; intros H; try reflexivity; discriminate. Qed.

Lemma xor_top_val : forall (s : arr32) n, n = 0 \/ n = 1 -> le_val (abytes s) < 2 ^ 255 ->
  le_val (abytes (to_arr 32 (on_last (xor_top n) (abytes s)))) = le_val (abytes s) + 2 ^ 255 * n.
Proof.
  intros s n HN. destruct (arr32_snoc s) as (l & b & E & L). rewrite E, on_last_snoc. rewrite to_arr_exact by (rewrite app_length, L; reflexivity).
  rewrite !le_val_snoc, L. change (256 ^ Z.of_nat 31) with (2 ^ 248). intros H. pose proof (le_val_bound l) as B. pose proof (zb_range b).
  destruct HN as [-> | ->]; [rewrite xor_top_0; ring|]. rewrite xor_top_1 by lia. ring.
Qed.

Lemma fz_fv : forall f, fz (fv f) = fe_val f mod p25519.
Proof. reflexivity. Qed.

Lemma affine_to_bytes_rep : forall x y z P, semi x -> tight y -> tight z -> fv z <> f0 -> fv x = fmul (px P) (fv z) -> fv y = fmul (py P) (fv z) ->
  encodes (affine_to_bytes x y z) P.
Proof.
  intros x y z P BX BY BZ NZ EX EY. unfold affine_to_bytes. cbv zeta. destruct (fv_invert z BZ NZ) as [VI TI].
  destruct (fv_mul _ _ (semi_loose _ BX) (tight_loose _ TI)) as [V1 T1]. destruct (fv_mul _ _ (tight_loose _ BY) (tight_loose _ TI)) as [V2 T2].
  assert (W1 : fv (fe_mul x (fe_invert z)) = px P).
  { rewrite V1, EX. transitivity (fmul (px P) (fmul (fv z) (fv (fe_invert z)))); [ring|]. rewrite VI. ring. }
  assert (W2 : fv (fe_mul y (fe_invert z)) = py P).
  { rewrite V2, EY. transitivity (fmul (py P) (fmul (fv z) (fv (fe_invert z)))); [ring|]. rewrite VI. ring. }
  clear V1 V2. set (x' := fe_mul x (fe_invert z)) in *. set (y' := fe_mul y (fe_invert z)) in *. clearbody x' y'.
  pose proof (fe_to_bytes_spec y' (tight_loose _ T2)) as Y. rewrite <- fz_fv, W2 in Y.
  pose proof (fe_is_negative_spec x' (tight_loose _ T1)) as X. rewrite <- fz_fv, W1 in X.
  unfold encodes, enc_val. rewrite xor_top_val; [rewrite X, Y; reflexivity| |].
  - rewrite X. pose proof (Z.mod_pos_bound (fz (px P)) 2 ltac:(lia)). lia.
  - rewrite Y. pose proof (fz_range (py P)) as R. unfold p25519 in R. lia.
Qed.
Lemma ext_to_bytes_rep : forall h P, ext_rep h P -> encodes (ext_to_bytes h) P.
Proof. intros h P (C & (BX & BY & BZ & BT) & NZ & EX & EY & ET). unfold ext_to_bytes. apply affine_to_bytes_rep; assumption. Qed.
Lemma proj_to_bytes_rep : forall h P, proj_rep h P -> encodes (proj_to_bytes h) P.
Proof. intros h P (C & (BX & BY & BZ) & NZ & EX & EY). unfold proj_to_bytes. apply affine_to_bytes_rep; assumption. Qed.

(** An encoding determines the point. *)
Lemma encodes_decodes : forall s P, on_curve P -> encodes s P -> decodes s P.
Proof.
  intros s P C E. unfold encodes, enc_val in E. pose proof (fz_range (py P)) as R. pose proof (Z.mod_pos_bound (fz (px P)) 2 ltac:(lia)) as M.
  unfold decodes. split; [exact C|]. rewrite E. unfold p25519 in R.
  assert (D : (fz (py P) + 2 ^ 255 * (fz (px P) mod 2)) mod 2 ^ 255 = fz (py P)).
  { rewrite Z.mul_comm, Z.mod_add by lia. apply Z.mod_small. lia. }
  assert (Q : (fz (py P) + 2 ^ 255 * (fz (px P) mod 2)) / 2 ^ 255 = fz (px P) mod 2).
  { rewrite Z.mul_comm, Z.div_add by lia. rewrite Z.div_small by lia. lia. }
  rewrite D, Q. split; [symmetry; apply ofZ_fz|right; reflexivity].
Qed.
