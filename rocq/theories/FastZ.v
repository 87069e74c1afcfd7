(** FastZ.v: multiplication and reduction modulo 2^255 - 19 for computations that the kernel checks (one level less of
    schoolbook multiplication, and reduction by folding instead of division). Mathematics only; nothing here models code. *)
From Verif Require Import FieldSpec.
From Coq Require Import ZArith Lia Bool.
Local Open Scope Z_scope.

Definition m64 : Z := 18446744073709551615.
Definition m128 : Z := 340282366920938463463374607431768211455.
Definition m255 : Z := 57896044618658097711785492504343953926634992332820282019728792003956564819967.
Definition kmul128 (a b : Z) : Z :=
  let ah := Z.shiftr a 64 in let al := Z.land a m64 in let bh := Z.shiftr b 64 in let bl := Z.land b m64 in
  let h := ah * bh in let l := al * bl in Z.shiftl h 128 + (Z.shiftl ((ah + al) * (bh + bl) - h - l) 64 + l).
Definition kmul (a b : Z) : Z :=
  let ah := Z.shiftr a 128 in let al := Z.land a m128 in let bh := Z.shiftr b 128 in let bl := Z.land b m128 in
  let h := kmul128 ah bh in let l := kmul128 al bl in Z.shiftl h 256 + (Z.shiftl (kmul128 (ah + al) (bh + bl) - h - l) 128 + l).
Definition fold255 (z : Z) : Z := 19 * Z.shiftr z 255 + Z.land z m255.
Definition mulp (a b : Z) : Z := fold255 (fold255 (kmul a b)).
(** z is 0 modulo p, for z in a range that two foldings bring down to 0 or p. *)
Definition is0p (z : Z) : bool := let w := fold255 (fold255 z) in (w =? 0) || (w =? p25519).
Fixpoint sqn (n : nat) (x : Z) : Z := match n with O => x | S k => let y := mulp x x in sqn k y end.

Lemma split_at : forall z n m, 0 <= n -> m = 2 ^ n - 1 -> z = Z.shiftr z n * 2 ^ n + Z.land z m.
Proof.
  intros z n m Hn ->. rewrite Z.shiftr_div_pow2 by exact Hn. replace (2 ^ n - 1) with (Z.ones n) by (rewrite Z.ones_equiv; lia). rewrite Z.land_ones by exact Hn.
  rewrite Z.mul_comm. apply Z.div_mod. apply Z.pow_nonzero; lia.
Qed.
Lemma kmul128_ok : forall a b, kmul128 a b = a * b.
Proof.
  intros a b. unfold kmul128. cbv zeta. pose proof (split_at a 64 m64 ltac:(lia) eq_refl) as A. pose proof (split_at b 64 m64 ltac:(lia) eq_refl) as B.
  generalize dependent (Z.shiftr a 64). intros ah. generalize dependent (Z.land a m64). intros al A. generalize dependent (Z.shiftr b 64). intros bh.
  generalize dependent (Z.land b m64). intros bl B. rewrite !Z.shiftl_mul_pow2 by lia. rewrite A, B. ring.
Qed.
Lemma kmul_ok : forall a b, kmul a b = a * b.
Proof.
  intros a b. unfold kmul. cbv zeta. rewrite !kmul128_ok. pose proof (split_at a 128 m128 ltac:(lia) eq_refl) as A. pose proof (split_at b 128 m128 ltac:(lia) eq_refl) as B.
  generalize dependent (Z.shiftr a 128). intros ah. generalize dependent (Z.land a m128). intros al A. generalize dependent (Z.shiftr b 128). intros bh.
  generalize dependent (Z.land b m128). intros bl B. rewrite !Z.shiftl_mul_pow2 by lia. rewrite A, B. ring.
Qed.
Lemma fold255_ok : forall z, eqp (fold255 z) z.
Proof.
  intros z. unfold fold255, eqp. pose proof (split_at z 255 m255 ltac:(lia) eq_refl) as A. generalize dependent (Z.shiftr z 255). intros h. generalize dependent (Z.land z m255). intros l A.
  rewrite A. replace (h * 2 ^ 255 + l) with (19 * h + l + h * p25519) by (unfold p25519; ring). symmetry. apply Z.mod_add. discriminate.
Qed.
Lemma mulp_ok : forall a b, eqp (mulp a b) (a * b).
Proof. intros a b. unfold mulp. unfold eqp. rewrite (fold255_ok (fold255 _)). rewrite (fold255_ok (kmul a b)). rewrite kmul_ok. reflexivity. Qed.
Lemma is0p_ok : forall z, is0p z = true -> eqp z 0.
Proof.
  intros z H. unfold is0p in H. cbv zeta in H. pose proof (fold255_ok (fold255 z)) as A. pose proof (fold255_ok z) as B. unfold eqp in *. rewrite B in A. clear B.
  generalize dependent (fold255 (fold255 z)). intros w H A. rewrite <- A. apply orb_prop in H. destruct H as [H|H]; apply Z.eqb_eq in H; subst w; reflexivity.
Qed.
Lemma sqn_ok : forall n x, eqp (sqn n x) (x ^ (2 ^ Z.of_nat n)).
Proof.
  induction n as [|n IH]; intros x; cbn [sqn]; [rewrite Z.pow_1_r; reflexivity|]. cbv zeta. unfold eqp in *. rewrite IH. rewrite Nat2Z.inj_succ, Z.pow_succ_r by lia.
  rewrite Z.pow_mul_r by (try lia; apply Z.pow_nonneg; lia). rewrite Z.pow_2_r. assert (P : 0 <= 2 ^ Z.of_nat n) by (apply Z.pow_nonneg; lia). revert P. generalize (2 ^ Z.of_nat n).
  assert (M := mulp_ok x x). unfold eqp in M. apply natlike_ind; [reflexivity|]. intros k Hk E. rewrite !Z.pow_succ_r by exact Hk. rewrite Zmult_mod, M, E, <- Zmult_mod. reflexivity.
Qed.
