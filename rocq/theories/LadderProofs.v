(** LadderProofs.v: the ladder of RFC 7748 multiplies points: X25519 meets the specification [x25519_spec]. *)
From Verif Require Import Base Crypto FieldSpec FastZ Fermat FieldPrime Fp CurveSpec CurveGroup EdwardsTable XedSpec XedProofs X25519 LadderAlgebra XedRef.
From Coq Require Import ZArith Zpow_facts NArith List Lia Bool Ring Field.
Import ListNotations.
Local Open Scope F_scope.
Local Opaque padd popp.

Lemma xp_p : xp = p25519.
Proof. reflexivity. Qed.
Lemma of_madd : forall a b, ofZ (madd a b) = ofZ a + ofZ b.
Proof. intros a b. rewrite <- ofZ_add. apply ofZ_eq. unfold madd, eqp. rewrite xp_p. apply Z.mod_mod. discriminate. Qed.
Lemma of_msub : forall a b, ofZ (msub a b) = ofZ a - ofZ b.
Proof. intros a b. rewrite <- ofZ_sub. apply ofZ_eq. unfold msub, eqp. rewrite xp_p. apply Z.mod_mod. discriminate. Qed.
Lemma of_mmul : forall a b, ofZ (mmul a b) = ofZ a * ofZ b.
Proof. intros a b. rewrite <- ofZ_mul. apply ofZ_eq. unfold mmul, eqp. rewrite xp_p. apply Z.mod_mod. discriminate. Qed.
Lemma mpow_ok : forall a e, (mpow a e = a ^ Zpos e mod xp)%Z.
Proof.
  intros a. induction e as [e IH|e IH|]; cbn [mpow].
  - unfold mmul. rewrite IH, <- Zmult_mod, Z.mul_mod_idemp_l by discriminate. f_equal. rewrite Pos2Z.inj_xI.
    assert (E : (2 * Zpos e + 1 = Zpos e + Zpos e + 1)%Z) by lia. rewrite E, !Z.pow_add_r, Z.pow_1_r by lia. reflexivity.
  - unfold mmul. rewrite IH, <- Zmult_mod. f_equal. rewrite Pos2Z.inj_xO. assert (E : (2 * Zpos e = Zpos e + Zpos e)%Z) by lia. rewrite E, Z.pow_add_r by lia. reflexivity.
  - rewrite Z.pow_1_r. reflexivity.
Qed.
Lemma of_minv : forall a, ofZ (mpow a (Z.to_pos (xp - 2))) = finv (ofZ a).
Proof.
  intros a. unfold finv. rewrite powmod_spec by (reflexivity || discriminate). apply ofZ_eq. unfold eqp. rewrite Z.mod_mod by discriminate. rewrite mpow_ok.
  change (Z.pos (Z.to_pos (xp - 2))) with (p25519 - 2)%Z. rewrite xp_p, Z.mod_mod by discriminate. cbn [fz ofZ].
  rewrite <- Zpower_mod by reflexivity. reflexivity.
Qed.

(** * The two formulas on points *)
Definition urep (X Z : F) (P : point) : Prop := mrep F f0 f1 fadd fmul fsub X Z (py P).
Lemma d_a24 : (1 + d_ed) * (1 + ofZ 121665) = 1.
Proof.
  assert (N : ofZ 121666 <> 0) by (apply small_neq_0; split; reflexivity). unfold d_ed.
  assert (E : 1 + ofZ 121665 = ofZ 121666) by (unfold f1; rewrite <- ofZ_add; reflexivity). rewrite E.
  assert (E2 : ofZ 121665 = ofZ 121666 - 1) by (unfold f1; rewrite <- ofZ_sub; reflexivity). rewrite E2. clear E E2. generalize dependent (ofZ 121666). intros n N. field. exact N.
Qed.
Lemma urep_dbl : forall P X Z, on_curve P -> urep X Z P ->
  urep (((X + Z) * (X + Z)) * ((X - Z) * (X - Z)))
       (((X + Z) * (X + Z) - (X - Z) * (X - Z)) * ((X + Z) * (X + Z) + ofZ 121665 * ((X + Z) * (X + Z) - (X - Z) * (X - Z)))) (padd P P).
Proof.
  intros P X Z C R. destruct (padd_is_sum P P C C) as [_ SY]. pose proof (denom_minus P P C C) as DM. unfold urep in *.
  generalize dependent (py (padd P P)). intros yd SY.
  refine (dbl_rep F f0 f1 fadd fmul fsub fopp fdiv finv F_field F_dec two_neq_0 d_ed (ofZ 121665) d_a24 (px P) (py P) yd X Z C _ _ R).
  - exact DM.
  - exact SY.
Qed.
Lemma urep_add : forall P Q u X2 Z2 X3 Z3, on_curve P -> on_curve Q -> u <> 0 -> u * (1 - py (padd Q (popp P))) = 1 + py (padd Q (popp P)) ->
  urep X2 Z2 P -> urep X3 Z3 Q ->
  urep (((X3 - Z3) * (X2 + Z2) + (X3 + Z3) * (X2 - Z2)) * ((X3 - Z3) * (X2 + Z2) + (X3 + Z3) * (X2 - Z2)))
       (u * (((X3 - Z3) * (X2 + Z2) - (X3 + Z3) * (X2 - Z2)) * ((X3 - Z3) * (X2 + Z2) - (X3 + Z3) * (X2 - Z2)))) (padd P Q).
Proof.
  intros P Q u X2 Z2 X3 Z3 C1 C2 NU HU R1 R2. destruct (padd_is_sum P Q C1 C2) as [_ SY]. destruct (padd_is_sum Q (popp P) C2 (popp_on_curve P C1)) as [_ SM].
  pose proof (denom_minus P Q C1 C2) as DM. pose proof (denom_plus P Q C1 C2) as DP. unfold urep in *.
  generalize dependent (py (padd P Q)). intros yp SY. generalize dependent (py (padd Q (popp P))). intros ym HU SM.
  refine (add_rep F f0 f1 fadd fmul fsub fopp fdiv finv F_field F_dec two_neq_0 d_ed (px P) (py P) (px Q) (py Q) yp ym u X2 Z2 X3 Z3 C1 C2 _ _ _ _ NU HU R1 R2).
  - exact DM.
  - exact DP.
  - exact SY.
  - Local Transparent popp. unfold popp, px, py in SM. cbn [fst snd] in SM. unfold px, py. clear - SM. destruct P as [x1 y1], Q as [x2 y2]. cbn [fst snd] in *.
    transitivity (ym * (1 - d_ed * x2 * - x1 * y2 * y1)); [ring|]. rewrite SM. ring.
Qed.
Local Opaque popp.

(** * The loop *)
Lemma step_dbl : forall P x1 x2 z2 x3 z3, on_curve P -> urep (ofZ x2) (ofZ z2) P ->
  let '(x2', z2', _, _) := ladder_step x1 x2 z2 x3 z3 in urep (ofZ x2') (ofZ z2') (padd P P).
Proof.
  intros P x1 x2 z2 x3 z3 C R. unfold ladder_step. cbv zeta. rewrite !of_mmul, !of_madd, !of_mmul, !of_msub, !of_mmul, !of_madd, !of_msub. exact (urep_dbl P _ _ C R).
Qed.
Lemma step_add : forall P Q x1 x2 z2 x3 z3, on_curve P -> on_curve Q -> ofZ x1 <> 0 -> ofZ x1 * (1 - py (padd Q (popp P))) = 1 + py (padd Q (popp P)) ->
  urep (ofZ x2) (ofZ z2) P -> urep (ofZ x3) (ofZ z3) Q ->
  let '(_, _, x3', z3') := ladder_step x1 x2 z2 x3 z3 in urep (ofZ x3') (ofZ z3') (padd P Q).
Proof.
  intros P Q x1 x2 z2 x3 z3 C1 C2 N U R1 R2. unfold ladder_step. cbv zeta. rewrite !of_mmul, !of_madd, !of_msub, !of_mmul, !of_madd, !of_msub.
  exact (urep_add P Q (ofZ x1) _ _ _ _ C1 C2 N U R1 R2).
Qed.
Definition uzrep (x z : Z) (P : point) : Prop := urep (ofZ x) (ofZ z) P.
Lemma div_step : forall k n, (0 <= k)%Z -> (k / 2 ^ Z.of_nat n = 2 * (k / 2 ^ Z.of_nat (S n)) + Z.b2z (Z.testbit k (Z.of_nat n)))%Z.
Proof.
  intros k n H. rewrite (Z.testbit_spec' k (Z.of_nat n)) by lia. rewrite Nat2Z.inj_succ, Z.pow_succ_r by lia. rewrite (Z.mul_comm 2 (2 ^ Z.of_nat n)), <- Z.div_div by lia.
  apply Z.div_mod. discriminate.
Qed.
Lemma ladder_ok : forall P x1, on_curve P -> ofZ x1 <> 0 -> ofZ x1 * (1 - py P) = 1 + py P -> forall k, (0 <= k)%Z -> forall n (x2 z2 x3 z3 : Z) (swap : bool),
  (if swap then uzrep x3 z3 (zmul (k / 2 ^ Z.of_nat n) P) /\ uzrep x2 z2 (zmul (k / 2 ^ Z.of_nat n + 1) P)
   else uzrep x2 z2 (zmul (k / 2 ^ Z.of_nat n) P) /\ uzrep x3 z3 (zmul (k / 2 ^ Z.of_nat n + 1) P)) ->
  let '(x, z) := ladder n k x1 x2 z2 x3 z3 swap in uzrep x z (zmul k P).
Proof.
  intros P x1 C N U k Hk. induction n as [|n IH]; intros x2 z2 x3 z3 swap HR.
  - cbn [ladder]. change (2 ^ Z.of_nat 0)%Z with 1%Z in HR. rewrite Z.div_1_r in HR. destruct swap; exact (proj1 HR).
  - cbn [ladder]. pose proof (div_step k n Hk) as DS. set (q := (k / 2 ^ Z.of_nat (S n))%Z) in *.
    assert (CQ : on_curve (zmul q P)) by (apply zmul_on_curve; exact C). assert (CQ1 : on_curve (zmul (q + 1) P)) by (apply zmul_on_curve; exact C).
    assert (D1 : padd (zmul (q + 1) P) (popp (zmul q P)) = P). { rewrite <- zmul_sub by exact C. assert (E : (q + 1 - q = 1)%Z) by lia. rewrite E. apply zmul_1. }
    assert (D2 : padd (zmul q P) (popp (zmul (q + 1) P)) = popp P). { rewrite <- zmul_sub by exact C. assert (E : (q - (q + 1) = - (1))%Z) by lia. rewrite E, zmul_opp. apply (f_equal popp). apply zmul_1. }
    assert (E0 : padd (zmul q P) (zmul q P) = zmul (2 * q) P). { rewrite <- zmul_add by exact C. apply (f_equal (fun z => zmul z P)). lia. }
    assert (E1 : padd (zmul q P) (zmul (q + 1) P) = zmul (2 * q + 1) P). { rewrite <- zmul_add by exact C. apply (f_equal (fun z => zmul z P)). lia. }
    assert (E1' : padd (zmul (q + 1) P) (zmul q P) = zmul (2 * q + 1) P). { rewrite <- zmul_add by exact C. apply (f_equal (fun z => zmul z P)). lia. }
    assert (E2 : padd (zmul (q + 1) P) (zmul (q + 1) P) = zmul (2 * q + 1 + 1) P). { rewrite <- zmul_add by exact C. apply (f_equal (fun z => zmul z P)). lia. }
    destruct (Z.testbit k (Z.of_nat n)) eqn:EB; cbn [Z.b2z] in DS.
    + (* bit 1: the pair for q + 1 is doubled *)
      assert (HS : exists a b c e, (if xorb swap true then (x3, z3, x2, z2) else (x2, z2, x3, z3)) = (a, b, c, e) /\ uzrep a b (zmul (q + 1) P) /\ uzrep c e (zmul q P)).
      { destruct swap; cbn [xorb]; do 4 eexists; (split; [reflexivity|]); split; (exact (proj1 HR) || exact (proj2 HR)). }
      destruct HS as (a & b & c & e & -> & R1 & R2). clear HR.
      pose proof (step_dbl _ x1 a b c e CQ1 R1) as S1.
      assert (UD : ofZ x1 * (1 - py (padd (zmul q P) (popp (zmul (q + 1) P)))) = 1 + py (padd (zmul q P) (popp (zmul (q + 1) P)))) by (rewrite D2; exact U).
      pose proof (step_add _ _ x1 a b c e CQ1 CQ N UD R1 R2) as S2. clear UD. destruct (ladder_step x1 a b c e) as [[[a' b'] c'] e'].
      apply IH. rewrite DS. rewrite E2 in S1. rewrite E1' in S2. split; [exact S2|exact S1].
    + assert (HS : exists a b c e, (if xorb swap false then (x3, z3, x2, z2) else (x2, z2, x3, z3)) = (a, b, c, e) /\ uzrep a b (zmul q P) /\ uzrep c e (zmul (q + 1) P)).
      { destruct swap; cbn [xorb]; do 4 eexists; (split; [reflexivity|]); split; (exact (proj1 HR) || exact (proj2 HR)). }
      destruct HS as (a & b & c & e & -> & R1 & R2). clear HR.
      pose proof (step_dbl _ x1 a b c e CQ R1) as S1.
      assert (UD : ofZ x1 * (1 - py (padd (zmul (q + 1) P) (popp (zmul q P)))) = 1 + py (padd (zmul (q + 1) P) (popp (zmul q P)))) by (rewrite D1; exact U).
      pose proof (step_add _ _ x1 a b c e CQ CQ1 N UD R1 R2) as S2. clear UD. destruct (ladder_step x1 a b c e) as [[[a' b'] c'] e'].
      apply IH. rewrite DS, Z.add_0_r. rewrite E0 in S1. rewrite E1 in S2. split; [exact S1|exact S2].
Qed.

(** The u-coordinate 0: the ladder ends with z = 0. *)
Lemma ladder_zero : forall x1, ofZ x1 = 0 -> forall k n x2 z2 x3 z3 swap, ofZ x2 * ofZ z2 = 0 -> ofZ x3 * ofZ z3 = 0 -> (n = O -> ofZ z2 = 0 /\ ofZ z3 = 0) ->
  let '(x, z) := ladder n k x1 x2 z2 x3 z3 swap in ofZ z = 0.
Proof.
  intros x1 X k. induction n as [|n IH]; intros x2 z2 x3 z3 swap H2 H3 H0; cbn [ladder].
  - destruct (H0 eq_refl) as [A B]. destruct swap; assumption.
  - clear H0. assert (HS : exists a b c e, (if xorb swap (Z.testbit k (Z.of_nat n)) then (x3, z3, x2, z2) else (x2, z2, x3, z3)) = (a, b, c, e) /\ ofZ a * ofZ b = 0).
    { destruct (xorb swap (Z.testbit k (Z.of_nat n))); do 4 eexists; (split; [reflexivity|]); assumption. }
    destruct HS as (a & b & c & e & -> & HA). unfold ladder_step. cbv zeta.
    assert (Z2 : ofZ (mmul (msub (mmul (madd a b) (madd a b)) (mmul (msub a b) (msub a b))) (madd (mmul (madd a b) (madd a b)) (mmul 121665 (msub (mmul (madd a b) (madd a b)) (mmul (msub a b) (msub a b)))))) = 0).
    { rewrite of_mmul. assert (EE : ofZ (msub (mmul (madd a b) (madd a b)) (mmul (msub a b) (msub a b))) = 0).
      { rewrite of_msub, !of_mmul, of_madd, of_msub. transitivity ((1 + 1) * (1 + 1) * (ofZ a * ofZ b)); [ring|]. rewrite HA. ring. }
      rewrite EE. ring. }
    assert (Z3 : forall t, ofZ (mmul x1 t) = 0) by (intros t; rewrite of_mmul, X; ring).
    apply IH; [rewrite Z2; ring|rewrite Z3; ring|intros _; split; [exact Z2|apply Z3]].
Qed.

(** * X25519 *)
Lemma encode_le_enc : forall n z, encode_le n z = le_enc n z.
Proof. induction n as [|n IH]; intros z; [reflexivity|]. cbn [encode_le le_enc]. rewrite IH. reflexivity. Qed.
Lemma urep_u : forall X Z P, urep X Z P -> X * finv Z = mont_u P.
Proof.
  intros X Z P (l & Hl & -> & ->). unfold mont_u. unfold fdiv. destruct (F_dec (1 - py P) 0) as [E|E].
  - rewrite E. assert (E1 : l * 0 = 0) by ring. rewrite E1, finv_zero. ring.
  - field. split; [exact E|exact Hl].
Qed.
Lemma mont_u_eq_0 : forall P, on_curve P -> mont_u P = 0 -> P = pzero \/ P = t2.
Proof.
  intros P C H. destruct (F_dec (py P) 1) as [Y|Y]; [left; exact (y_one P C Y)|right].
  assert (N : 1 - py P <> 0) by (intros E; apply Y; symmetry; apply fsub_zero; exact E).
  assert (Y1 : py P = - (1)).
  { unfold mont_u in H. symmetry in H. apply fdiv_unique in H; [|exact N]. transitivity (0 * (1 - py P) - 1); [rewrite H; ring|ring]. }
  destruct (same_y P t2 C t2_on_curve Y1) as [X|X]; destruct P as [x y]; unfold t2, px, py in *; cbn [fst snd] in *; rewrite Y1, X; [reflexivity|].
  apply (f_equal2 pair); [ring|reflexivity].
Qed.
Lemma small_lt_p : forall z, (0 <= z mod p25519 < 2 ^ 256)%Z.
Proof. intros z. pose proof (Z.mod_pos_bound z p25519 ltac:(reflexivity)) as B. unfold p25519 in *. lia. Qed.
Theorem x25519_mult_ok : forall k p P, on_curve P -> ofZ (le_val (abytes p) mod 2 ^ 255) = mont_u P ->
  le_val (abytes (x25519 k p)) = fz (mont_u (zmul (scalar_of (abytes k)) P)).
Proof.
  intros k p P C U. unfold x25519. cbv zeta. change (decode_scalar (abytes k)) with (scalar_of (abytes k)). unfold decode_u.
  set (x1 := (le_val (abytes p) mod 2 ^ 255)%Z) in *. set (s := scalar_of (abytes k)).
  assert (Hs : (0 <= s < 2 ^ 255)%Z).
  { unfold s, scalar_of. pose proof (Z.mod_pos_bound (le_val (abytes k) / 8) (2 ^ 251) ltac:(lia)) as B. lia. }
  assert (EN : forall a, le_val (abytes (to_arr 32 (encode_le 32 (mmul a 1)))) = fz (ofZ a)).
  { intros a. rewrite encode_le_enc. change (to_arr 32 (le_enc 32 (mmul a 1))) with (enc32 (mmul a 1)). unfold mmul. rewrite xp_p, Z.mul_1_r. apply enc32_val. apply small_lt_p. }
  assert (EM : forall a b, le_val (abytes (to_arr 32 (encode_le 32 (mmul a b)))) = fz (ofZ a * ofZ b)).
  { intros a b. rewrite encode_le_enc. change (to_arr 32 (le_enc 32 (mmul a b))) with (enc32 (mmul a b)). rewrite <- of_mmul. unfold mmul. rewrite xp_p.
    rewrite enc32_val by apply small_lt_p. cbn [fz ofZ]. symmetry. apply Z.mod_mod. discriminate. }
  clear EN. destruct (F_dec (mont_u P) 0) as [E0|E0].
  - pose proof (ladder_zero x1 (eq_trans U E0) s 255 1 0 x1 1 false) as LZ.
    destruct (ladder 255 s x1 1 0 x1 1 false) as [x z]. rewrite EM, of_minv. rewrite LZ.
    + rewrite finv_zero. apply (f_equal fz). assert (EZ : zmul s P = pzero).
      { destruct (mont_u_eq_0 P C E0) as [-> | ->]; [apply zmul_pzero|]. unfold s. rewrite scalar_even. apply t2_even. }
      rewrite EZ, mont_u_zero. ring.
    + change (ofZ 0) with 0. ring.
    + rewrite U, E0. ring.
    + intros HX. discriminate HX.
  - assert (Y : 1 - py P <> 0). { intros E. apply E0. assert (Y1 : py P = 1) by (symmetry; apply fsub_zero; exact E). rewrite (y_one P C Y1). apply mont_u_zero. }
    assert (UE : ofZ x1 * (1 - py P) = 1 + py P). { apply fdiv_unique; [exact Y|exact U]. }
    assert (N1 : ofZ x1 <> 0) by (intros E; apply E0; rewrite <- U; exact E).
    assert (Q0 : (s / 2 ^ Z.of_nat 255 = 0)%Z) by (apply Z.div_small; exact Hs).
    pose proof (ladder_ok P x1 C N1 UE s (proj1 Hs) 255 1 0 x1 1 false) as LO. rewrite Q0 in LO. change (0 + 1)%Z with 1%Z in LO. rewrite zmul_0, zmul_1 in LO.
    destruct (ladder 255 s x1 1 0 x1 1 false) as [x z]. rewrite EM, of_minv. apply (f_equal fz). apply urep_u. apply LO. split.
    + apply (mk_mrep F f0 f1 fadd fmul fsub fopp fdiv finv F_field two_neq_0); [left; exact f1_neq_0|]. change (ofZ 0) with 0. unfold pzero, py. cbn [snd]. ring.
    + apply (mk_mrep F f0 f1 fadd fmul fsub fopp fdiv finv F_field two_neq_0); [right; exact f1_neq_0|]. rewrite UE. change (ofZ 1) with 1. ring.
Qed.
Lemma base_u : ofZ (le_val (abytes (to_arr 32 [x09])) mod 2 ^ 255) = mont_u base_point.
Proof.
  assert (E : (le_val (abytes (to_arr 32 [x09])) mod 2 ^ 255 = 9)%Z) by reflexivity. rewrite E. clear E. unfold mont_u, base_point, py. cbn [snd].
  assert (N5 : ofZ 5 <> 0) by (apply small_neq_0; split; reflexivity). assert (N1 : f1 <> f0) by exact f1_neq_0.
  assert (Y : 1 - ofZ 4 / ofZ 5 = 1 / ofZ 5). { assert (E4 : ofZ 4 = ofZ 5 - 1) by (unfold f1; rewrite <- ofZ_sub; reflexivity). rewrite E4. clear E4. generalize dependent (ofZ 5). intros n N5. field. exact N5. }
  assert (Y2 : 1 + ofZ 4 / ofZ 5 = ofZ 9 / ofZ 5). { assert (E9 : ofZ 9 = ofZ 5 + ofZ 4) by (rewrite <- ofZ_add; reflexivity). rewrite E9. clear E9 Y. generalize dependent (ofZ 4). generalize dependent (ofZ 5). intros n N5 m. field. exact N5. }
  rewrite Y, Y2. clear Y Y2. generalize dependent (ofZ 5). generalize (ofZ 9). intros m n N5. field. split; [exact N5|exact N1].
Qed.
Theorem x25519_ok : x25519_spec x25519 x25519_base.
Proof.
  split; [exact x25519_mult_ok|]. intros k. unfold x25519_base. apply x25519_mult_ok; [exact base_on_curve|exact base_u].
Qed.
