(** EdwardsDecode.v: point decompression (FromBytes). *)
From Verif Require Import Base Field25519 FieldSpec FieldProofs FieldProofs2 FieldProofs3 FieldProofs4 FieldPrime Fermat Fp CurveSpec CurveGroup EdBase Edwards EdwardsProofs EdwardsProofs2 EdwardsTable ScalarProofs XedSpec XedProofs.
From Coq Require Import ZArith List Lia Bool Ring Field.
Import ListNotations.
Local Open Scope F_scope.

(** * Powers in the field *)
Definition fpow (a : F) (n : Z) : F := ofZ (fz a ^ n).
Lemma fpow_ofZ : forall z n, (0 <= n)%Z -> ofZ (z ^ n) = fpow (ofZ z) n.
Proof. intros z n H. unfold fpow. apply ofZ_eq. apply (mod_pow_eqp z n H). Qed.
Lemma fpow_add : forall a m n, (0 <= m)%Z -> (0 <= n)%Z -> fpow a (m + n) = fpow a m * fpow a n.
Proof. intros a m n HM HN. unfold fpow. rewrite Z.pow_add_r by assumption. apply ofZ_mul. Qed.
Lemma fpow_mul_l : forall a b n, (0 <= n)%Z -> fpow (a * b) n = fpow a n * fpow b n.
Proof. intros a b n H. unfold fpow. rewrite <- ofZ_mul, <- Z.pow_mul_l. unfold fmul. rewrite (fpow_ofZ (fz a * fz b) n H). reflexivity. Qed.
Lemma fpow_1 : forall a, fpow a 1 = a.
Proof. intros a. unfold fpow. rewrite Z.pow_1_r. apply ofZ_fz. Qed.
Lemma fpow_fermat : forall a, a <> 0 -> fpow a (p25519 - 1) = 1.
Proof. intros a H. apply F_fermat. exact H. Qed.

Definition pow_e : Z := ((p25519 - 5) / 8)%Z.
Lemma pow_e_pos : (0 <= pow_e)%Z.
Proof. vm_compute. discriminate. Qed.
Lemma pow_e_8 : (p25519 - 1 = pow_e + pow_e + (pow_e + pow_e) + (pow_e + pow_e + (pow_e + pow_e)) + 1 + 1 + 1 + 1)%Z.
Proof. vm_compute. reflexivity. Qed.

(** The eighth-power identity: for a nonzero b, the square of b^2 (b^2)^(2e) is 1. *)
Lemma quarter_power : forall b : F, b <> 0 -> let a := b * b in let g := fpow a pow_e in let w := a * (g * g) in w * w = 1.
Proof.
  intros b N a g w. pose proof (fpow_fermat b N) as H. rewrite pow_e_8 in H. pose proof pow_e_pos as E. generalize dependent pow_e. intros e g w H E.
  repeat (rewrite fpow_add in H by lia). rewrite fpow_1 in H. rewrite <- H. unfold w, g, a. rewrite fpow_mul_l by exact E. ring.
Qed.

(** * Solving v x^2 = u *)
Lemma sqrt_exists : forall u v x0 : F, v <> 0 -> v * (x0 * x0) = u ->
  let v3 := v * v * v in let a := v3 * v3 * v * u in let x := fpow a pow_e * v3 * u in
  x * x * v = u \/ x * x * v = - u.
Proof.
  intros u v x0 NV E v3 a x. assert (K : x * x * v = u * (a * (fpow a pow_e * fpow a pow_e))) by (unfold x, a, v3; ring).
  destruct (F_dec u 0) as [U0|U0]; [left; rewrite K, U0; ring|].
  set (b := v * v * (v * v) * x0). assert (A : a = b * b). { unfold a, v3, b. rewrite <- E. ring. }
  assert (NB : b <> 0). { intros B0. apply U0. assert (Z : a = 0) by (rewrite A, B0; ring). unfold a, v3 in Z.
    apply fmul_zero in Z. destruct Z as [Z|Z]; [|exact Z]. exfalso.
    apply fmul_zero in Z. destruct Z as [Z|Z]; [|exact (NV Z)]. apply fmul_zero in Z.
    assert (Q : v * v * v = 0) by (destruct Z as [Z|Z]; exact Z). apply fmul_zero in Q. destruct Q as [Q|Q]; [|exact (NV Q)]. apply fmul_zero in Q. destruct Q as [Q|Q]; exact (NV Q). }
  pose proof (quarter_power b NB) as W. cbv zeta in W. rewrite <- A in W. rewrite K. clear K. generalize dependent (a * (fpow a pow_e * fpow a pow_e)). intros w W.
  assert (W1 : w * w = 1 * 1) by (rewrite W; ring). apply fsquare_eq in W1. destruct W1 as [-> | ->]; [left; ring|right; ring].
Qed.

(** The denominator d y^2 + 1 is never zero. *)
Lemma dy_nonzero : forall y : F, y * y * d_ed + 1 <> 0.
Proof.
  intros y H. pose proof d_not_square as ND. pose proof sqrt_m1_ok as HI. generalize dependent d_ed. intros d H ND. generalize dependent sqrt_m1. intros i HI.
  destruct (F_dec y 0) as [Y0|Y0]; [apply f1_neq_0; rewrite <- H, Y0; ring|].
  apply (ND (i / y)). transitivity ((i * i) / (y * y)); [field; exact Y0|]. rewrite HI.
  transitivity ((y * y * d - (y * y * d + 1)) / (y * y)); [field; exact Y0|]. rewrite H. field. exact Y0.
Qed.
Lemma curve_uv : forall P, on_curve P <-> (py P * py P * d_ed + 1) * (px P * px P) = py P * py P - 1.
Proof.
  intros [x y]. unfold on_curve, px, py. cbn [fst snd]. generalize d_ed. intros d. split; intros H.
  - transitivity (y * y - (y * y - x * x) + d * (x * x * (y * y))); [ring|]. rewrite H. ring.
  - transitivity (y * y - 1 - ((y * y * d + 1) * (x * x)) + (1 + d * (x * x * (y * y)))); [ring|]. rewrite H. ring.
Qed.

(** * Limbs *)
Lemma frozen_semi : forall f, frozen f -> semi f.
Proof.
  intros f (A0 & A1 & A2 & A3 & A4 & A5 & A6 & A7 & A8 & A9). unfold semi, fe_bound. repeat split; lia.
Qed.
Lemma fv_freeze : forall x, loose x -> fv (fe_freeze x) = fv x /\ semi (fe_freeze x).
Proof.
  intros x B. destruct (freeze_spec x B) as [F V]. split; [|apply frozen_semi; exact F]. unfold fv, fe_freeze. rewrite V. apply ofZ_mod.
Qed.
Lemma is_non_zero_fv : forall x, loose x -> (fe_is_non_zero x =? 1)%Z = false -> fv x = 0.
Proof.
  intros x B H. rewrite (fe_is_non_zero_spec x B) in H. destruct (Z.eqb_spec (fe_val x mod p25519) 0) as [E|E]; [|discriminate H]. apply F_eq. exact E.
Qed.
Lemma is_non_zero_fv' : forall x, loose x -> (fe_is_non_zero x =? 1)%Z = true -> fv x <> 0.
Proof.
  intros x B H E. rewrite (fe_is_non_zero_spec x B) in H. apply (f_equal fz) in E. cbn [fz fv ofZ f0] in E. rewrite E in H. discriminate H.
Qed.
Lemma fix_sign_ok : forall x top, loose x -> let x' := fix_sign x top in
  semi x' /\ (fv x' = fv x \/ fv x' = - fv x) /\ (fv x' = 0 \/ (fz (fv x') mod 2 = zb top / 128)%Z).
Proof.
  intros x top B x'. destruct (fv_freeze x B) as [V S]. pose proof (fe_is_negative_spec x B) as N. rewrite <- fz_fv in N. unfold x', fix_sign. clear x'.
  destruct (Z.eqb_spec (fe_is_negative x) (zb top / 128)) as [E|E].
  - split; [exact S|]. rewrite V. split; [left; reflexivity|]. right. rewrite <- N. exact E.
  - destruct (fv_neg 200 _ S ltac:(lia)) as [VN SN]. split; [exact SN|]. rewrite VN, V. split; [right; reflexivity|].
    destruct (F_dec (fv x) 0) as [X0|X0]; [left; rewrite X0; ring|right]. pose proof (opp_parity (fv x) X0) as OP.
    pose proof (Z.mod_pos_bound (fz (fv x)) 2 ltac:(lia)) as M1. pose proof (Z.mod_pos_bound (fz (- fv x)) 2 ltac:(lia)) as M2. destruct (zb_top_bit top) as [_ T].
    rewrite N in E. generalize dependent (fz (- fv x)). intros w OP M2. generalize dependent (fz (fv x)). intros z. intros. lia.
Qed.
Lemma ed_d_val : fv ed_d = d_ed.
Proof. rewrite <- d_val_ok. apply F_eq. vm_compute. reflexivity. Qed.
Lemma ed_sqrt_val : fv ed_sqrt_m1 = sqrt_m1.
Proof. apply F_eq. vm_compute. reflexivity. Qed.
Lemma ed_d_tight : tight ed_d.
Proof. apply tightb_ok. vm_compute. reflexivity. Qed.
Lemma ed_sqrt_tight : tight ed_sqrt_m1.
Proof. apply tightb_ok. vm_compute. reflexivity. Qed.
Lemma fv_pow22523 : forall z, tight z -> fv (fe_pow22523 z) = fpow (fv z) pow_e /\ tight (fe_pow22523 z).
Proof.
  intros z B. destruct (fe_pow22523_pow z (tight_22 _ B)) as [V T]. split; [|exact T]. unfold fv. apply ofZ_eq in V. rewrite V. apply fpow_ofZ. exact pow_e_pos.
Qed.

(** Everything up to the sign. *)
Lemma from_bytes_case : forall s : arr32, exists y v u x : fe,
  tight y /\ tight x /\ fv y = ofZ (le_val (abytes s) mod 2 ^ 255) /\
  (let Y := fv y in let U := Y * Y - 1 in let V := Y * Y * d_ed + 1 in let v3 := V * V * V in fv x = fpow (v3 * v3 * V * U) pow_e * v3 * U /\
  ((fv x * fv x * V = U /\ ext_from_bytes s = (let x := fix_sign x (last (abytes s) x00) in Some (mk_ext x y fe_one (fe_mul x y)))) \/
   (fv x * fv x * V <> U /\ fv x * fv x * V = - U /\
      ext_from_bytes s = (let x := fix_sign (fe_freeze (fe_mul x ed_sqrt_m1)) (last (abytes s) x00) in Some (mk_ext x y fe_one (fe_mul x y)))) \/
   (fv x * fv x * V <> U /\ fv x * fv x * V <> - U /\ ext_from_bytes s = None))).
Proof.
  intros s. unfold ext_from_bytes. cbv zeta. destruct (fe_from_bytes_spec s) as [EY TY]. apply ofZ_eq in EY. fold (fv (fe_from_bytes s)) in EY. generalize dependent (fe_from_bytes s). intros y EY TY.
  pose proof ed_d_val as VD. pose proof ed_d_tight as TD. pose proof one_tight as T1. pose proof fv_one as V1.
  destruct (fv_square y (tight_loose _ TY)) as [Vyy Tyy]. generalize dependent (fe_square y). intros yy Vyy Tyy.
  destruct (fv_mul yy ed_d (tight_loose _ Tyy) (tight_loose _ TD)) as [Vdy Tdy]. generalize dependent (fe_mul yy ed_d). intros dy Vdy Tdy.
  destruct (fv_add 101 101 dy fe_one Tdy T1 ltac:(lia)) as [Vv Bv]. generalize dependent (fe_add dy fe_one). intros v Vv Bv. apply (b_loose (101 + 101)) in Bv; [|lia].
  assert (BU1 : fe_bound 1 100 fe_one) by exact fe_one_bound.
  destruct (fv_sub 101 1 yy fe_one Tyy BU1 ltac:(lia)) as [Vu Bu]. generalize dependent (fe_sub yy fe_one). intros u Vu Bu. pose proof (b_loose (101 + 1) _ Bu ltac:(lia)) as Lu.
  destruct (fv_square v Bv) as [Vv2 Tv2]. generalize dependent (fe_square v). intros v2 Vv2 Tv2.
  destruct (fv_mul v2 v (tight_loose _ Tv2) Bv) as [Vv3 Tv3]. generalize dependent (fe_mul v2 v). intros v3 Vv3 Tv3.
  destruct (fv_square v3 (tight_loose _ Tv3)) as [Vv6 Tv6]. generalize dependent (fe_square v3). intros v6 Vv6 Tv6.
  destruct (fv_mul v6 v (tight_loose _ Tv6) Bv) as [Vv7 Tv7]. generalize dependent (fe_mul v6 v). intros v7 Vv7 Tv7.
  destruct (fv_mul v7 u (tight_loose _ Tv7) Lu) as [Va Ta]. generalize dependent (fe_mul v7 u). intros a Va Ta.
  destruct (fv_pow22523 a Ta) as [Vg Tg]. generalize dependent (fe_pow22523 a). intros g Vg Tg.
  destruct (fv_mul g v3 (tight_loose _ Tg) (tight_loose _ Tv3)) as [Vh Th]. generalize dependent (fe_mul g v3). intros h Vh Th.
  destruct (fv_mul h u (tight_loose _ Th) Lu) as [Vx Tx]. generalize dependent (fe_mul h u). intros x Vx Tx.
  destruct (fv_square x (tight_loose _ Tx)) as [Vxx Txx]. generalize dependent (fe_square x). intros xx Vxx Txx.
  destruct (fv_mul xx v (tight_loose _ Txx) Bv) as [Vvx Tvx]. generalize dependent (fe_mul xx v). intros vxx Vvx Tvx.
  destruct (fv_sub 101 102 vxx u Tvx Bu ltac:(lia)) as [Vm Bm]. generalize dependent (fe_sub vxx u). intros m Vm Bm. apply (b_loose (101 + 102)) in Bm; [|lia].
  destruct (fv_add 101 102 vxx u Tvx Bu ltac:(lia)) as [Vp Bp]. generalize dependent (fe_add vxx u). intros p Vp Bp. apply (b_loose (101 + 102)) in Bp; [|lia].
  rewrite V1 in Vv, Vu. rewrite Vdy, Vyy, VD in Vv. rewrite Vyy in Vu.
  rewrite Vvx, Vxx, Vv, Vu in Vm, Vp. rewrite Vh, Vg, Va, Vv7, Vv6, Vv3, Vv2, Vv, Vu in Vx.
  exists y, v, u, x. split; [exact TY|]. split; [exact Tx|]. split; [exact EY|]. split; [exact Vx|].
  assert (KM : fv m = 0 -> fv x * fv x * (fv y * fv y * d_ed + 1) = fv y * fv y - 1) by (intros E; rewrite Vm in E; apply fsub_zero in E; exact E).
  assert (KM' : fv m <> 0 -> fv x * fv x * (fv y * fv y * d_ed + 1) <> fv y * fv y - 1) by (intros N E; apply N; rewrite Vm, E; ring).
  assert (KP : fv p = 0 -> fv x * fv x * (fv y * fv y * d_ed + 1) = - (fv y * fv y - 1)).
  { intros E. rewrite Vp in E. apply fsub_zero. rewrite <- E. ring. }
  assert (KP' : fv p <> 0 -> fv x * fv x * (fv y * fv y * d_ed + 1) <> - (fv y * fv y - 1)) by (intros N E; apply N; rewrite Vp, E; ring).
  destruct (fe_is_non_zero m =? 1)%Z eqn:M.
  - destruct (fe_is_non_zero p =? 1)%Z eqn:Q.
    + right. right. split; [exact (KM' (is_non_zero_fv' m Bm M))|]. split; [exact (KP' (is_non_zero_fv' p Bp Q))|reflexivity].
    + right. left. split; [exact (KM' (is_non_zero_fv' m Bm M))|]. split; [exact (KP (is_non_zero_fv p Bp Q))|reflexivity].
  - left. split; [exact (KM (is_non_zero_fv m Bm M))|reflexivity].
Qed.

Lemma rep_of_root : forall (s : arr32) x y, tight y -> loose x -> fv y = ofZ (le_val (abytes s) mod 2 ^ 255) ->
  fv x * fv x * (fv y * fv y * d_ed + 1) = fv y * fv y - 1 ->
  let x' := fix_sign x (last (abytes s) x00) in let P := (fv x', fv y) in
  decodes s P /\ ext_rep (mk_ext x' y fe_one (fe_mul x' y)) P.
Proof.
  intros s x y TY BX EY E x' P. destruct (fix_sign_ok x (last (abytes s) x00) BX) as (S & V & PA). fold x' in S, V, PA. clearbody x'.
  assert (C : on_curve P).
  { apply curve_uv. unfold P, px, py. cbn [fst snd]. rewrite <- E. destruct V as [-> | ->]; ring. }
  split.
  - unfold decodes. split; [exact C|]. unfold P, px, py. cbn [fst snd]. split; [exact EY|]. rewrite <- top_byte. exact PA.
  - destruct (fv_mul x' y (semi_loose _ S) (tight_loose _ TY)) as [VT TT]. unfold ext_rep. cbn [ext_x ext_y ext_z ext_t]. split; [exact C|].
    split; [exact (conj S (conj TY (conj one_tight TT)))|]. rewrite VT, fv_one. unfold P, px, py. cbn [fst snd]. split; [exact f1_neq_0|]. split; [ring|]. split; ring.
Qed.

Theorem from_bytes_some : forall s h, ext_from_bytes s = Some h -> exists P, decodes s P /\ ext_rep h P.
Proof.
  intros s h H. destruct (from_bytes_case s) as (y & v & u & x & TY & TX & EY & _ & D). cbv zeta in D.
  destruct D as [(E & K)|[(_ & E & K)|(_ & _ & K)]].
  - rewrite K in H. apply some_eq in H. subst h. destruct (rep_of_root s x y TY (tight_loose _ TX) EY E) as [A B]. eexists. split; [exact A|exact B].
  - rewrite K in H. apply some_eq in H. subst h. destruct (fv_mul x ed_sqrt_m1 (tight_loose _ TX) (tight_loose _ ed_sqrt_tight)) as [VI TI].
    destruct (fv_freeze _ (tight_loose _ TI)) as [VF SF]. rewrite VI, ed_sqrt_val in VF. generalize dependent (fe_freeze (fe_mul x ed_sqrt_m1)). intros x2 K VF SF.
    assert (E2 : fv x2 * fv x2 * (fv y * fv y * d_ed + 1) = fv y * fv y - 1).
    { rewrite VF. pose proof sqrt_m1_ok as HI. generalize dependent sqrt_m1. intros i VF HI. transitivity (i * i * (fv x * fv x * (fv y * fv y * d_ed + 1))); [ring|]. rewrite HI, E. ring. }
    destruct (rep_of_root s x2 y TY (semi_loose _ SF) EY E2) as [A B]. eexists. split; [exact A|exact B].
  - rewrite K in H. discriminate H.
Qed.
Theorem from_bytes_none : forall s P, ext_from_bytes s = None -> ~ decodes s P.
Proof.
  intros s P H (C & Y & _). destruct (from_bytes_case s) as (y & v & u & x & TY & TX & EY & EX & D). cbv zeta in EX, D.
  apply curve_uv in C. rewrite Y, <- EY in C. destruct (sqrt_exists _ _ _ (dy_nonzero (fv y)) C) as [E|E]; cbv zeta in E; rewrite <- EX in E;
  destruct D as [(_ & K)|[(N1 & _ & K)|(N1 & N2 & _)]]; try (rewrite K in H; discriminate H).
  - exact (N1 E).
  - exact (N2 E).
Qed.
