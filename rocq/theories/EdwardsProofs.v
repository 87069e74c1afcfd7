(** EdwardsProofs.v: the group operations of edwards25519.go compute the addition law of the curve. *)
From Verif Require Import Base Field25519 FieldSpec FieldProofs FieldProofs2 FieldProofs3 FieldProofs4 FieldPrime Fermat Fp CurveSpec CurveGroup EdBase Edwards.
From Coq Require Import ZArith List Lia.
Import ListNotations.
Local Open Scope F_scope.

(** The field element a limb vector stands for. *)
Definition fv (f : fe) : F := ofZ (fe_val f).
Definition tight (f : fe) : Prop := fe_bound 101 100 f.
Definition loose (f : fe) : Prop := fe_bound 330 100 f.

Lemma tight_loose : forall f, tight f -> loose f.
Proof. intros f H. apply (fe_bound_weaken 101 100); [exact H|lia|lia|lia]. Qed.
(** FromBytes leaves X as FeToBytes froze it, with limbs up to 2^26 and 2^25. *)
Definition semi (f : fe) : Prop := fe_bound 200 100 f.
Lemma tight_semi : forall f, tight f -> semi f.
Proof. intros f H. apply (fe_bound_weaken 101 100); [exact H|lia|lia|lia]. Qed.
Lemma semi_loose : forall f, semi f -> loose f.
Proof. intros f H. apply (fe_bound_weaken 200 100); [exact H|lia|lia|lia]. Qed.
Lemma tight_22 : forall f, tight f -> fe_bound 22 10 f.
Proof. intros f H. apply (fe_bound_weaken 101 100); [exact H|lia|lia|lia]. Qed.
Lemma b_loose : forall n f, fe_bound n 100 f -> (n <= 330)%Z -> loose f.
Proof. intros n f H L. apply (fe_bound_weaken n 100); [exact H|lia|lia|lia]. Qed.

Lemma fv_mul : forall f g, loose f -> loose g -> fv (fe_mul f g) = fv f * fv g /\ tight (fe_mul f g).
Proof.
  intros f g HF HG. destruct (fe_mul_wide_spec f g HF HG) as [E B]. split; [|exact B]. apply (proj1 (ofZ_eq _ _)) in E.
  unfold fv. rewrite E. apply ofZ_mul.
Qed.
Lemma fv_square : forall f, loose f -> fv (fe_square f) = fv f * fv f /\ tight (fe_square f).
Proof.
  intros f HF. destruct (fe_square_wide_spec f HF) as [E B]. split; [|exact B]. apply (proj1 (ofZ_eq _ _)) in E.
  unfold fv. rewrite E. apply ofZ_mul.
Qed.
Lemma fv_square2 : forall f, loose f -> fv (fe_square2 f) = ofZ 2 * (fv f * fv f) /\ tight (fe_square2 f).
Proof.
  intros f HF. destruct (fe_square2_spec f HF) as [E B]. split; [|exact B]. apply (proj1 (ofZ_eq _ _)) in E.
  unfold fv. rewrite E, !ofZ_mul. reflexivity.
Qed.
Lemma fv_add : forall n m f g, fe_bound n 100 f -> fe_bound m 100 g -> (n + m < 6400)%Z ->
  fv (fe_add f g) = fv f + fv g /\ fe_bound (n + m) 100 (fe_add f g).
Proof.
  intros n m f g HF HG L. destruct (fe_add_spec f g n m 100 HF HG ltac:(lia) ltac:(lia)) as [E B]. split; [|exact B].
  unfold fv. rewrite E. apply ofZ_add.
Qed.
Lemma fv_sub : forall n m f g, fe_bound n 100 f -> fe_bound m 100 g -> (n + m < 6400)%Z ->
  fv (fe_sub f g) = fv f - fv g /\ fe_bound (n + m) 100 (fe_sub f g).
Proof.
  intros n m f g HF HG L. destruct (fe_sub_spec f g n m 100 HF HG ltac:(lia) ltac:(lia)) as [E B]. split; [|exact B].
  unfold fv. rewrite E. apply ofZ_sub.
Qed.
Lemma fv_neg : forall n f, fe_bound n 100 f -> (n < 6400)%Z -> fv (fe_neg f) = - fv f /\ fe_bound n 100 (fe_neg f).
Proof.
  intros n f HF L. destruct (fe_neg_spec f n 100 HF ltac:(lia) ltac:(lia)) as [E B]. split; [|exact B].
  unfold fv. rewrite E. apply ofZ_opp.
Qed.
Lemma fv_one : fv fe_one = 1.
Proof. reflexivity. Qed.
Lemma fv_zero : fv fe_zero = 0.
Proof. reflexivity. Qed.
Lemma zero_tight : tight fe_zero.
Proof. repeat split; cbn; lia. Qed.
Lemma one_tight : tight fe_one.
Proof. repeat split; cbn; lia. Qed.

(** * Representations *)
(** Extended coordinates (X : Y : Z : T) with x = X/Z, y = Y/Z, xy = T/Z. *)
Definition ext_rep (h : ext) (P : point) : Prop :=
  on_curve P /\ (semi (ext_x h) /\ tight (ext_y h) /\ tight (ext_z h) /\ tight (ext_t h)) /\
  fv (ext_z h) <> 0 /\ fv (ext_x h) = px P * fv (ext_z h) /\ fv (ext_y h) = py P * fv (ext_z h) /\ fv (ext_t h) = px P * py P * fv (ext_z h).
(** Projective coordinates (X : Y : Z). *)
Definition proj_rep (h : proj) (P : point) : Prop :=
  on_curve P /\ (semi (prj_x h) /\ tight (prj_y h) /\ tight (prj_z h)) /\
  fv (prj_z h) <> 0 /\ fv (prj_x h) = px P * fv (prj_z h) /\ fv (prj_y h) = py P * fv (prj_z h).
(** Completed coordinates ((X : Z), (Y : T)) with x = X/Z, y = Y/T. *)
Definition comp_rep (h : comp) (P : point) : Prop :=
  on_curve P /\ (loose (cmp_x h) /\ loose (cmp_y h) /\ loose (cmp_z h) /\ loose (cmp_t h)) /\
  fv (cmp_z h) <> 0 /\ fv (cmp_t h) <> 0 /\ fv (cmp_x h) = px P * fv (cmp_z h) /\ fv (cmp_y h) = py P * fv (cmp_t h).
(** Precomputed (y + x, y - x, 2dxy). *)
Definition pc_rep (h : precomp) (P : point) : Prop :=
  on_curve P /\ (tight (pc_ypx h) /\ tight (pc_ymx h) /\ tight (pc_xy2d h)) /\
  fv (pc_ypx h) = py P + px P /\ fv (pc_ymx h) = py P - px P /\ fv (pc_xy2d h) = ofZ 2 * d_ed * px P * py P.

Lemma ext_zero_rep : ext_rep ext_zero pzero.
Proof.
  split; [exact pzero_on_curve|]. pose proof zero_tight. pose proof one_tight. pose proof (tight_semi _ zero_tight). unfold ext_zero, pzero, px, py. cbn [ext_x ext_y ext_z ext_t fst snd].
  rewrite fv_one, fv_zero. split; [tauto|]. split; [exact f1_neq_0|]. split; [ring|]. split; ring.
Qed.
Lemma ext_to_proj_rep : forall h P, ext_rep h P -> proj_rep (ext_to_proj h) P.
Proof. intros h P (C & (B1 & B2 & B3 & B4) & Z & X & Y & T). exact (conj C (conj (conj B1 (conj B2 B3)) (conj Z (conj X Y)))). Qed.

Lemma comp_to_proj_rep : forall h P, comp_rep h P -> proj_rep (comp_to_proj h) P.
Proof.
  intros h P (C & (BX & BY & BZ & BT) & NZ & NT & EX & EY). unfold comp_to_proj.
  destruct (fv_mul _ _ BX BT) as [V1 T1]. destruct (fv_mul _ _ BY BZ) as [V2 T2]. destruct (fv_mul _ _ BZ BT) as [V3 T3].
  unfold proj_rep. cbn [prj_x prj_y prj_z]. rewrite V1, V2, V3, EX, EY. split; [exact C|]. split; [exact (conj (tight_semi _ T1) (conj T2 T3))|].
  split; [apply fmul_neq; [exact NZ|exact NT]|]. split; ring.
Qed.
Lemma comp_to_ext_rep : forall h P, comp_rep h P -> ext_rep (comp_to_ext h) P.
Proof.
  intros h P (C & (BX & BY & BZ & BT) & NZ & NT & EX & EY). unfold comp_to_ext.
  destruct (fv_mul _ _ BX BT) as [V1 T1]. destruct (fv_mul _ _ BY BZ) as [V2 T2]. destruct (fv_mul _ _ BZ BT) as [V3 T3]. destruct (fv_mul _ _ BX BY) as [V4 T4].
  unfold ext_rep. cbn [ext_x ext_y ext_z ext_t]. rewrite V1, V2, V3, V4, EX, EY. split; [exact C|]. split; [exact (conj (tight_semi _ T1) (conj T2 (conj T3 T4)))|].
  split; [apply fmul_neq; [exact NZ|exact NT]|]. split; [ring|]. split; ring.
Qed.

(** * Doubling *)
Lemma dbl_alg : forall d x y z x3 y3 : F,
  y * y - x * x = 1 + d * (x * x * (y * y)) ->
  x3 * (1 + d * x * x * y * y) = x * y + y * x -> y3 * (1 - d * x * x * y * y) = y * y + x * x ->
  1 + d * x * x * y * y <> 0 -> 1 - d * x * x * y * y <> 0 -> z <> 0 ->
  let X := x * z in let Y := y * z in
  let xx := X * X in let yy := Y * Y in let b := ofZ 2 * (z * z) in let aa := (X + Y) * (X + Y) in
  yy - xx <> 0 /\ b - (yy - xx) <> 0 /\ aa - (yy + xx) = x3 * (yy - xx) /\ yy + xx = y3 * (b - (yy - xx)).
Proof.
  intros d x y z x3 y3 E A B NP NM NZ X Y xx yy b aa.
  assert (E1 : yy - xx = (1 + d * x * x * y * y) * (z * z)).
  { transitivity ((y * y - x * x) * (z * z)); [unfold yy, xx, X, Y; ring|]. rewrite E. ring. }
  assert (E2 : b - (yy - xx) = (1 - d * x * x * y * y) * (z * z)). { rewrite E1. unfold b. ring. }
  assert (NZ2 : z * z <> 0) by (apply fmul_neq; [exact NZ|exact NZ]).
  split; [rewrite E1; apply fmul_neq; [exact NP|exact NZ2]|]. split; [rewrite E2; apply fmul_neq; [exact NM|exact NZ2]|].
  split.
  - rewrite E1. transitivity (x3 * (1 + d * x * x * y * y) * (z * z)); [|ring]. rewrite A. unfold aa, yy, xx, X, Y. ring.
  - rewrite E2. transitivity (y3 * (1 - d * x * x * y * y) * (z * z)); [|ring]. rewrite B. unfold yy, xx, X, Y. ring.
Qed.

Lemma proj_double_rep : forall h P, proj_rep h P -> comp_rep (proj_double h) (padd P P).
Proof.
  intros [hx hy hz] P (C & (BX & BY & BZ) & NZ & EX & EY). unfold proj_double. cbn [prj_x prj_y prj_z] in *. cbv zeta.
  destruct (fv_square hx (semi_loose _ BX)) as [Vxx Txx]. destruct (fv_square hy (tight_loose _ BY)) as [Vyy Tyy].
  destruct (fv_square2 hz (tight_loose _ BZ)) as [Vb Tb]. destruct (fv_add 200 101 hx hy BX BY ltac:(lia)) as [Va Ba].
  destruct (fv_square _ (b_loose _ _ Ba ltac:(lia))) as [Vaa Taa]. destruct (fv_add 101 101 _ _ Tyy Txx ltac:(lia)) as [Vry Bry].
  destruct (fv_sub 101 101 _ _ Tyy Txx ltac:(lia)) as [Vrz Brz]. destruct (fv_sub 101 202 _ _ Taa Bry ltac:(lia)) as [Vrx Brx].
  destruct (fv_sub 101 202 _ _ Tb Brz ltac:(lia)) as [Vrt Brt].
  destruct (padd_is_sum P P C C) as [S1 S2]. pose proof (denom_plus P P C C) as NP. pose proof (denom_minus P P C C) as NM. pose proof (padd_on_curve P P C C) as C3.
  unfold comp_rep. cbn [cmp_x cmp_y cmp_z cmp_t]. split; [exact C3|]. clear C3.
  split; [exact (conj (b_loose _ _ Brx ltac:(lia)) (conj (b_loose _ _ Bry ltac:(lia)) (conj (b_loose _ _ Brz ltac:(lia)) (b_loose _ _ Brt ltac:(lia)))))|].
  rewrite Vrz, Vrt, Vrx, Vry, Vrz, Vaa, Va, Vb, Vxx, Vyy, EX, EY.
  exact (dbl_alg d_ed (px P) (py P) (fv hz) _ _ C S1 S2 NP NM NZ).
Qed.

(** * Mixed addition *)
Lemma add_alg : forall d x1 y1 x2 y2 z x3 y3 : F,
  x3 * (1 + d * x1 * x2 * y1 * y2) = x1 * y2 + y1 * x2 -> y3 * (1 - d * x1 * x2 * y1 * y2) = y1 * y2 + x1 * x2 ->
  1 + d * x1 * x2 * y1 * y2 <> 0 -> 1 - d * x1 * x2 * y1 * y2 <> 0 -> z <> 0 -> ofZ 2 <> 0 ->
  let a := (y1 * z + x1 * z) * (y2 + x2) in let b := (y1 * z - x1 * z) * (y2 - x2) in
  let c := ofZ 2 * d * x2 * y2 * (x1 * y1 * z) in let t := z + z in
  t + c <> 0 /\ t - c <> 0 /\ a - b = x3 * (t + c) /\ a + b = y3 * (t - c).
Proof.
  intros d x1 y1 x2 y2 z x3 y3 A B NP NM NZ N2 a b c t.
  assert (E1 : t + c = (1 + d * x1 * x2 * y1 * y2) * (ofZ 2 * z)) by (unfold t, c; ring).
  assert (E2 : t - c = (1 - d * x1 * x2 * y1 * y2) * (ofZ 2 * z)) by (unfold t, c; ring).
  assert (NZ2 : ofZ 2 * z <> 0) by (apply fmul_neq; [exact N2|exact NZ]).
  split; [rewrite E1; apply fmul_neq; [exact NP|exact NZ2]|]. split; [rewrite E2; apply fmul_neq; [exact NM|exact NZ2]|].
  split.
  - rewrite E1. transitivity (x3 * (1 + d * x1 * x2 * y1 * y2) * (ofZ 2 * z)); [|ring]. rewrite A. unfold a, b. ring.
  - rewrite E2. transitivity (y3 * (1 - d * x1 * x2 * y1 * y2) * (ofZ 2 * z)); [|ring]. rewrite B. unfold a, b. ring.
Qed.

Lemma mixed_add_rep : forall h q P Q, ext_rep h P -> pc_rep q Q -> comp_rep (mixed_add h q) (padd P Q).
Proof.
  intros [hx hy hz ht] [q1 q2 q3] P Q (C & (BX & BY & BZ & BT) & NZ & EX & EY & ET) (D & (B1 & B2 & B3) & E1 & E2 & E3).
  unfold mixed_add. cbn [ext_x ext_y ext_z ext_t pc_ypx pc_ymx pc_xy2d] in *. cbv zeta.
  destruct (fv_add 101 200 _ _ BY BX ltac:(lia)) as [Vs Bs]. destruct (fv_sub 101 200 _ _ BY BX ltac:(lia)) as [Vd Bd].
  destruct (fv_mul _ _ (b_loose _ _ Bs ltac:(lia)) (tight_loose _ B1)) as [Va Ta]. destruct (fv_mul _ _ (b_loose _ _ Bd ltac:(lia)) (tight_loose _ B2)) as [Vb Tb].
  destruct (fv_mul _ _ (tight_loose _ B3) (tight_loose _ BT)) as [Vc Tc]. destruct (fv_add 101 101 _ _ BZ BZ ltac:(lia)) as [Vt Bt].
  destruct (fv_sub 101 101 _ _ Ta Tb ltac:(lia)) as [V1 L1]. destruct (fv_add 101 101 _ _ Ta Tb ltac:(lia)) as [V2 L2].
  destruct (fv_add 202 101 _ _ Bt Tc ltac:(lia)) as [V3 L3]. destruct (fv_sub 202 101 _ _ Bt Tc ltac:(lia)) as [V4 L4].
  destruct (padd_is_sum P Q C D) as [S1 S2]. pose proof (denom_plus P Q C D) as NP. pose proof (denom_minus P Q C D) as NM. pose proof (padd_on_curve P Q C D) as C3.
  unfold comp_rep. cbn [cmp_x cmp_y cmp_z cmp_t]. split; [exact C3|]. clear C3.
  split; [exact (conj (b_loose _ _ L1 ltac:(lia)) (conj (b_loose _ _ L2 ltac:(lia)) (conj (b_loose _ _ L3 ltac:(lia)) (b_loose _ _ L4 ltac:(lia)))))|].
  rewrite V1, V2, V3, V4, Va, Vb, Vc, Vt, Vs, Vd, E1, E2, E3, EX, EY, ET.
  exact (add_alg d_ed (px P) (py P) (px Q) (py Q) (fv hz) _ _ S1 S2 NP NM NZ f2_neq_0).
Qed.
