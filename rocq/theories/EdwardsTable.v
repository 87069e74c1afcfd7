(** EdwardsTable.v: the table of const.go holds the multiples of the base point, checked entry by entry in the kernel. *)
From Verif Require Import Base Field25519 FieldSpec FastZ FieldProofs FieldProofs2 FieldProofs3 FieldPrime Fp CurveSpec CurveGroup EdBase Edwards EdwardsProofs.
From Coq Require Import ZArith List Lia Bool Ring Field.
Import ListNotations.
Local Open Scope Z_scope.

Definition half : F := ofZ ((p25519 + 1) / 2).
Lemma half_ok : fmul half (ofZ 2) = f1.
Proof. apply F_eq. vm_compute. reflexivity. Qed.

Definition pc_point (e : precomp) : point := (fmul half (fsub (fv (pc_ypx e)) (fv (pc_ymx e))), fmul half (fadd (fv (pc_ypx e)) (fv (pc_ymx e)))).

Definition tightb (f : fe) : bool :=
  (100 * Z.abs (e0 f) <=? 101 * 2 ^ 25) && (100 * Z.abs (e1 f) <=? 101 * 2 ^ 24) && (100 * Z.abs (e2 f) <=? 101 * 2 ^ 25) &&
  (100 * Z.abs (e3 f) <=? 101 * 2 ^ 24) && (100 * Z.abs (e4 f) <=? 101 * 2 ^ 25) && (100 * Z.abs (e5 f) <=? 101 * 2 ^ 24) &&
  (100 * Z.abs (e6 f) <=? 101 * 2 ^ 25) && (100 * Z.abs (e7 f) <=? 101 * 2 ^ 24) && (100 * Z.abs (e8 f) <=? 101 * 2 ^ 25) &&
  (100 * Z.abs (e9 f) <=? 101 * 2 ^ 24).
Lemma tightb_ok : forall f, tightb f = true -> tight f.
Proof.
  intros f H. unfold tightb in H. repeat (apply andb_prop in H; destruct H as [H ?]). repeat match goal with K : (_ <=? _) = true |- _ => apply Z.leb_le in K end.
  unfold tight, fe_bound. tauto.
Qed.

Lemma ofZ_mod : forall z, ofZ (z mod p25519) = ofZ z.
Proof. intros z. apply ofZ_eq. unfold eqp. apply Z.mod_mod. discriminate. Qed.

Local Open Scope F_scope.
Lemma mul_cancel : forall a b c : F, c <> 0 -> a * c = b * c -> a = b.
Proof. intros a b c N E. apply (fdiv_eq (b * c) c a N) in E. rewrite E. field. exact N. Qed.

(** The numbers of an entry, read with additions only. *)
Definition fe_num (f : fe) : Z :=
  e0 f + Z.shiftl (e1 f) 26 + Z.shiftl (e2 f) 51 + Z.shiftl (e3 f) 77 + Z.shiftl (e4 f) 102 + Z.shiftl (e5 f) 128 + Z.shiftl (e6 f) 153 + Z.shiftl (e7 f) 179
  + Z.shiftl (e8 f) 204 + Z.shiftl (e9 f) 230.
Lemma fe_num_ok : forall f, fe_num f = fe_val f.
Proof. intros [a b c d e g h i j k]. unfold fe_num, fe_val. cbn [e0 e1 e2 e3 e4 e5 e6 e7 e8 e9]. rewrite !Z.shiftl_mul_pow2 by lia. ring. Qed.
Definition fe_red (f : fe) : Z := fold255 (fe_num f).
Lemma fe_red_ok : forall f, ofZ (fe_red f) = fv f.
Proof. intros f. unfold fe_red, fv. apply ofZ_eq. pose proof (fold255_ok (fe_num f)) as H. rewrite fe_num_ok in H at 2. exact H. Qed.

(** * Algebra *)
Lemma half_double : forall h a x : F, h * ofZ 2 = 1 -> ofZ 2 * x = a -> h * a = x.
Proof. intros h a x H <-. transitivity ((h * ofZ 2) * x); [ring|]. rewrite H. ring. Qed.
Lemma scale_cancel : forall (k : F) (a b : F), k <> 0 -> k * a = k * b -> a = b.
Proof. intros k a b N E. apply (mul_cancel _ _ k N). transitivity (k * a); [ring|]. rewrite E. ring. Qed.

(** An entry that satisfies the (division-free) equations of P + Q, with the right product, represents P + Q. *)
Lemma entry_alg : forall h d x1 y1 x2 y2 x3 y3 a b c : F, h * ofZ 2 = 1 ->
  x3 * (1 + d * x1 * x2 * y1 * y2) = x1 * y2 + y1 * x2 -> y3 * (1 - d * x1 * x2 * y1 * y2) = y1 * y2 + x1 * x2 ->
  1 + d * x1 * x2 * y1 * y2 <> 0 -> 1 - d * x1 * x2 * y1 * y2 <> 0 ->
  let B := (y1 + x1) * (y2 + x2) in let A := (y1 - x1) * (y2 - x2) in let C := ofZ 2 * d * x2 * y2 * (ofZ 4 * (x1 * y1)) in
  ofZ 8 * (B - A) = (a - b) * (ofZ 8 + C) -> ofZ 8 * (B + A) = (a + b) * (ofZ 8 - C) -> ofZ 2 * c = d * ((a - b) * (a + b)) ->
  a = y3 + x3 /\ b = y3 - x3 /\ c = ofZ 2 * d * x3 * y3.
Proof.
  intros h d x1 y1 x2 y2 x3 y3 a b c H S1 S2 NP NM B A C E1 E2 E3.
  assert (N2 : ofZ 2 <> 0) by exact f2_neq_0.
  assert (N8 : ofZ 8 <> 0). { apply small_neq_0. split; reflexivity. }
  assert (X : a - b = ofZ 2 * x3).
  { apply (mul_cancel _ _ _ (fmul_neq _ _ N8 NP)). transitivity ((a - b) * (ofZ 8 + C)); [unfold C; ring|]. rewrite <- E1.
    transitivity (ofZ 16 * (x3 * (1 + d * x1 * x2 * y1 * y2))); [rewrite S1; unfold B, A; ring|ring]. }
  assert (Y : a + b = ofZ 2 * y3).
  { apply (mul_cancel _ _ _ (fmul_neq _ _ N8 NM)). transitivity ((a + b) * (ofZ 8 - C)); [unfold C; ring|]. rewrite <- E2.
    transitivity (ofZ 16 * (y3 * (1 - d * x1 * x2 * y1 * y2))); [rewrite S2; unfold B, A; ring|ring]. }
  split; [|split].
  - apply (scale_cancel _ _ _ N2). transitivity (a + b + (a - b)); [ring|]. rewrite X, Y. ring.
  - apply (scale_cancel _ _ _ N2). transitivity (a + b - (a - b)); [ring|]. rewrite X, Y. ring.
  - apply (scale_cancel _ _ _ N2). rewrite E3, X, Y. ring.
Qed.

(** * Rows *)
Fixpoint row_rep (P : point) (k : Z) (row : list precomp) : Prop :=
  match row with [] => True | e :: r => pc_rep e (zmul k P) /\ row_rep P (k + 1) r end.
Fixpoint table_rep (P : point) (rows : list (list precomp)) : Prop :=
  match rows with [] => True | row :: rest => length row = 8%nat /\ row_rep P 1 row /\ table_rep (zmul 256 P) rest end.

Lemma last_default : forall (A : Type) (l : list A) x a b, last (x :: l) a = last (x :: l) b.
Proof. intros A l. induction l as [|y l IH]; intros x a b; [reflexivity|]. change (last (y :: l) a = last (y :: l) b). apply IH. Qed.


(** * The check, for any arithmetic modulo p *)
Definition tight3 (e : precomp) : bool := tightb (pc_ypx e) && tightb (pc_ymx e) && tightb (pc_xy2d e).
Lemma tight3_ok : forall e, tight3 e = true -> tight (pc_ypx e) /\ tight (pc_ymx e) /\ tight (pc_xy2d e).
Proof.
  intros e H. unfold tight3 in H. apply andb_prop in H. destruct H as [H H3]. apply andb_prop in H. destruct H as [H1 H2].
  exact (conj (tightb_ok _ H1) (conj (tightb_ok _ H2) (tightb_ok _ H3))).
Qed.
Local Opaque padd popp.
Section Check.
Variable mul : Z -> Z -> Z.
Variable isz : Z -> bool.
Variable num : fe -> Z.
Hypothesis Hmul : forall a b, ofZ (mul a b) = ofZ a * ofZ b.
Hypothesis Hisz : forall z, isz z = true -> ofZ z = 0.
Hypothesis Hnum : forall f, ofZ (num f) = fv f.

Lemma isz_eq : forall a b, isz (a - b) = true -> ofZ a = ofZ b.
Proof. intros a b H. apply Hisz in H. rewrite ofZ_sub in H. exact (fsub_zero _ _ H). Qed.

(** The products of an entry, of which 2 d x y is checked: 4 x y. *)
Definition four_xy (a b : Z) : Z := mul (a - b) (a + b).
(** Entry (a, b, c), with t = 4 x y, is the entry (ap, bp) with tp = 4 x y plus the entry (a1, b1, c1). *)
Definition entry_ok (a1 b1 c1 ap bp tp a b c t : Z) : bool :=
  (let B := mul ap a1 in let A := mul bp b1 in let C := mul c1 tp in
   isz (8 * (B - A) - mul (a - b) (8 + C)) && isz (8 * (B + A) - mul (a + b) (8 - C)) && isz (mul d_val t - 2 * c))%Z.
Fixpoint chk_row (a1 b1 c1 ap bp tp : Z) (row : list precomp) : bool :=
  match row with
  | [] => true
  | e :: r => let a := num (pc_ypx e) in let b := num (pc_ymx e) in let t := four_xy a b in
      tight3 e && entry_ok a1 b1 c1 ap bp tp a b (num (pc_xy2d e)) t && chk_row a1 b1 c1 a b t r
  end.

Lemma entry_ok_rep : forall e1 ep e P1 Pp, pc_rep e1 P1 -> pc_rep ep Pp -> tight3 e = true ->
  entry_ok (num (pc_ypx e1)) (num (pc_ymx e1)) (num (pc_xy2d e1)) (num (pc_ypx ep)) (num (pc_ymx ep)) (four_xy (num (pc_ypx ep)) (num (pc_ymx ep)))
    (num (pc_ypx e)) (num (pc_ymx e)) (num (pc_xy2d e)) (four_xy (num (pc_ypx e)) (num (pc_ymx e))) = true -> pc_rep e (padd Pp P1).
Proof.
  intros e1 ep e P1 Pp (C1 & _ & A1 & B1 & D1) (Cp & _ & Ap & Bp & _) T H. unfold entry_ok in H. cbv zeta in H. unfold four_xy in H.
  apply andb_prop in H. destruct H as [H H3]. apply andb_prop in H. destruct H as [H1 H2]. apply isz_eq in H1, H2, H3.
  rewrite ?ofZ_mul, ?ofZ_add, ?ofZ_sub, ?Hmul, ?ofZ_add, ?ofZ_sub, ?Hmul, ?ofZ_add, ?ofZ_sub, ?Hnum in H1.
  rewrite ?ofZ_mul, ?ofZ_add, ?ofZ_sub, ?Hmul, ?ofZ_add, ?ofZ_sub, ?Hmul, ?ofZ_add, ?ofZ_sub, ?Hnum in H2.
  rewrite ?ofZ_mul, ?ofZ_add, ?ofZ_sub, ?Hmul, ?ofZ_add, ?ofZ_sub, ?Hmul, ?ofZ_add, ?ofZ_sub, ?Hnum, ?d_val_ok in H3.
  destruct (padd_is_sum Pp P1 Cp C1) as [S1 S2]. pose proof (denom_plus Pp P1 Cp C1) as NP. pose proof (denom_minus Pp P1 Cp C1) as NM.
  split; [exact (padd_on_curve Pp P1 Cp C1)|]. split; [exact (tight3_ok e T)|].
  rewrite A1, B1, D1, Ap, Bp in H1. rewrite A1, B1, D1, Ap, Bp in H2. clear A1 B1 D1 Ap Bp C1 Cp T.
  generalize dependent (padd Pp P1). intros [x3 y3] S1 S2. generalize dependent d_ed. intros d H1 H2 H3 NP NM S1 S2.
  destruct Pp as [x1 y1]. destruct P1 as [x2 y2]. unfold px, py in *. cbn [fst snd] in *.
  apply (entry_alg half d x1 y1 x2 y2 x3 y3 (fv (pc_ypx e)) (fv (pc_ymx e)) (fv (pc_xy2d e)) half_ok S1 S2 NP NM).
  - rewrite H1. ring.
  - rewrite H2. ring.
  - rewrite <- H3. ring.
Qed.

Lemma chk_row_ok : forall e1 P row prev k, on_curve P -> pc_rep e1 P -> pc_rep prev (zmul k P) ->
  chk_row (num (pc_ypx e1)) (num (pc_ymx e1)) (num (pc_xy2d e1)) (num (pc_ypx prev)) (num (pc_ymx prev)) (four_xy (num (pc_ypx prev)) (num (pc_ymx prev))) row = true ->
  row_rep P (k + 1) row /\ pc_rep (last row prev) (zmul (k + Z.of_nat (length row)) P).
Proof.
  intros e1 P row. induction row as [|e row IH]; intros prev k C H1 HP H; cbn [chk_row row_rep last length] in *.
  - split; [exact I|]. rewrite Z.add_0_r. exact HP.
  - cbv zeta in H. apply andb_prop in H. destruct H as [H H3]. apply andb_prop in H. destruct H as [H0 H2].
    pose proof (entry_ok_rep e1 prev e P (zmul k P) H1 HP H0 H2) as R.
    assert (E : padd (zmul k P) P = zmul (k + 1) P). { rewrite zmul_add by exact C. rewrite zmul_1. reflexivity. }
    rewrite E in R. destruct (IH e (k + 1)%Z C H1 R H3) as [A B]. split; [exact (conj R A)|].
    assert (K : (k + Z.of_nat (S (length row)) = k + 1 + Z.of_nat (length row))%Z) by (clear; lia). rewrite K.
    revert B. clear. destruct row as [|e' row']; intros B; [exact B|]. rewrite (last_default precomp row' e' prev e). exact B.
Qed.

(** Projective and completed coordinates over the integers. *)
Record prz : Type := mk_prz { rz_x : Z; rz_y : Z; rz_z : Z }.
Record cmz : Type := mk_cmz { cz_x : Z; cz_y : Z; cz_z : Z; cz_t : Z }.
Definition prz_rep (h : prz) (P : point) : Prop :=
  on_curve P /\ ofZ (rz_z h) <> 0 /\ ofZ (rz_x h) = px P * ofZ (rz_z h) /\ ofZ (rz_y h) = py P * ofZ (rz_z h).
Definition cmz_rep (h : cmz) (P : point) : Prop :=
  on_curve P /\ ofZ (cz_z h) <> 0 /\ ofZ (cz_t h) <> 0 /\ ofZ (cz_x h) = px P * ofZ (cz_z h) /\ ofZ (cz_y h) = py P * ofZ (cz_t h).
Definition dblz (h : prz) : cmz :=
  (let xx := mul (rz_x h) (rz_x h) in let yy := mul (rz_y h) (rz_y h) in let zz := mul (rz_z h) (rz_z h) in
   let s := rz_x h + rz_y h in let ry := yy + xx in let rz := yy - xx in mk_cmz (mul s s - ry) ry rz (2 * zz - rz))%Z.
Definition cm_pr (h : cmz) : prz := mk_prz (mul (cz_x h) (cz_t h)) (mul (cz_y h) (cz_z h)) (mul (cz_z h) (cz_t h)).
Lemma dblz_rep : forall h P, prz_rep h P -> cmz_rep (dblz h) (padd P P).
Proof.
  intros [X Y W] P (C & NZ & EX & EY). unfold dblz. cbn [rz_x rz_y rz_z] in *. cbv zeta.
  destruct (padd_is_sum P P C C) as [S1 S2]. pose proof (denom_plus P P C C) as NP. pose proof (denom_minus P P C C) as NM.
  split; [exact (padd_on_curve P P C C)|]. cbn [cz_x cz_y cz_z cz_t].
  rewrite ?ofZ_sub, ?ofZ_mul, ?ofZ_add, ?ofZ_sub, ?ofZ_mul, ?Hmul, ?ofZ_add, EX, EY.
  exact (dbl_alg d_ed (px P) (py P) (ofZ W) _ _ C S1 S2 NP NM NZ).
Qed.
Lemma cm_pr_rep : forall h P, cmz_rep h P -> prz_rep (cm_pr h) P.
Proof.
  intros [X Y W T] P (C & NZ & NT & EX & EY). unfold cm_pr, prz_rep. cbn [cz_x cz_y cz_z cz_t rz_x rz_y rz_z] in *. rewrite !Hmul, EX, EY.
  split; [exact C|]. split; [exact (fmul_neq _ _ NZ NT)|]. split; ring.
Qed.
(** An entry in projective coordinates with Z = 2. *)
Definition pc_pr (e : precomp) : prz := (let a := num (pc_ypx e) in let b := num (pc_ymx e) in mk_prz (a - b) (a + b) 2)%Z.
Lemma pc_pr_rep : forall e P, pc_rep e P -> prz_rep (pc_pr e) P.
Proof.
  intros e P (C & _ & A & B & _). unfold pc_pr, prz_rep. cbv zeta. cbn [rz_x rz_y rz_z]. rewrite ofZ_sub, ofZ_add, !Hnum, A, B.
  split; [exact C|]. split; [exact f2_neq_0|]. split; ring.
Qed.
Definition dbl5z (h : prz) : cmz := dblz (cm_pr (dblz (cm_pr (dblz (cm_pr (dblz (cm_pr (dblz h)))))))).
Lemma dbl5z_rep : forall h P k, on_curve P -> prz_rep h (zmul k P) -> cmz_rep (dbl5z h) (zmul (32 * k) P).
Proof.
  intros h P k C H. assert (D : forall z, padd (zmul z P) (zmul z P) = zmul (z + z) P) by (intros z; rewrite zmul_add by exact C; reflexivity).
  unfold dbl5z. pose proof (dblz_rep _ _ H) as R1. rewrite D in R1.
  pose proof (dblz_rep _ _ (cm_pr_rep _ _ R1)) as R2. rewrite D in R2. pose proof (dblz_rep _ _ (cm_pr_rep _ _ R2)) as R3. rewrite D in R3.
  pose proof (dblz_rep _ _ (cm_pr_rep _ _ R3)) as R4. rewrite D in R4. pose proof (dblz_rep _ _ (cm_pr_rep _ _ R4)) as R5. rewrite D in R5.
  clear - R5. set (z := (k + k + (k + k) + (k + k + (k + k)) + (k + k + (k + k) + (k + k + (k + k))))%Z) in *.
  assert (E : (32 * k = z + z)%Z) by (unfold z; ring). rewrite E. exact R5.
Qed.

(** The first entry of a row against a point in completed coordinates. *)
Definition first_ok (h : cmz) (a b c t : Z) : bool :=
  (isz (2 * cz_x h - mul (a - b) (cz_z h)) && isz (2 * cz_y h - mul (a + b) (cz_t h)) && isz (mul d_val t - 2 * c))%Z.
Lemma first_alg : forall d x y a b c X Y Z T : F, Z <> 0 -> T <> 0 -> X = x * Z -> Y = y * T ->
  ofZ 2 * X = (a - b) * Z -> ofZ 2 * Y = (a + b) * T -> ofZ 2 * c = d * ((a - b) * (a + b)) -> a = y + x /\ b = y - x /\ c = ofZ 2 * d * x * y.
Proof.
  intros d x y a b c X Y Z T NZ NT EX EY E1 E2 E3. assert (N2 : ofZ 2 <> 0) by exact f2_neq_0.
  assert (A : a - b = ofZ 2 * x). { apply (mul_cancel _ _ _ NZ). rewrite <- E1, EX. ring. }
  assert (B : a + b = ofZ 2 * y). { apply (mul_cancel _ _ _ NT). rewrite <- E2, EY. ring. }
  split; [|split].
  - apply (scale_cancel _ _ _ N2). transitivity (a + b + (a - b)); [ring|]. rewrite A, B. ring.
  - apply (scale_cancel _ _ _ N2). transitivity (a + b - (a - b)); [ring|]. rewrite A, B. ring.
  - apply (scale_cancel _ _ _ N2). rewrite E3, A, B. ring.
Qed.
Lemma first_ok_rep : forall h e P, cmz_rep h P -> tight3 e = true ->
  first_ok h (num (pc_ypx e)) (num (pc_ymx e)) (num (pc_xy2d e)) (four_xy (num (pc_ypx e)) (num (pc_ymx e))) = true -> pc_rep e P.
Proof.
  intros h e P (C & NZ & NT & EX & EY) T H. unfold first_ok in H. unfold four_xy in H.
  apply andb_prop in H. destruct H as [H H3]. apply andb_prop in H. destruct H as [H1 H2]. apply isz_eq in H1, H2, H3.
  rewrite ?ofZ_mul, ?Hmul, ?ofZ_sub, ?Hnum in H1. rewrite ?ofZ_mul, ?Hmul, ?ofZ_add, ?Hnum in H2. rewrite ?ofZ_mul, ?Hmul, ?ofZ_sub, ?ofZ_add, ?Hmul, ?ofZ_sub, ?ofZ_add, ?Hnum, ?d_val_ok in H3.
  split; [exact C|]. split; [exact (tight3_ok e T)|]. symmetry in H3.
  exact (first_alg d_ed (px P) (py P) _ _ _ _ _ _ _ NZ NT EX EY H1 H2 H3).
Qed.

Fixpoint chk_table (h : cmz) (rows : list (list precomp)) : bool :=
  match rows with
  | [] => true
  | (e1 :: rest) :: rows' =>
      let a := num (pc_ypx e1) in let b := num (pc_ymx e1) in let c := num (pc_xy2d e1) in let t := four_xy a b in
      tight3 e1 && first_ok h a b c t && chk_row a b c a b t rest && Nat.eqb (length rest) 7 && chk_table (dbl5z (pc_pr (last rest e1))) rows'
  | [] :: _ => false
  end.
Lemma chk_table_ok : forall rows h P, cmz_rep h P -> chk_table h rows = true -> table_rep P rows.
Proof.
  induction rows as [|row rows IH]; intros r P R H; cbn [chk_table table_rep] in *; [exact I|]. destruct row as [|e1 rest]; [discriminate|].
  assert (C : on_curve P) by exact (proj1 R). cbv zeta in H.
  apply andb_prop in H. destruct H as [H H5]. apply andb_prop in H. destruct H as [H H4]. apply andb_prop in H. destruct H as [H H3]. apply andb_prop in H. destruct H as [H1 H2].
  pose proof (first_ok_rep _ _ _ R H1 H2) as R1. apply Nat.eqb_eq in H4.
  assert (R1' : pc_rep e1 (zmul 1 P)) by (rewrite zmul_1; exact R1).
  destruct (chk_row_ok e1 P rest e1 1 C R1 R1' H3) as [A B]. rewrite H4 in B. change (1 + Z.of_nat 7)%Z with 8%Z in B.
  split; [cbn [length]; rewrite H4; reflexivity|]. split; [cbn [row_rep]; exact (conj R1' A)|].
  apply (IH (dbl5z (pc_pr (last rest e1)))); [|exact H5]. exact (dbl5z_rep _ _ 8 C (pc_pr_rep _ _ B)).
Qed.

(** Sums of table entries in extended coordinates. *)
Record exz : Type := mk_exz { xz_x : Z; xz_y : Z; xz_z : Z; xz_t : Z }.
Definition exz_rep (h : exz) (P : point) : Prop :=
  on_curve P /\ ofZ (xz_z h) <> 0 /\ ofZ (xz_x h) = px P * ofZ (xz_z h) /\ ofZ (xz_y h) = py P * ofZ (xz_z h) /\ ofZ (xz_t h) = px P * py P * ofZ (xz_z h).
Definition cm_ex (h : cmz) : exz := mk_exz (mul (cz_x h) (cz_t h)) (mul (cz_y h) (cz_z h)) (mul (cz_z h) (cz_t h)) (mul (cz_x h) (cz_y h)).
Lemma cm_ex_rep : forall h P, cmz_rep h P -> exz_rep (cm_ex h) P.
Proof.
  intros [X Y W T] P (C & NZ & NT & EX & EY). unfold cm_ex, exz_rep. cbn [cz_x cz_y cz_z cz_t xz_x xz_y xz_z xz_t] in *. rewrite !Hmul, EX, EY.
  split; [exact C|]. split; [exact (fmul_neq _ _ NZ NT)|]. split; [ring|]. split; ring.
Qed.
Definition ex_pr (h : exz) : prz := mk_prz (xz_x h) (xz_y h) (xz_z h).
Lemma ex_pr_rep : forall h P, exz_rep h P -> prz_rep (ex_pr h) P.
Proof. intros h P (C & NZ & EX & EY & _). exact (conj C (conj NZ (conj EX EY))). Qed.
Definition exz_zero : exz := mk_exz 0 1 1 0.
Lemma exz_zero_rep : exz_rep exz_zero pzero.
Proof.
  split; [exact pzero_on_curve|]. unfold exz_zero, pzero, px, py. cbn [xz_x xz_y xz_z xz_t fst snd]. change (ofZ 0) with f0. change (ofZ 1) with f1.
  split; [exact f1_neq_0|]. split; [ring|]. split; ring.
Qed.
Definition addz (h : exz) (a2 b2 c2 : Z) : cmz :=
  (let a := mul (xz_y h + xz_x h) a2 in let b := mul (xz_y h - xz_x h) b2 in let c := mul c2 (xz_t h) in let t := xz_z h + xz_z h in
   mk_cmz (a - b) (a + b) (t + c) (t - c))%Z.
Lemma addz_rep : forall h P Q a2 b2 c2, exz_rep h P -> on_curve Q -> ofZ a2 = py Q + px Q -> ofZ b2 = py Q - px Q -> ofZ c2 = ofZ 2 * d_ed * px Q * py Q ->
  cmz_rep (addz h a2 b2 c2) (padd P Q).
Proof.
  intros [X Y W T] P Q a2 b2 c2 (C & NZ & EX & EY & ET) D A B E. unfold addz. cbn [xz_x xz_y xz_z xz_t] in *. cbv zeta.
  destruct (padd_is_sum P Q C D) as [S1 S2]. pose proof (denom_plus P Q C D) as NP. pose proof (denom_minus P Q C D) as NM.
  split; [exact (padd_on_curve P Q C D)|]. cbn [cz_x cz_y cz_z cz_t].
  rewrite ?ofZ_sub, ?ofZ_add, ?Hmul, ?ofZ_sub, ?ofZ_add, EX, EY, ET, A, B, E.
  exact (add_alg d_ed (px P) (py P) (px Q) (py Q) (ofZ W) _ _ S1 S2 NP NM NZ f2_neq_0).
Qed.
Definition add_digit (h : exz) (row : list precomp) (k : Z) : exz :=
  match k with
  | Z0 => h
  | Zpos n => let e := nth (Nat.pred (Pos.to_nat n)) row pc_zero in cm_ex (addz h (num (pc_ypx e)) (num (pc_ymx e)) (num (pc_xy2d e)))
  | Zneg n => let e := nth (Nat.pred (Pos.to_nat n)) row pc_zero in cm_ex (addz h (num (pc_ymx e)) (num (pc_ypx e)) (- num (pc_xy2d e)))
  end.
Lemma row_nth : forall row P k i, row_rep P k row -> (i < length row)%nat -> pc_rep (nth i row pc_zero) (zmul (k + Z.of_nat i) P).
Proof.
  induction row as [|e row IH]; intros P k i H L; cbn [row_rep length nth] in *; [inversion L|]. destruct H as [H1 H2]. destruct i as [|i].
  - change (Z.of_nat 0) with 0%Z. rewrite Z.add_0_r. exact H1.
  - assert (E : (k + Z.of_nat (S i) = k + 1 + Z.of_nat i)%Z) by (clear; lia). rewrite E. apply IH; [exact H2|exact (proj2 (Nat.succ_lt_mono _ _) L)].
Qed.
Lemma row_pos : forall row P n, row_rep P 1 row -> length row = 8%nat -> (Zpos n <= 8)%Z -> pc_rep (nth (Nat.pred (Pos.to_nat n)) row pc_zero) (zmul (Zpos n) P).
Proof.
  intros row P n H L B. assert (E : Zpos n = (1 + Z.of_nat (Nat.pred (Pos.to_nat n)))%Z) by (clear; lia). rewrite E. apply row_nth; [exact H|]. rewrite L. clear - B. lia.
Qed.
Lemma add_digit_rep : forall h Q row P k, exz_rep h Q -> on_curve P -> row_rep P 1 row -> length row = 8%nat -> (-8 <= k <= 8)%Z -> exz_rep (add_digit h row k) (padd Q (zmul k P)).
Proof.
  intros h Q row P k R CP H L B. destruct k as [|n|n]; cbn [add_digit].
  - rewrite zmul_0, padd_zero_r. exact R.
  - pose proof (row_pos row P n H L (proj2 B)) as (C & _ & E1 & E2 & E3). cbv zeta. apply cm_ex_rep.
    apply addz_rep; [exact R|exact C|rewrite Hnum; exact E1|rewrite Hnum; exact E2|rewrite Hnum; exact E3].
  - assert (B' : (Zpos n <= 8)%Z) by (clear - B; lia). pose proof (row_pos row P n H L B') as (C & _ & E1 & E2 & E3). cbv zeta. apply cm_ex_rep.
    change (Z.neg n) with (- Z.pos n)%Z. rewrite zmul_opp. generalize dependent (zmul (Z.pos n) P). intros S C E1 E2 E3.
    apply addz_rep; [exact R|exact (popp_on_curve S C)| | |]; rewrite ?ofZ_opp, Hnum, ?E1, ?E2, ?E3; destruct S as [x y].
    + change (y - x = y + - x). ring.
    + change (y + x = y - - x). ring.
    + change (- (ofZ 2 * d_ed * x * y) = ofZ 2 * d_ed * - x * y). generalize d_ed. intros d. ring.
Qed.
Fixpoint addz_rows (h : exz) (rows : list (list precomp)) (ks : list Z) : exz :=
  match rows, ks with row :: rows', k :: ks' => addz_rows (add_digit h row k) rows' ks' | _, _ => h end.
Fixpoint digits_val (ks : list Z) : Z := match ks with [] => 0 | k :: r => (k + 256 * digits_val r)%Z end.
Lemma addz_rows_rep : forall ks rows h Q P, exz_rep h Q -> on_curve P -> on_curve Q -> table_rep P rows -> (length ks <= length rows)%nat ->
  forallb (fun k => (-8 <=? k) && (k <=? 8))%Z ks = true -> exz_rep (addz_rows h rows ks) (padd Q (zmul (digits_val ks) P)).
Proof.
  induction ks as [|k ks IH]; intros rows h Q P R CP CQ T L F; cbn [digits_val length forallb] in *.
  - rewrite zmul_0, padd_zero_r. destruct rows; exact R.
  - destruct rows as [|row rows]; [inversion L|]. cbn [addz_rows table_rep length] in *. destruct T as (L8 & RR & T). apply andb_prop in F. destruct F as [F1 F2].
    apply andb_prop in F1. destruct F1 as [F0 F1]. apply Z.leb_le in F0, F1.
    pose proof (add_digit_rep h Q row P k R CP RR L8 (conj F0 F1)) as R1.
    pose proof (zmul_on_curve k P CP) as CK. pose proof (padd_on_curve Q _ CQ CK) as C1. pose proof (zmul_on_curve 256 P CP) as C256.
    pose proof (IH rows _ _ _ R1 C256 C1 T (proj2 (Nat.succ_le_mono _ _) L) F2) as R2.
    rewrite (zmul_add _ _ P CP). rewrite (Z.mul_comm 256), (zmul_mul _ _ P CP). rewrite <- padd_assoc; [exact R2|exact CQ|exact CK|exact (zmul_on_curve _ _ C256)].
Qed.
Definition times16 (h : exz) : exz := cm_ex (dblz (cm_pr (dblz (cm_pr (dblz (cm_pr (dblz (ex_pr h)))))))).
Lemma times16_rep : forall h P k, on_curve P -> exz_rep h (zmul k P) -> exz_rep (times16 h) (zmul (16 * k) P).
Proof.
  intros h P k C H. assert (D : forall z, padd (zmul z P) (zmul z P) = zmul (z + z) P) by (intros z; rewrite zmul_add by exact C; reflexivity).
  unfold times16. pose proof (dblz_rep _ _ (ex_pr_rep _ _ H)) as R1. rewrite D in R1.
  pose proof (dblz_rep _ _ (cm_pr_rep _ _ R1)) as R2. rewrite D in R2. pose proof (dblz_rep _ _ (cm_pr_rep _ _ R2)) as R3. rewrite D in R3.
  pose proof (dblz_rep _ _ (cm_pr_rep _ _ R3)) as R4. rewrite D in R4. apply cm_ex_rep.
  clear - R4. set (z := (k + k + (k + k) + (k + k + (k + k)))%Z) in *. assert (E : (16 * k = z + z)%Z) by (unfold z; ring). rewrite E. exact R4.
Qed.
(** The multiple of the base point with radix-16 digits ks (even places) and js (odd places). *)
Definition mult_rows (rows : list (list precomp)) (ks js : list Z) : exz := addz_rows (times16 (addz_rows exz_zero rows js)) rows ks.
Lemma mult_rows_rep : forall rows ks js P, on_curve P -> table_rep P rows -> (length ks <= length rows)%nat -> (length js <= length rows)%nat ->
  forallb (fun k => (-8 <=? k) && (k <=? 8))%Z ks = true -> forallb (fun k => (-8 <=? k) && (k <=? 8))%Z js = true ->
  exz_rep (mult_rows rows ks js) (zmul (16 * digits_val js + digits_val ks) P).
Proof.
  intros rows ks js P C T L1 L2 F1 F2. unfold mult_rows. pose proof (addz_rows_rep js rows exz_zero pzero P exz_zero_rep C pzero_on_curve T L2 F2) as R.
  rewrite padd_zero_l in R. apply (times16_rep _ _ _ C) in R. pose proof (addz_rows_rep ks rows _ _ P R C (zmul_on_curve _ _ C) T L1 F1) as R2.
  rewrite (zmul_add _ _ P C). exact R2.
Qed.
Definition neutralz (h : exz) : bool := isz (xz_x h) && isz (xz_y h - xz_z h).
Lemma neutralz_ok : forall h P, exz_rep h P -> neutralz h = true -> P = pzero.
Proof.
  intros h [x y] (C & NZ & EX & EY & _) H. clear C. unfold neutralz in H. apply andb_prop in H. destruct H as [H1 H2]. apply Hisz in H1. apply isz_eq in H2.
  unfold px, py in *. cbn [fst snd] in *. rewrite H1 in EX. rewrite H2 in EY. unfold pzero. apply (f_equal2 pair).
  - apply (mul_cancel _ _ _ NZ). rewrite <- EX. ring.
  - apply (mul_cancel _ _ _ NZ). rewrite <- EY. ring.
Qed.
End Check.

(** * The table *)
Definition base_cmz : cmz := mk_cmz 15112221349535400772501151409588531511454012693041857206046113283949847762202 4 1 5.
Lemma base_on_curve : on_curve base_point.
Proof.
  unfold base_point. rewrite <- base_y_ok. unfold on_curve, px, py. cbn [fst snd]. rewrite <- d_val_ok. change f1 with (ofZ 1). rewrite <- ?ofZ_mul, <- ?ofZ_add, <- ?ofZ_sub.
  apply ofZ_eq. vm_compute. reflexivity.
Qed.
Lemma f5_neq_0 : ofZ 5 <> 0.
Proof. apply small_neq_0. split; reflexivity. Qed.
Lemma base_cmz_rep : cmz_rep base_cmz base_point.
Proof.
  split; [exact base_on_curve|]. unfold base_cmz. cbn [cz_x cz_y cz_z cz_t].
  split; [exact f1_neq_0|]. split; [exact f5_neq_0|]. unfold base_point, px, py. cbn [fst snd]. split.
  - change (ofZ 1) with f1. ring.
  - field. exact f5_neq_0.
Qed.
Lemma base_table_checked : chk_table mulp is0p fe_red base_cmz base_table = true.
Proof. vm_compute. reflexivity. Qed.
Lemma base_table_rep : table_rep base_point base_table.
Proof. exact (chk_table_ok mulp is0p fe_red ofZ_mulp ofZ_is0p fe_red_ok base_table base_cmz base_point base_cmz_rep base_table_checked). Qed.
Lemma base_table_length : length base_table = 32%nat.
Proof. reflexivity. Qed.
