(** ScalarProofs.v: ScReduce and ScMulAdd. The straight-line programs are checked by an interval analysis, proved sound
    once, whose verdict on the concrete programs is computed by the kernel. *)
From Verif Require Import Base Field25519 FieldSpec FieldProofs FieldProofs2 FieldProofs3 FieldProofs4 Scalar25519 ScalarSpec.
From Coq Require Import ZArith Znumtheory Lia List.
Import ListNotations.
Local Open Scope list_scope.
Local Open Scope Z_scope.

(** The number a list of 21-bit limbs stands for. *)
Fixpoint sval (s : list Z) : Z := match s with [] => 0 | x :: r => x + 2 ^ 21 * sval r end.
Definition wt (i : nat) : Z := (2 ^ 21) ^ Z.of_nat i.

Lemma wt_S : forall i, wt (S i) = 2 ^ 21 * wt i.
Proof. intros i. unfold wt. rewrite Nat2Z.inj_succ, Z.pow_succ_r by lia. reflexivity. Qed.
Lemma wt_add : forall i j, wt (i + j) = wt i * wt j.
Proof. intros i j. unfold wt. rewrite Nat2Z.inj_add, Z.pow_add_r by lia. reflexivity. Qed.
Lemma wt_pos : forall i, 0 < wt i.
Proof. intros i. unfold wt. apply Z.pow_pos_nonneg; lia. Qed.

Lemma set_length : forall i x s, length (set_limb i x s) = length s.
Proof. induction i as [|i IH]; intros x [|y s]; cbn [set_limb length]; try reflexivity. rewrite IH. reflexivity. Qed.
Lemma set_sval : forall i x s, (i < length s)%nat -> sval (set_limb i x s) = sval s + wt i * (x - limb i s).
Proof.
  induction i as [|i IH]; intros x [|y s] H; cbn [set_limb sval length] in *; try lia.
  - unfold wt, limb. cbn [nth Z.of_nat]. rewrite Z.pow_0_r. ring.
  - rewrite IH by lia. rewrite wt_S. unfold limb. cbn [nth]. ring.
Qed.
Lemma limb_set_ne : forall i j x s, i <> j -> limb i (set_limb j x s) = limb i s.
Proof. unfold limb. induction i as [|i IH]; intros [|j] x [|y s] H; cbn [set_limb nth]; try reflexivity; try (exfalso; lia). apply IH. lia. Qed.
Lemma limb_set_eq : forall i x s, (i < length s)%nat -> limb i (set_limb i x s) = x.
Proof. unfold limb. induction i as [|i IH]; intros x [|y s] H; cbn [set_limb nth length] in *; try lia; apply IH; lia. Qed.

Lemma some_eq : forall {A} (x y : A), Some x = Some y -> y = x.
Proof. intros A x y H. injection H as ->. reflexivity. Qed.

(** * Intervals *)
Definition itv : Type := (Z * Z)%type.
Definition inside (s : list Z) (iv : list itv) : Prop := Forall2 (fun x p => fst p <= x <= snd p) s iv.
Definition iget (i : nat) (iv : list itv) : itv := nth i iv (0, 0).
Fixpoint iset (i : nat) (p : itv) (iv : list itv) : list itv :=
  match iv, i with [], _ => [] | _ :: r, O => p :: r | q :: r, S i' => q :: iset i' p r end.
Definition ok64 (p : itv) : bool := (- 2 ^ 63 <=? fst p) && (snd p <? 2 ^ 63).
Definition iscale (k : Z) (p : itv) : itv := if 0 <=? k then (k * fst p, k * snd p) else (k * snd p, k * fst p).

Lemma inside_get : forall s iv i, inside s iv -> fst (iget i iv) <= limb i s <= snd (iget i iv).
Proof.
  intros s iv i H. revert i. induction H as [|x p s iv H H' IH]; intros [|i]; unfold iget, limb in *; cbn [nth fst snd]; try lia; try apply IH.
Qed.
Lemma inside_set : forall s iv i x p, inside s iv -> fst p <= x <= snd p -> inside (set_limb i x s) (iset i p iv).
Proof.
  intros s iv i x p H Hx. revert i. induction H as [|y q s iv H H' IH]; intros [|i]; cbn [set_limb iset]; constructor; auto. apply IH.
Qed.
Lemma inside_length : forall s iv, inside s iv -> length s = length iv.
Proof. intros s iv H. induction H; cbn [length]; congruence. Qed.
Lemma ok64_id : forall z p, ok64 p = true -> fst p <= z <= snd p -> i64 z = z.
Proof. intros z p H Hz. apply andb_prop in H. destruct H as [A B]. apply Z.leb_le in A. apply Z.ltb_lt in B. apply i64_id. lia. Qed.
Lemma iscale_in : forall k p x, fst p <= x <= snd p -> fst (iscale k p) <= k * x <= snd (iscale k p).
Proof.
  intros k [lo hi] x H. unfold iscale. cbn [fst snd] in *. destruct (0 <=? k) eqn:E; cbn [fst snd].
  - apply Z.leb_le in E. nia.
  - apply Z.leb_gt in E. nia.
Qed.

(** Bounds of the value. *)
Lemma inside_sval : forall s iv, inside s iv -> sval (map fst iv) <= sval s <= sval (map snd iv).
Proof. intros s iv H. induction H as [|x p s iv H H' IH]; cbn [map sval]; [lia|]. lia. Qed.

(** * The abstract step *)
Definition icarry (r : Z) (i : nat) (iv : list itv) : option (list itv) :=
  let p := iget i iv in
  let q := (fst p + r, snd p + r) in
  let c := (fst q / 2 ^ 21, snd q / 2 ^ 21) in
  let n := (fst (iget (S i) iv) + fst c, snd (iget (S i) iv) + snd c) in
  let m := iscale (2 ^ 21) c in
  if ok64 q && ok64 n && ok64 m && ok64 (- r, 2 ^ 21 - 1 - r) && (S i <? length iv)%nat
  then Some (iset i (- r, 2 ^ 21 - 1 - r) (iset (S i) n iv)) else None.

(** limb j gets k * limb i; the code multiplies by |k| and adds or subtracts. *)
Definition iaddk (i j : nat) (k : Z) (iv : list itv) : option (list itv) :=
  let x := iget i iv in
  let m := iscale k x in
  let n := (fst (iget j iv) + fst m, snd (iget j iv) + snd m) in
  if ok64 (iscale (Z.abs k) x) && ok64 n && negb (i =? j)%nat && (j <? length iv)%nat && (i <? length iv)%nat
  then Some (iset j n iv) else None.

Definition obind {A B} (o : option A) (f : A -> option B) : option B := match o with Some x => f x | None => None end.
Definition istep (o : sc_op) (iv : list itv) : option (list itv) :=
  match o with
  | Rnd i => icarry (2 ^ 20) i iv
  | Flr i => icarry 0 i iv
  | Fold i =>
      if (12 <=? i)%nat then
        obind (iaddk i (i - 12) 666643 iv) (fun iv =>
        obind (iaddk i (i - 11) 470296 iv) (fun iv =>
        obind (iaddk i (i - 10) 654183 iv) (fun iv =>
        obind (iaddk i (i - 9) (- 997805) iv) (fun iv =>
        obind (iaddk i (i - 8) 136657 iv) (fun iv =>
        obind (iaddk i (i - 7) (- 683901) iv) (fun iv => Some (iset i (0, 0) iv)))))))
      else None
  end.
Definition irun (ops : list sc_op) (iv : list itv) : option (list itv) :=
  fold_left (fun o op => obind o (istep op)) ops (Some iv).

Lemma carry_sound : forall r i iv iv' s c, icarry r i iv = Some iv' -> inside s iv -> c = (limb i s + r) / 2 ^ 21 ->
  i64 (limb i s + r) = limb i s + r /\ inside (carry_out c i s) iv' /\ sval (carry_out c i s) = sval s.
Proof.
  intros r i iv iv' s c H HI EC. unfold icarry in H. cbv zeta in H. destruct (_ && _) eqn:G in H; [|discriminate]. apply some_eq in H. subst iv'.
  apply andb_prop in G. destruct G as [G G4]. apply andb_prop in G. destruct G as [G G3']. apply andb_prop in G. destruct G as [G G3]. apply andb_prop in G. destruct G as [G1 G2].
  apply Nat.ltb_lt in G4. rewrite <- (inside_length _ _ HI) in G4.
  pose proof (inside_get s iv i HI) as P. pose proof (inside_get s iv (S i) HI) as N.
  set (p := iget i iv) in *. set (n := iget (S i) iv) in *.
  assert (Q : i64 (limb i s + r) = limb i s + r) by (apply (ok64_id _ _ G1); cbn [fst snd]; lia).
  assert (Cb : (fst p + r) / 2 ^ 21 <= c <= (snd p + r) / 2 ^ 21) by (rewrite EC; split; apply Z.div_le_mono; lia).
  assert (R : 0 <= limb i s + r - 2 ^ 21 * c < 2 ^ 21).
  { rewrite EC. pose proof (Z.div_mod (limb i s + r) (2 ^ 21) ltac:(lia)). pose proof (Z.mod_pos_bound (limb i s + r) (2 ^ 21) ltac:(lia)). lia. }
  unfold carry_out, add_limb, sub_limb, add64, sub64, shl64.
  assert (A : i64 (limb (S i) s + c) = limb (S i) s + c) by (apply (ok64_id _ _ G2); cbn [fst snd]; lia).
  assert (M : i64 (c * 2 ^ 21) = c * 2 ^ 21). { rewrite Z.mul_comm. apply (ok64_id _ _ G3). apply iscale_in. cbn [fst snd]. exact Cb. }
  rewrite A, M. rewrite limb_set_ne by lia.
  assert (D : i64 (limb i s - c * 2 ^ 21) = limb i s - c * 2 ^ 21) by (apply (ok64_id _ _ G3'); cbn [fst snd]; lia).
  rewrite D. split; [exact Q|split].
  - apply inside_set; [apply inside_set; [exact HI|]|]; cbn [fst snd]; lia.
  - rewrite set_sval by (rewrite set_length; lia). rewrite limb_set_ne by lia. rewrite set_sval by lia. rewrite wt_S. ring.
Qed.

Lemma addk_sound : forall i j k iv iv' s x s', iaddk i j k iv = Some iv' -> inside s iv -> x = limb i s ->
  s' = set_limb j (if 0 <=? k then add64 (limb j s) (mul64 x k) else sub64 (limb j s) (mul64 x (- k))) s ->
  inside s' iv' /\ sval s' = sval s + wt j * (k * x) /\ limb i s' = x.
Proof.
  intros i j k iv iv' s x s' H HI EX ES. unfold iaddk in H. cbv zeta in H. destruct (_ && _) eqn:G in H; [|discriminate]. apply some_eq in H. subst iv'.
  apply andb_prop in G. destruct G as [G G5]. apply andb_prop in G. destruct G as [G G4]. apply andb_prop in G. destruct G as [G G3]. apply andb_prop in G. destruct G as [G1 G2].
  apply Nat.ltb_lt in G4, G5. rewrite <- (inside_length _ _ HI) in G4, G5. apply negb_true_iff, Nat.eqb_neq in G3.
  pose proof (inside_get s iv i HI) as P. pose proof (inside_get s iv j HI) as N. rewrite <- EX in P.
  pose proof (iscale_in k _ _ P) as K.
  assert (A : i64 (Z.abs k * x) = Z.abs k * x) by (apply (ok64_id _ _ G1); apply iscale_in; exact P).
  assert (V : (if 0 <=? k then add64 (limb j s) (mul64 x k) else sub64 (limb j s) (mul64 x (- k))) = limb j s + k * x).
  { destruct (0 <=? k) eqn:E; unfold add64, sub64, mul64.
    - apply Z.leb_le in E. rewrite Z.abs_eq in A by lia. rewrite (Z.mul_comm x). rewrite A. apply (ok64_id _ _ G2). cbn [fst snd]. lia.
    - apply Z.leb_gt in E. rewrite Z.abs_neq in A by lia. rewrite (Z.mul_comm x). rewrite A. replace (limb j s - - k * x) with (limb j s + k * x) by ring.
      apply (ok64_id _ _ G2). cbn [fst snd]. lia. }
  rewrite V in ES. subst s'. split; [|split].
  - apply inside_set; [exact HI|]. cbn [fst snd]. lia.
  - rewrite set_sval by lia. ring.
  - rewrite limb_set_ne by lia. symmetry. exact EX.
Qed.

(** The multiple of the order removed by a step. *)
Definition removed (o : sc_op) (s : list Z) : Z := match o with Fold i => limb i s * wt (i - 12) | _ => 0 end.

Lemma obind_some : forall {A B} (o : option A) (f : A -> option B) y, obind o f = Some y -> exists x, o = Some x /\ f x = Some y.
Proof. intros A B [x|] f y H; [exists x; auto|discriminate]. Qed.

Lemma step_sound : forall o iv iv' s, istep o iv = Some iv' -> inside s iv ->
  inside (sc_step o s) iv' /\ sval (sc_step o s) = sval s - removed o s * order_l.
Proof.
  intros [i|i|i] iv iv' s H HI; cbn [istep sc_step removed] in *.
  - destruct (carry_sound _ _ _ _ s ((limb i s + 2 ^ 20) / 2 ^ 21) H HI eq_refl) as (Q & I & V). unfold add64. rewrite Q. split; [exact I|]. unfold shr. rewrite V. ring.
  - destruct (carry_sound _ _ _ _ s ((limb i s + 0) / 2 ^ 21) H HI eq_refl) as (_ & I & V). rewrite Z.add_0_r in I, V. split; [exact I|]. unfold shr. rewrite V. ring.
  - destruct (12 <=? i)%nat eqn:E; [|discriminate]. apply Nat.leb_le in E.
    apply obind_some in H. destruct H as (v1 & H1 & H). apply obind_some in H. destruct H as (v2 & H2 & H). apply obind_some in H. destruct H as (v3 & H3 & H).
    apply obind_some in H. destruct H as (v4 & H4 & H). apply obind_some in H. destruct H as (v5 & H5 & H). apply obind_some in H. destruct H as (v6 & H6 & H).
    apply some_eq in H. subst iv'. unfold fold_limb, add_limb, sub_limb. cbv zeta. remember (limb i s) as x eqn:EX.
    destruct (addk_sound _ _ _ _ _ s x _ H1 HI EX eq_refl) as (I1 & S1 & X1). cbn [Z.leb] in *. set (s1 := set_limb (i - 12) _ _) in *. symmetry in X1.
    destruct (addk_sound _ _ _ _ _ s1 x _ H2 I1 X1 eq_refl) as (I2 & S2 & X2). set (s2 := set_limb (i - 11) _ _) in *. symmetry in X2.
    destruct (addk_sound _ _ _ _ _ s2 x _ H3 I2 X2 eq_refl) as (I3 & S3 & X3). set (s3 := set_limb (i - 10) _ _) in *. symmetry in X3.
    destruct (addk_sound _ _ _ _ _ s3 x _ H4 I3 X3 eq_refl) as (I4 & S4 & X4). set (s4 := set_limb (i - 9) _ _) in *. symmetry in X4.
    destruct (addk_sound _ _ _ _ _ s4 x _ H5 I4 X4 eq_refl) as (I5 & S5 & X5). set (s5 := set_limb (i - 8) _ _) in *. symmetry in X5.
    destruct (addk_sound _ _ _ _ _ s5 x _ H6 I5 X5 eq_refl) as (I6 & S6 & X6). set (s6 := set_limb (i - 7) _ _) in *. symmetry in X6.
    assert (L : (i < length s6)%nat).
    { unfold iaddk in H6. cbv zeta in H6. destruct (_ && _) eqn:G in H6; [|discriminate]. apply andb_prop in G. destruct G as [_ G]. apply Nat.ltb_lt in G.
      unfold s6. rewrite set_length, (inside_length _ _ I5). exact G. }
    change (if 0 <=? 666643 then ?a else ?b) with a in *.
    split.
    + apply (inside_set s6 v6 i 0 (0, 0)); [exact I6|cbn; lia].
    + change (sval (set_limb i 0 s6) = sval s - x * wt (i - 12) * order_l). rewrite set_sval by exact L. rewrite <- X6, S6, S5, S4, S3, S2, S1.
      assert (W : forall m, (m <= 12)%nat -> wt (i - m) = wt (i - 12) * wt (12 - m)) by (intros m Hm; rewrite <- wt_add; f_equal; lia).
      rewrite (W 11%nat), (W 10%nat), (W 9%nat), (W 8%nat), (W 7%nat) by lia. replace (wt i) with (wt (i - 12) * wt 12) by (rewrite <- wt_add; f_equal; lia).
      unfold order_l. change (wt (12 - 11)) with (2 ^ 21). change (wt (12 - 10)) with (2 ^ 42). change (wt (12 - 9)) with (2 ^ 63). change (wt (12 - 8)) with (2 ^ 84).
      change (wt (12 - 7)) with (2 ^ 105). change (wt 12) with (2 ^ 252). ring.
Qed.

Lemma irun_app : forall a b iv iv1 iv2, irun a iv = Some iv1 -> irun b iv1 = Some iv2 -> irun (a ++ b) iv = Some iv2.
Proof. intros a b iv iv1 iv2 H1 H2. unfold irun in *. rewrite fold_left_app, H1. exact H2. Qed.

Lemma fold_none : forall ops, fold_left (fun o op => obind o (istep op)) ops None = None.
Proof. induction ops as [|o ops IH]; [reflexivity|exact IH]. Qed.

Lemma run_sound : forall ops iv iv' s, irun ops iv = Some iv' -> inside s iv ->
  inside (sc_run ops s) iv' /\ exists k, sval (sc_run ops s) = sval s + k * order_l.
Proof.
  unfold irun, sc_run. induction ops as [|o ops IH]; intros iv iv' s H HI; cbn [fold_left] in *.
  - injection H as <-. split; [exact HI|]. exists 0. ring.
  - cbn [obind] in H. destruct (istep o iv) as [iv1|] eqn:E; [|rewrite fold_none in H; discriminate].
    destruct (step_sound o iv iv1 s E HI) as [I V]. destruct (IH iv1 iv' _ H I) as [I' [k V']]. split; [exact I'|]. exists (k - removed o s). rewrite V', V. ring.
Qed.
(** Carries only: the value is unchanged. *)
Lemma run_exact : forall ops iv iv' s, irun ops iv = Some iv' -> inside s iv -> forallb (fun o => match o with Fold _ => false | _ => true end) ops = true ->
  inside (sc_run ops s) iv' /\ sval (sc_run ops s) = sval s.
Proof.
  unfold irun, sc_run. induction ops as [|o ops IH]; intros iv iv' s H HI HF; cbn [fold_left forallb] in *.
  - injection H as <-. split; [exact HI|reflexivity].
  - apply andb_prop in HF. destruct HF as [F HF]. cbn [obind] in H. destruct (istep o iv) as [iv1|] eqn:E; [|rewrite fold_none in H; discriminate].
    destruct (step_sound o iv iv1 s E HI) as [I V]. destruct (IH iv1 iv' _ H I HF) as [I' V']. split; [exact I'|]. rewrite V', V.
    destruct o; [cbn [removed]; ring|cbn [removed]; ring|discriminate].
Qed.
