(** CurveGroup.v: the points of the curve of Ed25519 form a commutative group, and multiples of a point behave as they
    should. Mathematics only. *)
From Verif Require Import FieldSpec FastZ Fermat Fp CurveSpec CurveProofs.
From Coq Require Import ZArith NArith Lia List Ring Field.
Local Open Scope F_scope.

(** A square root of -1, and d is not a square. *)
Definition sqrt_m1 : F := ofZ 19681161376707505956807079304988542015446066515923890162744021073123829784752.
Lemma sqrt_m1_ok : sqrt_m1 * sqrt_m1 = - (1).
Proof. apply F_eq. vm_compute. reflexivity. Qed.
Definition d_val : Z := 37095705934669439343138083508754565189542113879843219016388785533085940283555.
Lemma d_val_ok : ofZ d_val = d_ed.
Proof.
  apply fdiv_eq; [apply small_neq_0; split; reflexivity|]. rewrite <- ofZ_mul, <- ofZ_opp. apply ofZ_eq. unfold eqp. vm_compute. reflexivity.
Qed.
Lemma d_not_square : forall s : F, s * s <> d_ed.
Proof. rewrite <- d_val_ok. eapply not_square; [vm_compute; reflexivity|vm_compute; reflexivity|split; reflexivity]. Qed.
Definition base_y_val : Z := 46316835694926478169428394003475163141307993866256225615783033603165251855960.
Lemma base_y_ok : ofZ base_y_val = ofZ 4 / ofZ 5.
Proof. apply fdiv_eq; [apply small_neq_0; split; reflexivity|]. rewrite <- ofZ_mul. apply ofZ_eq. unfold eqp. vm_compute. reflexivity. Qed.
Lemma two_neq_0 : 1 + 1 <> 0.
Proof. intros E. apply (f_equal fz) in E. vm_compute in E. discriminate. Qed.
Lemma d_neq_0 : d_ed <> 0.
Proof. intros E. apply (d_not_square 0). rewrite E. ring. Qed.

Lemma denom_plus : forall P Q, on_curve P -> on_curve Q -> 1 + d_ed * px P * px Q * py P * py Q <> 0.
Proof. exact (CurveProofs.denom_plus F f0 f1 fadd fmul fsub fopp fdiv finv F_field F_dec two_neq_0 sqrt_m1 d_ed sqrt_m1_ok d_not_square). Qed.
Lemma denom_minus : forall P Q, on_curve P -> on_curve Q -> 1 - d_ed * px P * px Q * py P * py Q <> 0.
Proof. exact (CurveProofs.denom_minus F f0 f1 fadd fmul fsub fopp fdiv finv F_field F_dec two_neq_0 sqrt_m1 d_ed sqrt_m1_ok d_not_square). Qed.
Lemma padd_on_curve : forall P Q, on_curve P -> on_curve Q -> on_curve (padd P Q).
Proof. exact (CurveProofs.padd_on_curve F f0 f1 fadd fmul fsub fopp fdiv finv F_field F_dec two_neq_0 sqrt_m1 d_ed sqrt_m1_ok d_not_square). Qed.
Lemma padd_assoc : forall P Q R, on_curve P -> on_curve Q -> on_curve R -> padd (padd P Q) R = padd P (padd Q R).
Proof. exact (CurveProofs.padd_assoc F f0 f1 fadd fmul fsub fopp fdiv finv F_field F_dec two_neq_0 sqrt_m1 d_ed sqrt_m1_ok d_not_square). Qed.
Lemma padd_comm : forall P Q, padd P Q = padd Q P.
Proof. exact (CurveProofs.padd_comm F f0 f1 fadd fmul fsub fopp fdiv finv F_field d_ed). Qed.
Lemma padd_zero_r : forall P, padd P pzero = P.
Proof. exact (CurveProofs.padd_zero_r F f0 f1 fadd fmul fsub fopp fdiv finv F_field d_ed). Qed.
Lemma padd_zero_l : forall P, padd pzero P = P.
Proof. intros P. rewrite padd_comm. apply padd_zero_r. Qed.
Lemma pzero_on_curve : on_curve pzero.
Proof. exact (CurveProofs.pzero_on_curve F f0 f1 fadd fmul fsub fopp fdiv finv F_field d_ed). Qed.
Lemma popp_on_curve : forall P, on_curve P -> on_curve (popp P).
Proof. exact (CurveProofs.popp_on_curve F f0 f1 fadd fmul fsub fopp fdiv finv F_field d_ed). Qed.
Lemma padd_opp : forall P, on_curve P -> padd P (popp P) = pzero.
Proof. exact (CurveProofs.padd_opp F f0 f1 fadd fmul fsub fopp fdiv finv F_field F_dec two_neq_0 sqrt_m1 d_ed sqrt_m1_ok d_not_square). Qed.
(** The sum by its defining equations, without division. *)
Definition is_sum (P Q R : point) : Prop :=
  px R * (1 + d_ed * px P * px Q * py P * py Q) = px P * py Q + py P * px Q /\
  py R * (1 - d_ed * px P * px Q * py P * py Q) = py P * py Q + px P * px Q.
Lemma is_sum_padd : forall P Q R, on_curve P -> on_curve Q -> is_sum P Q R -> R = padd P Q.
Proof. exact (CurveProofs.is_sum_padd F f0 f1 fadd fmul fsub fopp fdiv finv F_field F_dec two_neq_0 sqrt_m1 d_ed sqrt_m1_ok d_not_square). Qed.
Lemma padd_is_sum : forall P Q, on_curve P -> on_curve Q -> is_sum P Q (padd P Q).
Proof. exact (CurveProofs.padd_is_sum F f0 f1 fadd fmul fsub fopp fdiv finv F_field F_dec two_neq_0 sqrt_m1 d_ed sqrt_m1_ok d_not_square). Qed.

(** * Multiples *)
Lemma smul_0 : forall P, smul 0 P = pzero.
Proof. reflexivity. Qed.
Lemma smul_succ : forall n P, smul (N.succ n) P = padd (smul n P) P.
Proof. intros n P. unfold smul. rewrite N.iter_succ. reflexivity. Qed.
Lemma smul_1 : forall P, smul 1 P = P.
Proof. intros P. change 1%N with (N.succ 0). rewrite smul_succ, smul_0. apply padd_zero_l. Qed.
Lemma smul_on_curve : forall n P, on_curve P -> on_curve (smul n P).
Proof. intros n P H. induction n as [|n IH] using N.peano_ind; [apply pzero_on_curve|]. rewrite smul_succ. apply padd_on_curve; assumption. Qed.
Lemma smul_add : forall m n P, on_curve P -> smul (m + n) P = padd (smul m P) (smul n P).
Proof.
  intros m n P H. induction n as [|n IH] using N.peano_ind; [rewrite N.add_0_r, smul_0, padd_zero_r; reflexivity|].
  rewrite N.add_succ_r, !smul_succ, IH. apply padd_assoc; try apply smul_on_curve; assumption.
Qed.
Lemma smul_zero : forall n, smul n pzero = pzero.
Proof. intros n. induction n as [|n IH] using N.peano_ind; [reflexivity|]. rewrite smul_succ, IH. apply padd_zero_r. Qed.
Lemma smul_mul : forall m n P, on_curve P -> smul (m * n) P = smul m (smul n P).
Proof.
  intros m n P H. induction m as [|m IH] using N.peano_ind; [reflexivity|].
  rewrite N.mul_succ_l, smul_succ, smul_add, IH by exact H. reflexivity.
Qed.
Lemma smul_2 : forall n P, on_curve P -> padd (smul n P) (smul n P) = smul (2 * n) P.
Proof. intros n P H. rewrite <- smul_add by exact H. apply (f_equal (fun k => smul k P)). lia. Qed.

Lemma popp_padd : forall P Q, on_curve P -> on_curve Q -> popp (padd P Q) = padd (popp P) (popp Q).
Proof.
  intros P Q HP HQ. apply is_sum_padd; try (apply popp_on_curve; assumption). destruct (padd_is_sum P Q HP HQ) as [A B]. generalize dependent (padd P Q). intros R A B.
  unfold is_sum, popp. cbn [px py fst snd]. unfold px, py in *. generalize dependent d_ed. intros d A B. split.
  - transitivity (- (fst R * (1 + d * fst P * fst Q * snd P * snd Q))); [ring|]. rewrite A. ring.
  - transitivity (snd R * (1 - d * fst P * fst Q * snd P * snd Q)); [ring|]. rewrite B. ring.
Qed.
Lemma popp_zero : popp pzero = pzero.
Proof. unfold popp, pzero. cbn [px py fst snd]. apply (f_equal2 pair); [ring|reflexivity]. Qed.
Lemma popp_popp : forall P, popp (popp P) = P.
Proof. intros [x y]. unfold popp. cbn [px py fst snd]. apply (f_equal2 pair); [ring|reflexivity]. Qed.
Local Opaque padd popp.
Lemma smul_popp : forall n P, on_curve P -> smul n (popp P) = popp (smul n P).
Proof.
  intros n P H. induction n as [|n IH] using N.peano_ind; [symmetry; apply popp_zero|].
  rewrite !smul_succ, IH, popp_padd by (try apply smul_on_curve; exact H). reflexivity.
Qed.

Lemma padd_cancel : forall P Q R, on_curve P -> on_curve Q -> on_curve R -> padd P Q = padd P R -> Q = R.
Proof.
  intros P Q R HP HQ HR E. rewrite <- (padd_zero_l Q), <- (padd_zero_l R). rewrite <- (padd_opp P HP), (padd_comm P (popp P)).
  pose proof (popp_on_curve P HP). rewrite !padd_assoc by assumption. rewrite E. reflexivity.
Qed.
Lemma padd_move : forall P Q R, on_curve P -> on_curve Q -> padd P Q = R -> P = padd R (popp Q).
Proof. intros P Q R HP HQ <-. rewrite padd_assoc, padd_opp, padd_zero_r by (try apply popp_on_curve; assumption). reflexivity. Qed.

Lemma padd_shuffle : forall A B C D, on_curve A -> on_curve B -> on_curve C -> on_curve D -> padd (padd A B) (padd C D) = padd (padd A C) (padd B D).
Proof.
  intros A B C D HA HB HC HD. rewrite (padd_assoc A B) by (try apply padd_on_curve; assumption). rewrite (padd_assoc A C) by (try apply padd_on_curve; assumption).
  apply (f_equal (padd A)). rewrite <- (padd_assoc B C D), <- (padd_assoc C B D) by assumption. apply (f_equal (fun X => padd X D)). apply padd_comm.
Qed.

(** Integer multiples. *)
Lemma zmul_of_N : forall n P, zmul (Z.of_N n) P = smul n P.
Proof. intros [|p] P; reflexivity. Qed.
Lemma zmul_nonneg : forall z P, (0 <= z)%Z -> zmul z P = smul (Z.to_N z) P.
Proof. intros [|p|p] P H; [reflexivity|reflexivity|lia]. Qed.
Lemma zmul_opp : forall z P, zmul (- z) P = popp (zmul z P).
Proof. intros [|p|p] P; cbn [Z.opp zmul]; [symmetry; apply popp_zero|reflexivity|]. rewrite popp_popp. reflexivity. Qed.
Lemma zmul_on_curve : forall z P, on_curve P -> on_curve (zmul z P).
Proof. intros [|p|p] P H; cbn [zmul]; try apply popp_on_curve; apply smul_on_curve; exact H. Qed.
Lemma zmul_sub_N : forall m n P, on_curve P -> zmul (Z.of_N m - Z.of_N n) P = padd (smul m P) (popp (smul n P)).
Proof.
  intros m n P H. destruct (N.le_gt_cases n m) as [L|L].
  - replace (Z.of_N m - Z.of_N n)%Z with (Z.of_N (m - n)) by lia. rewrite zmul_of_N. apply padd_move; [apply smul_on_curve, H|apply smul_on_curve, H|].
    rewrite <- smul_add by exact H. apply (f_equal (fun k => smul k P)). lia.
  - replace (Z.of_N m - Z.of_N n)%Z with (- Z.of_N (n - m))%Z by lia. rewrite zmul_opp, zmul_of_N.
    rewrite <- (popp_popp (smul m P)). rewrite <- popp_padd by (try apply popp_on_curve; apply smul_on_curve, H). apply (f_equal popp).
    rewrite padd_comm. apply padd_move; [apply smul_on_curve, H|apply smul_on_curve, H|]. rewrite <- smul_add by exact H. apply (f_equal (fun k => smul k P)). lia.
Qed.
Lemma z_split : forall z, exists m n, z = (Z.of_N m - Z.of_N n)%Z.
Proof. intros z. exists (Z.to_N z), (Z.to_N (- z)). lia. Qed.
Lemma zmul_add : forall a b P, on_curve P -> zmul (a + b) P = padd (zmul a P) (zmul b P).
Proof.
  intros a b P H. destruct (z_split a) as (m & n & ->). destruct (z_split b) as (k & l & ->).
  replace (Z.of_N m - Z.of_N n + (Z.of_N k - Z.of_N l))%Z with (Z.of_N (m + k) - Z.of_N (n + l))%Z by lia.
  rewrite !zmul_sub_N, !smul_add by exact H. rewrite popp_padd by (apply smul_on_curve, H).
  apply padd_shuffle; try apply popp_on_curve; apply smul_on_curve, H.
Qed.
Lemma zmul_sub : forall a b P, on_curve P -> zmul (a - b) P = padd (zmul a P) (popp (zmul b P)).
Proof. intros a b P H. rewrite <- zmul_opp, <- zmul_add by exact H. reflexivity. Qed.
Lemma zmul_0 : forall P, zmul 0 P = pzero.
Proof. reflexivity. Qed.
Lemma zmul_1 : forall P, zmul 1 P = P.
Proof. intros P. apply (smul_1 P). Qed.
Lemma zmul_mul : forall a b P, on_curve P -> zmul (a * b) P = zmul a (zmul b P).
Proof.
  intros a b P H. assert (HB := zmul_on_curve b P H). revert a. apply Z.peano_ind; [reflexivity| |].
  - intros a IH. replace (Z.succ a * b)%Z with (a * b + b)%Z by ring. unfold Z.succ. rewrite !zmul_add, IH, zmul_1 by assumption. reflexivity.
  - intros a IH. replace (Z.pred a * b)%Z with (a * b - b)%Z by (unfold Z.pred; ring). unfold Z.pred. change (a + -1)%Z with (a - 1)%Z. rewrite !zmul_sub, IH, zmul_1 by assumption. reflexivity.
Qed.
Lemma zmul_pzero : forall z, zmul z pzero = pzero.
Proof. intros [|p|p]; cbn [zmul]; rewrite ?smul_zero, ?popp_zero; reflexivity. Qed.

(** * Decoding is unambiguous *)
Lemma same_y : forall P Q, on_curve P -> on_curve Q -> py P = py Q -> px P = px Q \/ px P = - px Q.
Proof.
  intros [x y] [x' y'] HP HQ E. cbn [px py fst snd] in *. subst y'. unfold on_curve in *. cbn [px py fst snd] in *.
  apply fsquare_eq. pose proof d_not_square as ND. pose proof sqrt_m1_ok as HI. pose proof d_neq_0 as D0. generalize dependent d_ed. intros d HP HQ ND D0.
  generalize dependent sqrt_m1. intros i HI.
  assert (N : 1 + d * (y * y) <> 0).
  { intros Z. destruct (F_dec y 0) as [Y0|Y0].
    - apply f1_neq_0. rewrite <- Z, Y0. ring.
    - apply (ND (i / y)). transitivity (i * i / (y * y)); [field; exact Y0|]. rewrite HI. transitivity ((- (1) + (1 + d * (y * y)) - d * (y * y)) / (y * y) + d); [rewrite Z; field; exact Y0|].
      transitivity ((- (1) + 0 - d * (y * y)) / (y * y) + d); [rewrite Z; reflexivity|].
      transitivity ((- (1 + d * (y * y))) / (y * y) + d); [field; exact Y0|]. rewrite Z. field. exact Y0. }
  assert (E : (x * x - x' * x') * (1 + d * (y * y)) = 0).
  { transitivity ((y * y - x' * x' - (1 + d * (x' * x' * (y * y)))) - (y * y - x * x - (1 + d * (x * x * (y * y))))); [ring|]. rewrite HP, HQ. ring. }
  apply fmul_zero in E. destruct E as [E|E]; [apply fsub_zero, E|destruct (N E)].
Qed.

Lemma opp_parity : forall x : F, x <> 0 -> (fz (fopp x) mod 2 <> fz x mod 2)%Z.
Proof.
  intros x H. pose proof (fz_range x) as R. assert (N : fz x <> 0%Z) by (intros E; apply H; apply F_eq; exact E).
  assert (E : fz (- x) = (p25519 - fz x)%Z).
  { cbn [fopp ofZ fz]. symmetry. apply Z.mod_unique with (q := (-1)%Z); [left; lia|lia]. }
  rewrite E. unfold p25519. assert (D := Z.div_mod (fz x) 2 ltac:(lia)). assert (B := Z.mod_pos_bound (fz x) 2 ltac:(lia)).
  assert (D2 := Z.div_mod (2 ^ 255 - 19 - fz x) 2 ltac:(lia)). assert (B2 := Z.mod_pos_bound (2 ^ 255 - 19 - fz x) 2 ltac:(lia)). lia.
Qed.

Lemma decodes_unique : forall s P Q, decodes s P -> decodes s Q -> P = Q.
Proof.
  intros s P Q (HP & YP & SP) (HQ & YQ & SQ). assert (E : py P = py Q) by (rewrite YP, YQ; reflexivity).
  assert (X : px P = px Q).
  { destruct (same_y P Q HP HQ E) as [X|X]; [exact X|]. destruct (F_dec (px Q) 0) as [Z|Z].
    - rewrite X, Z. ring.
    - assert (N : px P <> 0) by (intros Z'; apply Z; rewrite Z' in X; transitivity (- (- px Q)); [ring|rewrite <- X; ring]).
      exfalso. destruct SP as [SP|SP]; [exact (N SP)|]. destruct SQ as [SQ|SQ]; [exact (Z SQ)|]. apply (opp_parity _ Z). rewrite <- X, SP, SQ. reflexivity. }
  apply injective_projections; [exact X|exact E].
Qed.
