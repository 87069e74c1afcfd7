(** EdwardsMult.v: GeScalarMultBase computes the multiple of the base point. *)
From Verif Require Import Base Field25519 FieldSpec FieldProofs FieldProofs2 FieldProofs3 FieldProofs4 FieldPrime Fp CurveSpec CurveGroup EdBase Edwards EdwardsProofs EdwardsProofs2 EdwardsTable.
From Coq Require Import ZArith NArith List Lia Bool Ring Field.
Import ListNotations.
Local Open Scope Z_scope.

(** * selectPoint *)
Lemma pc_cmove_0 : forall t u, pc_cmove t u 0 = t.
Proof. intros [t1 t2 t3] u. unfold pc_cmove. cbn [pc_ypx pc_ymx pc_xy2d]. rewrite !(proj1 (fe_cmove_spec _ _)). reflexivity. Qed.
Lemma pc_cmove_1 : forall t u, pc_cmove t u 1 = u.
Proof. intros t [u1 u2 u3]. unfold pc_cmove. cbn [pc_ypx pc_ymx pc_xy2d]. rewrite !(proj2 (fe_cmove_spec _ _)). reflexivity. Qed.

Lemma pc_zero_rep : pc_rep pc_zero pzero.
Proof.
  split; [exact pzero_on_curve|]. pose proof zero_tight. pose proof one_tight. unfold pc_zero, pzero, px, py. cbn [pc_ypx pc_ymx pc_xy2d fst snd].
  rewrite fv_one, fv_zero. split; [tauto|]. split; [ring|]. split; ring.
Qed.
Lemma pc_neg_rep : forall e P, pc_rep e P -> pc_rep (mk_pc (pc_ymx e) (pc_ypx e) (fe_neg (pc_xy2d e))) (popp P).
Proof.
  intros e P (C & (B1 & B2 & B3) & E1 & E2 & E3). split; [apply popp_on_curve, C|]. cbn [pc_ypx pc_ymx pc_xy2d].
  destruct (fv_neg 101 _ B3 ltac:(lia)) as [V L]. split; [exact (conj B2 (conj B1 L))|]. rewrite V, E1, E2, E3. unfold popp, px, py. cbn [fst snd].
  split; [ring|]. split; ring.
Qed.

Ltac eval_select :=
  repeat match goal with
  | |- context [go_equal ?a ?b] => let v := eval vm_compute in (go_equal a b) in change (go_equal a b) with v
  | |- context [go_negative ?a] => let v := eval vm_compute in (go_negative a) in change (go_negative a) with v
  end.
Lemma digit_cases : forall b, -8 <= b <= 8 -> b = -8 \/ b = -7 \/ b = -6 \/ b = -5 \/ b = -4 \/ b = -3 \/ b = -2 \/ b = -1 \/ b = 0 \/
    b = 1 \/ b = 2 \/ b = 3 \/ b = 4 \/ b = 5 \/ b = 6 \/ b = 7 \/ b = 8.
Proof. intros b H. lia. Qed.
Lemma select_point_rep : forall P row b, row_rep P 1 row -> length row = 8%nat -> -8 <= b <= 8 -> pc_rep (select_point row b) (zmul b P).
Proof.
  intros P row b R L B. do 8 (destruct row as [|? row]; [discriminate|]). destruct row; [|discriminate]. clear L. cbn [row_rep] in R.
  destruct R as (R1 & R2 & R3 & R4 & R5 & R6 & R7 & R8 & _). cbn [Z.add Pos.add Pos.succ] in *.
  assert (N : forall k e, pc_rep e (zmul k P) -> pc_rep (mk_pc (pc_ymx e) (pc_ypx e) (fe_neg (pc_xy2d e))) (zmul (- k) P)).
  { intros k e H. rewrite zmul_opp. apply pc_neg_rep, H. }
  assert (Z0 : pc_rep pc_zero (zmul 0 P)) by exact pc_zero_rep.
  pose proof (digit_cases b B) as C. clear B.
  unfold select_point.
  repeat (destruct C as [-> | C]); [..|subst b]; cbv zeta;
    lazymatch goal with |- context [select_loop _ _ 0 ?x] => let v := eval vm_compute in x in change x with v end;
    cbn [select_loop Z.add Pos.add Pos.succ]; eval_select; rewrite ?pc_cmove_0, ?pc_cmove_1.
  - exact (N 8 _ R8).
  - exact (N 7 _ R7).
  - exact (N 6 _ R6).
  - exact (N 5 _ R5).
  - exact (N 4 _ R4).
  - exact (N 3 _ R3).
  - exact (N 2 _ R2).
  - exact (N 1 _ R1).
  - exact Z0.
  - exact R1.
  - exact R2.
  - exact R3.
  - exact R4.
  - exact R5.
  - exact R6.
  - exact R7.
  - exact R8.
Qed.

(** * Digits *)
Fixpoint dval (base : Z) (l : list Z) : Z := match l with [] => 0 | d :: r => d + base * dval base r end.
Definition nib (d : Z) : Prop := 0 <= d < 16.
Definition dig (d : Z) : Prop := -8 <= d <= 8.

Lemma nibbles_val : forall l, dval 16 (nibbles l) = le_val l.
Proof.
  induction l as [|b l IH]; [reflexivity|]. cbn [nibbles dval le_val]. rewrite IH. pose proof (zb_range b).
  rewrite (Z.mod_small (zb b / 16)) by (split; [apply Z.div_pos; lia|apply Z.div_lt_upper_bound; lia]).
  pose proof (Z.div_mod (zb b) 16 ltac:(lia)). lia.
Qed.
Lemma nibbles_nib : forall l, Forall nib (nibbles l).
Proof.
  induction l as [|b l IH]; cbn [nibbles]; [constructor|].
  constructor; [apply Z.mod_pos_bound; lia|]. constructor; [apply Z.mod_pos_bound; lia|exact IH].
Qed.
Lemma nibbles_length : forall l, length (nibbles l) = (2 * length l)%nat.
Proof. induction l as [|b l IH]; cbn [nibbles length]; [reflexivity|]. rewrite IH. lia. Qed.
Lemma nibbles_snoc : forall l b, nibbles (l ++ [b]) = nibbles l ++ [zb b mod 16; (zb b / 16) mod 16].
Proof. induction l as [|a l IH]; intros b; [reflexivity|]. cbn [app nibbles]. rewrite IH. reflexivity. Qed.

Lemma recode_length : forall l c, length (recode c l) = length l.
Proof. induction l as [|d l IH]; intros c; [reflexivity|]. destruct l as [|d' l]; [reflexivity|].
  change (S (length (recode (shr (i8 (i8 (d + c) + 8)) 4) (d' :: l))) = S (length (d' :: l))). rewrite IH. reflexivity. Qed.
Lemma i8_small : forall z, -128 <= z < 128 -> i8 z = z.
Proof. intros z H. unfold i8. rewrite Z.mod_small by lia. lia. Qed.
Lemma carry_cases : forall e, 0 <= e <= 16 -> exists c, shr (i8 (e + 8)) 4 = c /\ (c = 0 \/ c = 1) /\ -8 <= e - 16 * c <= 8.
Proof.
  intros e H. rewrite i8_small by lia. exists ((e + 8) / 16). split; [reflexivity|].
  pose proof (Z.div_mod (e + 8) 16 ltac:(lia)). pose proof (Z.mod_pos_bound (e + 8) 16 ltac:(lia)). lia.
Qed.
(** The recoding keeps the number and leaves digits between -8 and 8, when the leading nibble is below 8. *)
Lemma recode_ok : forall l c, (c = 0 \/ c = 1) -> Forall nib l -> (l <> [] -> last l 0 < 8) -> (l = [] -> c = 0) ->
  dval 16 (recode c l) = c + dval 16 l /\ Forall dig (recode c l).
Proof.
  induction l as [|d l IH]; intros c HC HN HL HE.
  - rewrite (HE eq_refl). split; [reflexivity|constructor].
  - inversion HN as [|? ? N1 N2]; subst. unfold nib in N1. destruct l as [|d' l].
    + cbn [recode dval]. specialize (HL ltac:(discriminate)). cbn [last] in HL. rewrite i8_small by lia. split; [lia|]. constructor; [unfold dig; lia|constructor].
    + change (recode c (d :: d' :: l)) with (let e1 := i8 (d + c) in let c' := shr (i8 (e1 + 8)) 4 in i8 (e1 - i8 (c' * 16)) :: recode c' (d' :: l)). cbv zeta.
      rewrite (i8_small (d + c)) by lia. destruct (carry_cases (d + c) ltac:(lia)) as (c' & -> & C' & B).
      rewrite (i8_small (c' * 16)) by lia. rewrite (i8_small (d + c - c' * 16)) by lia.
      destruct (IH c' C' N2) as [V D]; [intros _; apply HL; discriminate|discriminate|].
      change (dval 16 (?a :: ?r)) with (a + 16 * dval 16 r). rewrite V. split; [change (dval 16 (d :: d' :: l)) with (d + 16 * dval 16 (d' :: l)); ring|].
      constructor; [unfold dig; lia|exact D].
Qed.
Lemma odds_evens : forall n l, length l = (2 * n)%nat -> dval 16 l = dval 256 (evens l) + 16 * dval 256 (odds l) /\ length (odds l) = n /\ length (evens l) = n.
Proof.
  induction n as [|n IH]; intros l L; [destruct l; [repeat split|discriminate]|].
  destruct l as [|a [|b l]]; [discriminate|cbn in L; lia|]. cbn [dval odds evens length] in *. destruct (IH l ltac:(lia)) as (V & A & B). rewrite V, A, B. repeat split. ring.
Qed.
Lemma forall_odds : forall n (Q : Z -> Prop) l, length l = (2 * n)%nat -> Forall Q l -> Forall Q (odds l) /\ Forall Q (evens l).
Proof.
  induction n as [|n IH]; intros Q l L H; [destruct l; [split; constructor|discriminate]|].
  destruct l as [|a [|b l]]; [discriminate|cbn in L; lia|]. inversion H as [|? ? H1 H2]; subst. inversion H2 as [|? ? H3 H4]; subst. cbn [odds evens length] in *.
  destruct (IH Q l ltac:(lia) H4) as [A B]. split; constructor; assumption.
Qed.

(** * The addition loops *)
Local Opaque padd popp.
Lemma add_rows_rep : forall rows es h P0 P, on_curve P -> ext_rep h P0 -> table_rep P rows -> length es = length rows -> Forall dig es ->
  ext_rep (add_rows h rows es) (padd P0 (zmul (dval 256 es) P)).
Proof.
  induction rows as [|row rows IH]; intros es h P0 P C R T L D; (destruct es as [|e es]; [try discriminate L|try discriminate L]); cbn [add_rows dval].
  - rewrite zmul_0, padd_zero_r. exact R.
  - inversion D as [|? ? D1 D2]; subst. destruct T as (TL & TR & TT). cbn [length] in L. injection L as L.
    pose proof (comp_to_ext_rep _ _ (mixed_add_rep _ _ _ _ R (select_point_rep P row e TR TL D1))) as R1.
    pose proof (IH es _ _ _ (zmul_on_curve 256 P C) R1 TT L D2) as R2. unfold add_step. clear IH R1 D1 D2 TL TR TT D.
    assert (E : padd (padd P0 (zmul e P)) (zmul (dval 256 es) (zmul 256 P)) = padd P0 (zmul (e + 256 * dval 256 es) P)).
    { rewrite (padd_assoc P0 (zmul e P) _ (proj1 R) (zmul_on_curve e P C) (zmul_on_curve _ _ (zmul_on_curve 256 P C))). apply (f_equal (padd P0)).
      rewrite (zmul_add _ _ P C). apply (f_equal (padd (zmul e P))). rewrite <- (zmul_mul _ _ P C). apply (f_equal (fun k => zmul k P)). ring. }
    rewrite <- E. exact R2.
Qed.

Lemma last_byte_range : forall (a : arr32), le_val (abytes a) < 2 ^ 255 -> last (nibbles (abytes a)) 0 < 8.
Proof.
  intros a. destruct (arr32_snoc a) as (l & b & E & L). rewrite E, le_val_snoc, L, nibbles_snoc. intros H.
  pose proof (le_val_bound l). pose proof (zb_range b). change (256 ^ Z.of_nat 31) with (2 ^ 248) in H.
  assert (B : zb b < 128) by lia.
  replace (nibbles l ++ [zb b mod 16; (zb b / 16) mod 16]) with ((nibbles l ++ [zb b mod 16]) ++ [(zb b / 16) mod 16]) by (rewrite <- app_assoc; reflexivity).
  rewrite last_last. assert (Q : 0 <= zb b / 16 < 8) by (split; [apply Z.div_pos; lia|apply Z.div_lt_upper_bound; lia]). rewrite Z.mod_small by lia. lia.
Qed.

Lemma scalar_mult_base_rep : forall a : arr32, le_val (abytes a) < 2 ^ 255 -> ext_rep (scalar_mult_base a) (zmul (le_val (abytes a)) base_point).
Proof.
  intros a H. pose proof (last_byte_range a H) as HL. pose proof (nibbles_length (abytes a)) as NL. rewrite arr_length in NL.
  pose proof (nibbles_val (abytes a)) as NV. pose proof (nibbles_nib (abytes a)) as NN.
  destruct (recode_ok (nibbles (abytes a)) 0 (or_introl eq_refl) NN (fun _ => HL) (fun _ => eq_refl)) as [V D].
  assert (RL : length (recode 0 (nibbles (abytes a))) = (2 * 32)%nat) by (rewrite recode_length; exact NL).
  unfold scalar_mult_base. cbv zeta. rewrite NV in V. generalize dependent (recode 0 (nibbles (abytes a))). intros e V D RL. clear NV NN NL HL.
  destruct (odds_evens 32 e RL) as (W & LO & LE). destruct (forall_odds 32 dig e RL D) as [DO DE].
  pose proof base_on_curve as C. pose proof base_table_rep as T. pose proof base_table_length as TL.
  generalize dependent base_point. intros B C T. generalize dependent base_table. intros tab TL T.
  pose proof (add_rows_rep tab (odds e) ext_zero pzero B C ext_zero_rep T ltac:(rewrite TL; exact LO) DO) as R. rewrite padd_zero_l in R.
  assert (DD : forall z, padd (zmul z B) (zmul z B) = zmul (z + z) B) by (intros z; rewrite zmul_add by exact C; reflexivity).
  unfold ext_double. pose proof (proj_double_rep _ _ (ext_to_proj_rep _ _ R)) as R1. rewrite DD in R1.
  pose proof (proj_double_rep _ _ (comp_to_proj_rep _ _ R1)) as R2. rewrite DD in R2. pose proof (proj_double_rep _ _ (comp_to_proj_rep _ _ R2)) as R3. rewrite DD in R3.
  pose proof (comp_to_ext_rep _ _ (proj_double_rep _ _ (comp_to_proj_rep _ _ R3))) as R4. rewrite DD in R4.
  pose proof (add_rows_rep tab (evens e) _ _ B C R4 T ltac:(rewrite TL; exact LE) DE) as R5. clear R R1 R2 R3 R4.
  assert (E : padd (zmul (dval 256 (odds e) + dval 256 (odds e) + (dval 256 (odds e) + dval 256 (odds e)) + (dval 256 (odds e) + dval 256 (odds e) + (dval 256 (odds e) + dval 256 (odds e)))
     + (dval 256 (odds e) + dval 256 (odds e) + (dval 256 (odds e) + dval 256 (odds e)) + (dval 256 (odds e) + dval 256 (odds e) + (dval 256 (odds e) + dval 256 (odds e))))) B) (zmul (dval 256 (evens e)) B)
     = zmul (le_val (abytes a)) B).
  { rewrite <- zmul_add by exact C. apply (f_equal (fun k => zmul k B)). rewrite Z.add_0_l in V. rewrite <- V, W. ring. }
  rewrite <- E. exact R5.
Qed.
