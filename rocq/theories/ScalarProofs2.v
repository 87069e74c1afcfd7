(** ScalarProofs2.v: loading, packing, and the two functions. *)
From Verif Require Import Base Field25519 FieldSpec FieldProofs FieldProofs2 FieldProofs3 FieldProofs4 Scalar25519 ScalarSpec ScalarProofs.
From Coq Require Import ZArith Znumtheory Lia List.
Import ListNotations.
Local Open Scope list_scope.
Local Open Scope Z_scope.

(** * Loading *)
Lemma le_val_skipn : forall n l, le_val (skipn n l) = le_val l / 256 ^ Z.of_nat n.
Proof.
  induction n as [|n IH]; intros l.
  - cbn [skipn Z.of_nat]. rewrite Z.pow_0_r, Z.div_1_r. reflexivity.
  - rewrite Nat2Z.inj_succ, Z.pow_succ_r by lia. destruct l as [|b l]; cbn [skipn le_val].
    + rewrite Z.div_0_l; [reflexivity|]. assert (0 < 256 ^ Z.of_nat n) by (apply Z.pow_pos_nonneg; lia). lia.
    + rewrite IH. rewrite <- Z.div_div by (try lia; apply Z.pow_pos_nonneg; lia). f_equal. pose proof (zb_range b).
      rewrite Z.add_comm, Z.mul_comm, Z.div_add_l by lia. rewrite (Z.div_small (zb b)) by lia. lia.
Qed.
Lemma load3_le : forall l, (3 <= length l)%nat -> load3 l = le_val l mod 2 ^ 24.
Proof.
  intros [|a [|b [|c l]]] H; cbn [length] in H; try lia. rewrite load3_val. cbn [le_val]. pose proof (zb_range a). pose proof (zb_range b). pose proof (zb_range c).
  apply Z.mod_unique with (q := le_val l); lia.
Qed.
Lemma load4_le : forall l, (4 <= length l)%nat -> load4 l = le_val l mod 2 ^ 32.
Proof.
  intros [|a [|b [|c [|d l]]]] H; cbn [length] in H; try lia. rewrite load4_val. cbn [le_val]. pose proof (zb_range a). pose proof (zb_range b). pose proof (zb_range c).
  pose proof (zb_range d). apply Z.mod_unique with (q := le_val l); lia.
Qed.

(** Bits [k, k+21) of a number. *)
Definition digit (v : Z) (i : nat) : Z := (v / wt i) mod 2 ^ 21.

Lemma mod_div_mod : forall x a n m, 0 <= n -> 0 <= m -> n + m <= a -> ((x mod 2 ^ a) / 2 ^ n) mod 2 ^ m = (x / 2 ^ n) mod 2 ^ m.
Proof.
  intros x a n m Hn Hm Ha. apply Z.bits_inj'. intros k Hk. destruct (Z.lt_ge_cases k m) as [L|L].
  - rewrite !Z.mod_pow2_bits_low by lia. rewrite !Z.div_pow2_bits by lia. rewrite Z.mod_pow2_bits_low by lia. reflexivity.
  - rewrite !Z.mod_pow2_bits_high by lia. reflexivity.
Qed.
Lemma pow256 : forall n, 256 ^ Z.of_nat n = 2 ^ (8 * Z.of_nat n).
Proof. intros n. change 256 with (2 ^ 8). rewrite <- Z.pow_mul_r by lia. reflexivity. Qed.
Lemma wt_pow : forall i, wt i = 2 ^ (21 * Z.of_nat i).
Proof. intros i. unfold wt. rewrite <- Z.pow_mul_r by lia. reflexivity. Qed.

Lemma l3_digit : forall l off n i, (off + 3 <= length l)%nat -> (0 <=? n) && (n <=? 3) && (8 * Z.of_nat off + n =? 21 * Z.of_nat i) = true ->
  l3 l off n = digit (le_val l) i.
Proof.
  intros l off n i H C. apply andb_prop in C. destruct C as [C C3]. apply andb_prop in C. destruct C as [C1 C2]. apply Z.leb_le in C1, C2. apply Z.eqb_eq in C3.
  unfold l3, digit. change 2097151 with (Z.ones 21). rewrite Z.land_comm, Z.land_ones by lia. unfold shr. rewrite load3_le by (rewrite skipn_length; lia).
  rewrite mod_div_mod by lia. rewrite le_val_skipn, pow256. rewrite Z.div_div by (try (apply Z.pow_nonzero; lia); apply Z.pow_pos_nonneg; lia).
  rewrite <- Z.pow_add_r by lia. rewrite wt_pow, C3. reflexivity.
Qed.
Lemma l4_digit : forall l off n i, (off + 4 <= length l)%nat -> (0 <=? n) && (n <=? 11) && (8 * Z.of_nat off + n =? 21 * Z.of_nat i) = true ->
  l4 l off n = digit (le_val l) i.
Proof.
  intros l off n i H C. apply andb_prop in C. destruct C as [C C3]. apply andb_prop in C. destruct C as [C1 C2]. apply Z.leb_le in C1, C2. apply Z.eqb_eq in C3.
  unfold l4, digit. change 2097151 with (Z.ones 21). rewrite Z.land_comm, Z.land_ones by lia. unfold shr. rewrite load4_le by (rewrite skipn_length; lia).
  rewrite mod_div_mod by lia. rewrite le_val_skipn, pow256. rewrite Z.div_div by (try (apply Z.pow_nonzero; lia); apply Z.pow_pos_nonneg; lia).
  rewrite <- Z.pow_add_r by lia. rewrite wt_pow, C3. reflexivity.
Qed.
(** The last limb keeps all the remaining bits. *)
Lemma last_digit : forall l off n i, length l = (off + 4)%nat -> (0 <=? n) && (8 * Z.of_nat off + n =? 21 * Z.of_nat i) = true ->
  shr (load4 (skipn off l)) n = le_val l / wt i.
Proof.
  intros l off n i H C. apply andb_prop in C. destruct C as [C1 C3]. apply Z.leb_le in C1. apply Z.eqb_eq in C3. unfold shr.
  rewrite load4_le by (rewrite skipn_length; lia). rewrite Z.mod_small.
  - rewrite le_val_skipn, pow256. rewrite Z.div_div by (try (apply Z.pow_nonzero; lia); apply Z.pow_pos_nonneg; lia). rewrite <- Z.pow_add_r by lia. rewrite wt_pow, C3. reflexivity.
  - pose proof (le_val_bound (skipn off l)) as B. rewrite skipn_length, H in B. replace (off + 4 - off)%nat with 4%nat in B by lia. exact B.
Qed.

(** A number is the sum of its digits. *)
Lemma digits_sum : forall n v i, sval (map (digit v) (seq i n) ++ [v / wt (i + n)]) = v / wt i.
Proof.
  induction n as [|n IH]; intros v i; cbn [seq map app sval].
  - rewrite Nat.add_0_r. ring.
  - replace (i + S n)%nat with (S i + n)%nat by lia. rewrite IH. unfold digit. rewrite wt_S, (Z.mul_comm (2 ^ 21) (wt i)).
    rewrite <- Z.div_div by (pose proof (wt_pos i); lia). pose proof (Z.div_mod (v / wt i) (2 ^ 21) ltac:(lia)). lia.
Qed.

Lemma sc_load_digits : forall a, sc_load a = map (digit (le_val (abytes a))) (seq 0 11) ++ [le_val (abytes a) / wt 11].
Proof.
  intros a. pose proof (arr_length 32 a) as L. unfold sc_load. cbv zeta. cbn [seq map app].
  rewrite (l3_digit _ 0 0 0), (l4_digit _ 2 5 1), (l3_digit _ 5 2 2), (l4_digit _ 7 7 3), (l4_digit _ 10 4 4), (l3_digit _ 13 1 5), (l4_digit _ 15 6 6),
    (l3_digit _ 18 3 7), (l3_digit _ 21 0 8), (l4_digit _ 23 5 9), (l3_digit _ 26 2 10), (last_digit _ 28 7 11); try (rewrite L; clear; lia); try reflexivity.
Qed.
Lemma sc_load64_digits : forall a, sc_load64 a = map (digit (le_val (abytes a))) (seq 0 23) ++ [le_val (abytes a) / wt 23].
Proof.
  intros a. pose proof (arr_length 64 a) as L. unfold sc_load64. cbv zeta. cbn [seq map app].
  rewrite (l3_digit _ 0 0 0), (l4_digit _ 2 5 1), (l3_digit _ 5 2 2), (l4_digit _ 7 7 3), (l4_digit _ 10 4 4), (l3_digit _ 13 1 5), (l4_digit _ 15 6 6),
    (l3_digit _ 18 3 7), (l3_digit _ 21 0 8), (l4_digit _ 23 5 9), (l3_digit _ 26 2 10), (l4_digit _ 28 7 11), (l4_digit _ 31 4 12), (l3_digit _ 34 1 13),
    (l4_digit _ 36 6 14), (l3_digit _ 39 3 15), (l3_digit _ 42 0 16), (l4_digit _ 44 5 17), (l3_digit _ 47 2 18), (l4_digit _ 49 7 19), (l4_digit _ 52 4 20),
    (l3_digit _ 55 1 21), (l4_digit _ 57 6 22), (last_digit _ 60 3 23); try (rewrite L; clear; lia); try reflexivity.
Qed.
Lemma sval_load : forall a, sval (sc_load a) = le_val (abytes a).
Proof. intros a. rewrite sc_load_digits. change 11%nat with (0 + 11)%nat at 2. rewrite digits_sum. unfold wt. cbn [Z.of_nat]. rewrite Z.pow_0_r. apply Z.div_1_r. Qed.
Lemma sval_load64 : forall a, sval (sc_load64 a) = le_val (abytes a).
Proof. intros a. rewrite sc_load64_digits. change 23%nat with (0 + 23)%nat at 2. rewrite digits_sum. unfold wt. cbn [Z.of_nat]. rewrite Z.pow_0_r. apply Z.div_1_r. Qed.

Definition d21 : itv := (0, 2 ^ 21 - 1).
Lemma digit_range : forall v i, 0 <= digit v i <= 2 ^ 21 - 1.
Proof. intros v i. unfold digit. pose proof (Z.mod_pos_bound (v / wt i) (2 ^ 21) ltac:(lia)). lia. Qed.
Lemma digits_inside : forall n v i top hi, 0 <= top <= hi -> inside (map (digit v) (seq i n) ++ [top]) (repeat d21 n ++ [(0, hi)]).
Proof.
  induction n as [|n IH]; intros v i top hi H; cbn [seq map app repeat]; constructor; try (constructor; fail); cbn [fst snd d21]; try exact H.
  - apply digit_range.
  - apply IH. exact H.
Qed.
Definition iv_32 : list itv := repeat d21 11 ++ [(0, 2 ^ 25 - 1)].
Definition iv_64 : list itv := repeat d21 23 ++ [(0, 2 ^ 29 - 1)].
Lemma load_inside : forall a, inside (sc_load a) iv_32.
Proof.
  intros a. rewrite sc_load_digits. apply digits_inside. pose proof (le_val_bound (abytes a)) as B. rewrite arr_length in B. change (256 ^ Z.of_nat 32) with (wt 11 * 2 ^ 25) in B.
  pose proof (wt_pos 11). split; [apply Z.div_pos; lia|]. assert (le_val (abytes a) / wt 11 < 2 ^ 25) by (apply Z.div_lt_upper_bound; lia). lia.
Qed.
Lemma load64_inside : forall a, inside (sc_load64 a) iv_64.
Proof.
  intros a. rewrite sc_load64_digits. apply digits_inside. pose proof (le_val_bound (abytes a)) as B. rewrite arr_length in B. change (256 ^ Z.of_nat 64) with (wt 23 * 2 ^ 29) in B.
  pose proof (wt_pos 23). split; [apply Z.div_pos; lia|]. assert (le_val (abytes a) / wt 23 < 2 ^ 29) by (apply Z.div_lt_upper_bound; lia). lia.
Qed.

(** * Packing *)
Lemma or_byte64 : forall a b n m, 0 <= a < 2 ^ (n + m) -> (0 <=? n) && (0 <=? m) && (m <=? 8) = true ->
  zb (zbyte (Z.lor (shr a n) (shl64 b m))) = a / 2 ^ n + 2 ^ m * (b mod 2 ^ (8 - m)).
Proof.
  intros a b n m Ha C. apply andb_prop in C. destruct C as [C C3]. apply andb_prop in C. destruct C as [C1 C2]. apply Z.leb_le in C1, C2, C3.
  assert (P1 : 0 < 2 ^ n) by (apply Z.pow_pos_nonneg; lia). assert (P2 : 0 < 2 ^ m) by (apply Z.pow_pos_nonneg; lia).
  assert (P3 : 0 < 2 ^ (8 - m)) by (apply Z.pow_pos_nonneg; lia). assert (P4 : 2 ^ m * 2 ^ (8 - m) = 256) by (rewrite <- Z.pow_add_r by lia; replace (m + (8 - m)) with 8 by lia; reflexivity).
  rewrite zb_zbyte. unfold shr. assert (A : 0 <= a / 2 ^ n < 2 ^ m).
  { split; [apply Z.div_pos; lia|]. apply Z.div_lt_upper_bound; [lia|]. rewrite <- Z.pow_add_r by lia. lia. }
  assert (S : shl64 b m mod 256 = (b mod 2 ^ (8 - m)) * 2 ^ m).
  { unfold shl64, i64. assert (E := Z.div_mod (b * 2 ^ m + 2 ^ 63) (2 ^ 64) ltac:(lia)).
    set (k := (b * 2 ^ m + 2 ^ 63) / 2 ^ 64) in *. replace ((b * 2 ^ m + 2 ^ 63) mod 2 ^ 64 - 2 ^ 63) with (b * 2 ^ m + (- k * 2 ^ 56) * 256) by lia.
    rewrite Z.mod_add by lia. rewrite <- P4. rewrite (Z.mul_comm b), Z.mul_mod_distr_l by lia. lia. }
  change 256 with (2 ^ 8) at 1. rewrite <- Z.land_ones by lia. rewrite Z.land_lor_distr_l, !Z.land_ones by lia. change (2 ^ 8) with 256.
  rewrite S. rewrite (Z.mod_small (a / 2 ^ n)) by nia. rewrite lor_disjoint by lia. ring.
Qed.
Lemma split_byte : forall b k, (0 <=? k) = true -> b / 2 ^ k = (b / 2 ^ k) mod 256 + 256 * (b / 2 ^ (k + 8)).
Proof.
  intros b k C. apply Z.leb_le in C. assert (P1 : 0 < 2 ^ k) by (apply Z.pow_pos_nonneg; lia). rewrite Z.pow_add_r by lia. rewrite <- Z.div_div by lia. change (2 ^ 8) with 256.
  pose proof (Z.div_mod (b / 2 ^ k) 256 ltac:(lia)). lia.
Qed.
Lemma split_low : forall b k, (0 <=? k) = true -> b = b mod 2 ^ k + 2 ^ k * (b / 2 ^ k).
Proof. intros b k C. apply Z.leb_le in C. assert (P1 : 0 < 2 ^ k) by (apply Z.pow_pos_nonneg; lia). pose proof (Z.div_mod b (2 ^ k) ltac:(lia)). lia. Qed.

Definition packable (s : list Z) : Prop := (forall i, (i <= 10)%nat -> 0 <= limb i s < 2 ^ 21) /\ 0 <= limb 11 s < 2 ^ 25.
Definition low12 (s : list Z) : Z := sval (map (fun i => limb i s) (seq 0 12)).

Lemma sc_pack_val : forall s, packable s -> le_val (sc_pack s) = low12 s.
Proof.
  intros s [F FT]. unfold sc_pack, low12. cbv zeta. cbn [le_val seq map sval].
  pose proof (F 0%nat ltac:(lia)) as F0. pose proof (F 1%nat ltac:(lia)) as F1. pose proof (F 2%nat ltac:(lia)) as F2. pose proof (F 3%nat ltac:(lia)) as F3.
  pose proof (F 4%nat ltac:(lia)) as F4. pose proof (F 5%nat ltac:(lia)) as F5. pose proof (F 6%nat ltac:(lia)) as F6. pose proof (F 7%nat ltac:(lia)) as F7.
  pose proof (F 8%nat ltac:(lia)) as F8. pose proof (F 9%nat ltac:(lia)) as F9. pose proof (F 10%nat ltac:(lia)) as F10. clear F.
  set (h0 := limb 0 s) in *. set (h1 := limb 1 s) in *. set (h2 := limb 2 s) in *. set (h3 := limb 3 s) in *. set (h4 := limb 4 s) in *. set (h5 := limb 5 s) in *.
  set (h6 := limb 6 s) in *. set (h7 := limb 7 s) in *. set (h8 := limb 8 s) in *. set (h9 := limb 9 s) in *. set (h10 := limb 10 s) in *. set (h11 := limb 11 s) in *.
  clearbody h0 h1 h2 h3 h4 h5 h6 h7 h8 h9 h10 h11. clear s.
  rewrite (or_byte64 h0 h1 16 5 F0 eq_refl), (or_byte64 h1 h2 19 2 F1 eq_refl), (or_byte64 h2 h3 14 7 F2 eq_refl), (or_byte64 h3 h4 17 4 F3 eq_refl),
    (or_byte64 h4 h5 20 1 F4 eq_refl), (or_byte64 h5 h6 15 6 F5 eq_refl), (or_byte64 h6 h7 18 3 F6 eq_refl), (or_byte64 h8 h9 16 5 F8 eq_refl),
    (or_byte64 h9 h10 19 2 F9 eq_refl), (or_byte64 h10 h11 14 7 F10 eq_refl).
  rewrite !at_byte.
  rewrite (Z.mod_small (h7 / 2 ^ 13) 256) by (clear -F7; split; [apply Z.div_pos|apply Z.div_lt_upper_bound]; lia).
  rewrite (Z.mod_small (h11 / 2 ^ 17) 256) by (clear -FT; split; [apply Z.div_pos|apply Z.div_lt_upper_bound]; lia).
  clear F0 F1 F2 F3 F4 F5 F6 F7 F8 F9 F10 FT.
  pose proof (split_low h0 0 eq_refl) as A0. pose proof (split_byte h0 0 eq_refl) as B0. pose proof (split_byte h0 8 eq_refl) as C0.
  pose proof (split_low h1 3 eq_refl) as A1. pose proof (split_byte h1 3 eq_refl) as B1. pose proof (split_byte h1 11 eq_refl) as C1.
  pose proof (split_low h2 6 eq_refl) as A2. pose proof (split_byte h2 6 eq_refl) as B2.
  pose proof (split_low h3 1 eq_refl) as A3. pose proof (split_byte h3 1 eq_refl) as B3. pose proof (split_byte h3 9 eq_refl) as C3.
  pose proof (split_low h4 4 eq_refl) as A4. pose proof (split_byte h4 4 eq_refl) as B4. pose proof (split_byte h4 12 eq_refl) as C4.
  pose proof (split_low h5 7 eq_refl) as A5. pose proof (split_byte h5 7 eq_refl) as B5.
  pose proof (split_low h6 2 eq_refl) as A6. pose proof (split_byte h6 2 eq_refl) as B6. pose proof (split_byte h6 10 eq_refl) as C6.
  pose proof (split_low h7 5 eq_refl) as A7. pose proof (split_byte h7 5 eq_refl) as B7.
  pose proof (split_low h8 0 eq_refl) as A8. pose proof (split_byte h8 0 eq_refl) as B8. pose proof (split_byte h8 8 eq_refl) as C8.
  pose proof (split_low h9 3 eq_refl) as A9. pose proof (split_byte h9 3 eq_refl) as B9. pose proof (split_byte h9 11 eq_refl) as C9.
  pose proof (split_low h10 6 eq_refl) as A10. pose proof (split_byte h10 6 eq_refl) as B10.
  pose proof (split_low h11 1 eq_refl) as A11. pose proof (split_byte h11 1 eq_refl) as B11. pose proof (split_byte h11 9 eq_refl) as C11.
  change (8 - 5) with 3. change (8 - 2) with 6. change (8 - 7) with 1. change (8 - 4) with 4. change (8 - 1) with 7. change (8 - 6) with 2. change (8 - 3) with 5.
  change (0 + 8) with 8 in *. change (8 + 8) with 16 in *. change (3 + 8) with 11 in *. change (11 + 8) with 19 in *. change (6 + 8) with 14 in *. change (1 + 8) with 9 in *.
  change (9 + 8) with 17 in *. change (4 + 8) with 12 in *. change (12 + 8) with 20 in *. change (7 + 8) with 15 in *. change (2 + 8) with 10 in *. change (10 + 8) with 18 in *.
  change (5 + 8) with 13 in *.
  rewrite (Z.mod_1_r h0 : h0 mod 2 ^ 0 = 0) in A0. rewrite (Z.mod_1_r h8 : h8 mod 2 ^ 0 = 0) in A8.
  repeat match goal with |- context [?x mod ?y] => let r := fresh "r" in set (r := x mod y) in *; clearbody r end.
  repeat match goal with H : context [?x mod ?y] |- _ => let r := fresh "r" in set (r := x mod y) in *; clearbody r end.
  repeat match goal with |- context [?x / ?y] => let r := fresh "q" in set (r := x / y) in *; clearbody r end.
  repeat match goal with H : context [?x / ?y] |- _ => let r := fresh "q" in set (r := x / y) in *; clearbody r end.
  lia.
Qed.

(** * The end of both functions *)
Definition iv_mid : list itv := repeat d21 12 ++ [(- 1, 0)] ++ repeat (0, 0) 11.
Definition iv_small (iv : list itv) : bool :=
  (- 2 ^ 252 <=? sval (map fst iv)) && (sval (map snd iv) <? 2 ^ 252) &&
  match irun ops_floor iv with
  | Some iv2 =>
      forallb (fun p => (fst (fst p) =? fst (snd p)) && (snd (fst p) =? snd (snd p))) (combine (firstn 12 iv2) (repeat d21 12)) &&
      (length iv2 =? 24)%nat && forallb (fun p => (fst p =? 0) && (snd p =? 0)) (skipn 13 iv2) &&
      match irun ops_last iv2 with
      | Some iv3 => (length iv3 =? 24)%nat && forallb (fun p => (fst (fst p) =? fst (snd p)) && (snd (fst p) =? snd (snd p))) (combine (firstn 11 iv3) (repeat d21 11)) &&
                    forallb (fun p => (fst p =? 0) && (snd p =? 0)) (skipn 12 iv3)
      | None => false
      end
  | None => false
  end.

Lemma sval_app : forall a b, sval (a ++ b) = sval a + wt (length a) * sval b.
Proof.
  induction a as [|x a IH]; intros b; cbn [app sval length].
  - unfold wt. cbn [Z.of_nat]. rewrite Z.pow_0_r. ring.
  - rewrite IH, wt_S. ring.
Qed.
Lemma sval_zeros : forall s iv, inside s iv -> forallb (fun p => (fst p =? 0) && (snd p =? 0)) iv = true -> sval s = 0.
Proof.
  intros s iv H. induction H as [|x p s iv H H' IH]; cbn [forallb sval]; [reflexivity|]. intros E. apply andb_prop in E. destruct E as [E1 E2].
  apply andb_prop in E1. destruct E1 as [A B]. apply Z.eqb_eq in A, B. rewrite IH by exact E2. lia.
Qed.
Lemma inside_firstn : forall n s iv, inside s iv -> inside (firstn n s) (firstn n iv).
Proof. intros n s iv H. revert n. induction H as [|x p s iv H H' IH]; intros [|n]; cbn [firstn]; constructor; try assumption; apply IH. Qed.
Lemma inside_skipn : forall n s iv, inside s iv -> inside (skipn n s) (skipn n iv).
Proof. intros n s iv H. revert n. induction H as [|x p s iv H H' IH]; intros [|n]; cbn [skipn]; try (constructor; assumption); try constructor; apply IH. Qed.
Lemma same_itvs : forall n iv, length iv = n -> forallb (fun p => (fst (fst p) =? fst (snd p)) && (snd (fst p) =? snd (snd p))) (combine iv (repeat d21 n)) = true ->
  iv = repeat d21 n.
Proof.
  induction n as [|n IH]; intros [|[a b] iv] L H; try discriminate; [reflexivity|]. cbn [repeat combine forallb] in *. apply andb_prop in H. destruct H as [H H2].
  apply andb_prop in H. destruct H as [A B]. cbn [fst snd d21] in A, B. apply Z.eqb_eq in A, B. subst. cbn [length] in L. rewrite (IH iv); [reflexivity|lia|exact H2].
Qed.
Lemma digits_value : forall n s, inside s (repeat d21 n) -> 0 <= sval s < wt n.
Proof.
  induction n as [|n IH]; intros s H; cbn [repeat] in H; inversion H; subst; cbn [sval].
  - unfold wt. cbn. lia.
  - cbn [fst snd d21] in *. rewrite wt_S. match goal with K : inside _ _ |- _ => pose proof (IH _ K) | K : Forall2 _ _ _ |- _ => pose proof (IH _ K) end. lia.
Qed.

Lemma limb_list : forall n s, length s = n -> map (fun i => limb i s) (seq 0 n) = s.
Proof.
  intros n s H. apply nth_ext with (d := 0) (d' := 0).
  - rewrite map_length, seq_length. symmetry. exact H.
  - intros k Hk. rewrite map_length, seq_length in Hk. rewrite (nth_indep _ 0 (limb 0 s)) by (rewrite map_length, seq_length; exact Hk).
    rewrite (map_nth (fun i => limb i s)). rewrite seq_nth by exact Hk. reflexivity.
Qed.

Lemma split_at : forall n s, length s = 24%nat -> (n < 24)%nat -> sval (skipn (S n) s) = 0 -> sval s = sval (firstn n s) + wt n * limb n s.
Proof.
  intros n s L Hn Z0. assert (T : skipn n s = limb n s :: skipn (S n) s).
  { unfold limb. revert n Hn Z0. rewrite <- L. clear L. induction s as [|x s IH]; intros [|n] Hn Z0; cbn [length] in Hn; try lia; [reflexivity|].
    cbn [skipn nth]. apply IH; [lia|exact Z0]. }
  rewrite <- (firstn_skipn n s) at 1. rewrite sval_app, T. rewrite firstn_length, L, Nat.min_l by lia. cbn [sval]. rewrite Z0. ring.
Qed.
Lemma low12_val : forall s, length s = 24%nat -> sval (skipn 12 s) = 0 -> low12 s = sval s.
Proof.
  intros s L Z0. unfold low12. assert (Y : map (fun i => limb i s) (seq 0 12) = firstn 12 s).
  { unfold limb. clear -L. do 24 (destruct s as [|? s]; [discriminate|]). reflexivity. }
  rewrite Y. rewrite <- (firstn_skipn 12 s) at 2. rewrite sval_app, Z0. ring.
Qed.

Lemma sc_run_app : forall a b s, sc_run (a ++ b) s = sc_run b (sc_run a s).
Proof. intros a b s. unfold sc_run. apply fold_left_app. Qed.
Lemma sc_run_cons : forall o b s, sc_run (o :: b) s = sc_run b (sc_step o s).
Proof. reflexivity. Qed.
Lemma irun_cons : forall o b iv iv', irun (o :: b) iv = Some iv' -> exists iv1, istep o iv = Some iv1 /\ irun b iv1 = Some iv'.
Proof. intros o b iv iv' H. unfold irun in *. cbn [fold_left obind] in H. destruct (istep o iv) as [iv1|] eqn:E; [exists iv1; auto|rewrite fold_none in H; discriminate]. Qed.

Lemma floor_bounds : forall x y z, - 2 ^ 252 <= x < 2 ^ 252 -> x = y + 2 ^ 252 * z -> 0 <= y < 2 ^ 252 ->
  0 <= y + 2 ^ 252 * z - z * order_l < order_l.
Proof.
  intros x y z R Q F. assert (B : z = 0 \/ z = -1) by lia. unfold order_l. destruct B as [-> | ->]; lia.
Qed.

Definition all_d21 (n : nat) (iv : list itv) : bool := forallb (fun p => (fst (fst p) =? fst (snd p)) && (snd (fst p) =? snd (snd p))) (combine (firstn n iv) (repeat d21 n)).
Definition all_zero (n : nat) (iv : list itv) : bool := forallb (fun p => (fst p =? 0) && (snd p =? 0)) (skipn n iv).
Definition low_part (iv : list itv) : Prop := - 2 ^ 252 <= sval (map fst iv) /\ sval (map snd iv) < 2 ^ 252.
Lemma iv_small_facts : forall iv, iv_small iv = true -> low_part iv /\ exists iv2 iv3, irun ops_floor iv = Some iv2 /\ irun ops_last iv2 = Some iv3 /\
  all_d21 12 iv2 = true /\ length iv2 = 24%nat /\ all_zero 13 iv2 = true /\ length iv3 = 24%nat /\ all_d21 11 iv3 = true /\ all_zero 12 iv3 = true.
Proof.
  intros iv C. unfold iv_small in C. generalize dependent ops_floor. intros opf C. generalize dependent ops_last. intros opl C.
  apply andb_prop in C. destruct C as [C C3]. apply andb_prop in C. destruct C as [C1 C2]. apply Z.leb_le in C1. apply Z.ltb_lt in C2.
  split; [split; assumption|]. destruct (irun opf iv) as [iv2|]; [|discriminate].
  apply andb_prop in C3. destruct C3 as [C3 C7]. apply andb_prop in C3. destruct C3 as [C3 C5]. apply andb_prop in C3. destruct C3 as [C3 C4].
  destruct (irun opl iv2) as [iv3|] eqn:E3; [|discriminate]. apply andb_prop in C7. destruct C7 as [C7 C9]. apply andb_prop in C7. destruct C7 as [C7 C8].
  apply Nat.eqb_eq in C4, C7. exists iv2, iv3. unfold all_d21, all_zero. auto 10.
Qed.

Lemma digits_split : forall n s iv, (n < 24)%nat -> inside s iv -> length iv = 24%nat -> all_d21 n iv = true -> all_zero (S n) iv = true ->
  inside (firstn n s) (repeat d21 n) /\ sval s = sval (firstn n s) + wt n * limb n s.
Proof.
  intros n s iv Hn I L D Z0. unfold all_d21 in D. apply same_itvs in D; [|rewrite firstn_length; lia]. split.
  - rewrite <- D. apply inside_firstn. exact I.
  - apply split_at; [rewrite (inside_length _ _ I); exact L|exact Hn|]. exact (sval_zeros _ _ (inside_skipn (S n) _ _ I) Z0).
Qed.

Lemma last_packable : forall s iv, inside s iv -> length iv = 24%nat -> all_d21 11 iv = true -> all_zero 12 iv = true -> 0 <= sval s < order_l ->
  packable s /\ low12 s = sval s.
Proof.
  intros s iv I L D Z0 VR. destruct (digits_split 11 s iv ltac:(lia) I L D Z0) as [F T]. pose proof (inside_length _ _ I) as L3. rewrite L in L3.
  split; [|apply low12_val; [exact L3|exact (sval_zeros _ _ (inside_skipn 12 _ _ I) Z0)]].
  pose proof (digits_value 11 _ F) as F'. split.
  - intros i Hi. assert (G := inside_get _ _ i F). assert (EL : limb i (firstn 11 s) = limb i s).
    { unfold limb. rewrite <- (firstn_skipn 11 s) at 2. rewrite app_nth1; [reflexivity|]. rewrite firstn_length, L3. lia. }
    rewrite EL in G. unfold iget in G. rewrite (nth_indep _ (0, 0) d21) in G by (rewrite repeat_length; lia). rewrite nth_repeat in G. cbn [fst snd d21] in G. lia.
  - change (wt 11) with (2 ^ 231) in *. unfold order_l in VR. clear - T F' VR. lia.
Qed.

Lemma last_phase : forall iv2 iv3 s, irun ops_last iv2 = Some iv3 -> inside s iv2 -> inside (sc_run ops_last s) iv3 /\ sval (sc_run ops_last s) = sval s - limb 12 s * order_l.
Proof.
  intros iv2 iv3 s E I. unfold ops_last in *. remember (map Flr [0; 1; 2; 3; 4; 5; 6; 7; 8; 9; 10]%nat) as ops eqn:EO.
  assert (NF : forallb (fun o => match o with Fold _ => false | _ => true end) ops = true) by (rewrite EO; reflexivity). clear EO.
  apply irun_cons in E. destruct E as (iv1 & E1 & E2). rewrite sc_run_cons. destruct (step_sound _ _ _ _ E1 I) as [I1 V1].
  destruct (run_exact _ _ _ _ E2 I1 NF) as [I3 V3]. split; [exact I3|]. rewrite V3, V1. unfold removed. rewrite Nat.sub_diag. unfold wt. rewrite Z.pow_0_r. ring.
Qed.

Lemma floor_phase : forall iv iv2 s, irun ops_floor iv = Some iv2 -> inside s iv -> inside (sc_run ops_floor s) iv2 /\ sval (sc_run ops_floor s) = sval s.
Proof. intros iv iv2 s E I. apply (run_exact _ _ _ _ E I). vm_compute. reflexivity. Qed.

Lemma wt_12 : wt 12 = 2 ^ 252.
Proof. reflexivity. Qed.

Lemma pack_length : forall s, length (sc_pack s) = 32%nat.
Proof. intros s. reflexivity. Qed.
Lemma packed : forall s, packable s -> low12 s = sval s -> le_val (abytes (to_arr 32 (sc_pack s))) = sval s.
Proof. intros s P T. rewrite to_arr_exact by apply pack_length. rewrite sc_pack_val by exact P. exact T. Qed.

Lemma finish_arith : forall v v2 v3 y z lo hi, - 2 ^ 252 <= lo -> hi < 2 ^ 252 -> lo <= v <= hi -> v2 = v -> v2 = y + 2 ^ 252 * z -> 0 <= y < 2 ^ 252 -> v3 = v2 - z * order_l ->
  0 <= v3 < order_l /\ v3 = v mod order_l.
Proof.
  intros v v2 v3 y z lo hi A B R E Q Y H. assert (V : 0 <= v3 < order_l).
  { rewrite H, Q. apply (floor_bounds v2); [lia|exact Q|exact Y]. }
  split; [exact V|]. apply Z.mod_unique with (q := z); [left; exact V|]. rewrite H, E. generalize order_l. intros o. ring.
Qed.

Lemma finish : forall iv s, iv_small iv = true -> inside s iv ->
  le_val (abytes (to_arr 32 (sc_pack (sc_run (ops_floor ++ ops_last) s)))) = sval s mod order_l.
Proof.
  intros iv s C HI. destruct (iv_small_facts _ C) as [[C1 C2] (iv2 & iv3 & E2 & E3 & D2 & L2 & Z2 & L3 & D3 & Z3)].
  pose proof (inside_sval s iv HI) as R1. rewrite sc_run_app.
  destruct (floor_phase _ _ _ E2 HI) as [I2 V2]. generalize dependent (sc_run ops_floor s). intros s2 I2 V2. clear E2 C.
  destruct (digits_split 12 s2 iv2 (proj1 (Nat.ltb_lt 12 24) eq_refl) I2 L2 D2 Z2) as [F2 Q]. pose proof (digits_value 12 _ F2) as F2'. rewrite wt_12 in Q, F2'.
  destruct (last_phase _ _ _ E3 I2) as [I3 V3]. generalize dependent (sc_run ops_last s2). intros s3 I3 V3. clear E3.
  destruct (finish_arith _ _ _ _ _ _ _ C1 C2 R1 V2 Q F2' V3) as [VR VM].
  destruct (last_packable s3 iv3 I3 L3 D3 Z3 VR) as [PK T4].
  rewrite packed by assumption. exact VM.
Qed.

(** * ScReduce *)
Definition iv_reduced : option (list itv) := Eval vm_compute in irun ops_reduce iv_64.
Theorem sc_reduce_spec : forall s, le_val (abytes (sc_reduce s)) = le_val (abytes s) mod order_l.
Proof.
  intros s. unfold sc_reduce. assert (HI : inside (sc_load64 s) iv_64) by apply load64_inside.
  assert (VL := sval_load64 s). remember (sc_load64 s) as l eqn:EL. clear EL.
  rewrite sc_run_app.
  assert (E : irun ops_reduce iv_64 = iv_reduced) by (vm_compute; reflexivity).
  destruct iv_reduced as [iv|] eqn:EI; [|discriminate EI].
  destruct (run_sound _ _ _ l E HI) as [I [k V]]. rewrite (finish iv).
  - rewrite V, VL. apply Z.mod_add. discriminate.
  - unfold iv_reduced in EI. apply some_eq in EI. rewrite EI. vm_compute. reflexivity.
  - exact I.
Qed.

(** * ScMulAdd *)
(** The product limbs, without wrapping. *)
Definition prod_limb (a b c : list Z) (k : nat) : Z :=
  fold_left Z.add (map (fun i => limb i a * limb (k - i) b) (filter (fun i => (i <=? 11) && (k - i <=? 11))%nat (seq 0 (S k)))) (if (k <=? 11)%nat then limb k c else 0).

Lemma iv32_get : forall l i, inside l iv_32 -> 0 <= limb i l <= 2 ^ 25 - 1.
Proof.
  intros l i H. pose proof (inside_get _ _ i H) as G. do 12 (destruct i as [|i]; [cbn in G; lia|]). unfold iget, iv_32 in G. rewrite nth_overflow in G by (cbn; lia). cbn [fst snd] in G. lia.
Qed.

Definition iv_product : list itv := Eval vm_compute in
  map (fun k => (0, fold_left Z.add (map (fun i => snd (iget i iv_32) * snd (iget (k - i) iv_32)) (filter (fun i => (i <=? 11) && (k - i <=? 11))%nat (seq 0 (S k))))
                     (if (k <=? 11)%nat then snd (iget k iv_32) else 0))) (seq 0 24).

Lemma sum_wrap : forall l m x X, Forall2 (fun y Y => 0 <= y <= Y) l m -> 0 <= x <= X -> fold_left Z.add m X < 2 ^ 63 ->
  fold_left add64 l x = fold_left Z.add l x /\ 0 <= fold_left Z.add l x <= fold_left Z.add m X.
Proof.
  intros l m x X H. revert x X. induction H as [|y Y l m H H' IH]; intros x X Hx Hs; cbn [fold_left] in *; [split; [reflexivity|exact Hx]|].
  assert (B : X + Y < 2 ^ 63).
  { clear IH. assert (G : forall m Z0, Forall (fun Y => 0 <= Y) m -> Z0 <= fold_left Z.add m Z0).
    { clear. induction m as [|Y m IH]; intros Z0 F; cbn [fold_left]; [lia|]. inversion F; subst. pose proof (IH (Z0 + Y) ltac:(assumption)). lia. }
    assert (F : Forall (fun Y => 0 <= Y) m) by (clear -H'; induction H' as [|a A l m K K' IH]; constructor; [lia|exact IH]). pose proof (G m (X + Y) F). lia. }
  unfold add64 at 2. rewrite i64_id by lia. apply IH; [lia|exact Hs].
Qed.
Lemma fold_add_acc : forall l x y, fold_left Z.add l (x + y) = x + fold_left Z.add l y.
Proof. induction l as [|z l IH]; intros x y; cbn [fold_left]; [reflexivity|]. rewrite <- Z.add_assoc. apply IH. Qed.

Lemma product_limb_ok : forall a b c k, inside a iv_32 -> inside b iv_32 -> inside c iv_32 -> (k < 24)%nat ->
  sc_sum ((if (k <=? 11)%nat then [limb k c] else []) ++ sc_terms a b k) = prod_limb a b c k /\
  fst (iget k iv_product) <= prod_limb a b c k <= snd (iget k iv_product).
Proof.
  intros a b c k HA HB HC Hk.
  set (idx := filter (fun i => (i <=? 11) && (k - i <=? 11))%nat (seq 0 (S k))).
  set (ms := map (fun i => snd (iget i iv_32) * snd (iget (k - i) iv_32)) idx). set (X := if (k <=? 11)%nat then snd (iget k iv_32) else 0).
  assert (PB : forall i j, 0 <= limb i a * limb j b <= snd (iget i iv_32) * snd (iget j iv_32)).
  { intros i j. pose proof (iv32_get a i HA). pose proof (iv32_get b j HB). pose proof (inside_get _ _ i HA). pose proof (inside_get _ _ j HB). split; [nia|]. apply Z.mul_le_mono_nonneg; lia. }
  assert (EM : sc_terms a b k = map (fun i => limb i a * limb (k - i) b) idx).
  { unfold sc_terms. fold idx. apply map_ext. intros i. unfold mul64. apply i64_id. pose proof (iv32_get a i HA). pose proof (iv32_get b (k - i) HB). nia. }
  assert (F2 : Forall2 (fun y Y => 0 <= y <= Y) (map (fun i => limb i a * limb (k - i) b) idx) ms).
  { unfold ms. clear -PB. induction idx as [|i idx IH]; cbn [map]; constructor; [apply PB|exact IH]. }
  assert (EX : iget k iv_product = (0, fold_left Z.add ms X) /\ fold_left Z.add ms X < 2 ^ 63).
  { unfold ms, X, idx. clear -Hk. do 24 (destruct k as [|k]; [split; [vm_compute; reflexivity|vm_compute; reflexivity]|]). lia. }
  destruct EX as [EX EB]. rewrite EX. cbn [fst snd]. unfold prod_limb. fold idx. rewrite EM.
  assert (CX : 0 <= (if (k <=? 11)%nat then limb k c else 0) <= X).
  { unfold X. destruct (k <=? 11)%nat; [|lia]. pose proof (iv32_get c k HC). pose proof (inside_get _ _ k HC). lia. }
  destruct (sum_wrap _ _ _ _ F2 CX EB) as [S1 S2]. split; [|exact S2].
  rewrite <- S1. destruct (k <=? 11)%nat; [reflexivity|]. cbn [app].
  destruct (map (fun i => limb i a * limb (k - i) b) idx) as [|t ts]; cbn [sc_sum fold_left]; [reflexivity|]. unfold add64 at 3. rewrite Z.add_0_l.
  rewrite i64_id; [reflexivity|].
  assert (G : forall m Z0, Forall (fun Y => 0 <= Y) m -> Z0 <= fold_left Z.add m Z0).
  { clear. induction m as [|Y m IH]; intros Z0 F; cbn [fold_left]; [lia|]. inversion F; subst. pose proof (IH (Z0 + Y) ltac:(assumption)). lia. }
  inversion F2 as [|? ? ? ? T1 T2]; subst. cbn [fold_left] in S2. assert (F : Forall (fun Y => 0 <= Y) ts) by (clear -T2; induction T2 as [|a A l m K K' IH]; constructor; [lia|exact IH]).
  pose proof (G ts (0 + t) F). lia.
Qed.

Lemma product_ok : forall a b c, inside a iv_32 -> inside b iv_32 -> inside c iv_32 ->
  sc_product a b c = map (prod_limb a b c) (seq 0 24) /\ inside (sc_product a b c) iv_product.
Proof.
  intros a b c HA HB HC. assert (E : sc_product a b c = map (prod_limb a b c) (seq 0 24)).
  { unfold sc_product. apply map_ext_in. intros k Hk. apply in_seq in Hk. apply product_limb_ok; try assumption. lia. }
  split; [exact E|]. rewrite E.
  assert (G : forall iv n j, length iv = n -> (forall k, (k < n)%nat -> fst (nth k iv (0, 0)) <= prod_limb a b c (j + k) <= snd (nth k iv (0, 0))) ->
    inside (map (prod_limb a b c) (seq j n)) iv).
  { clear. induction iv as [|p iv IH]; intros [|n] j L H; try discriminate; cbn [seq map]; constructor.
    - specialize (H 0%nat ltac:(lia)). rewrite Nat.add_0_r in H. exact H.
    - apply IH; [cbn in L; lia|]. intros k Hk. specialize (H (S k) ltac:(lia)). replace (S j + k)%nat with (j + S k)%nat by lia. exact H. }
  apply G; [reflexivity|]. intros k Hk. apply product_limb_ok; assumption.
Qed.

Lemma product_value : forall a b c, length a = 12%nat -> length b = 12%nat -> length c = 12%nat ->
  sval (map (prod_limb a b c) (seq 0 24)) = sval a * sval b + sval c.
Proof.
  intros a b c LA LB LC.
  do 12 (destruct a as [|? a]; [discriminate|]). destruct a; [|discriminate]. do 12 (destruct b as [|? b]; [discriminate|]). destruct b; [|discriminate].
  do 12 (destruct c as [|? c]; [discriminate|]). destruct c; [|discriminate].
  cbv [prod_limb seq map filter Nat.leb Nat.sub andb fold_left limb nth sval]. ring.
Qed.

Definition iv_muladd : option (list itv) := Eval vm_compute in irun (ops_product ++ ops_reduce) iv_product.
Theorem sc_mul_add_spec : forall a b c,
  le_val (abytes (sc_mul_add a b c)) = (le_val (abytes a) * le_val (abytes b) + le_val (abytes c)) mod order_l.
Proof.
  intros a b c. unfold sc_mul_add. cbv zeta. rewrite (app_assoc ops_product ops_reduce). pose proof (load_inside a) as HA. pose proof (load_inside b) as HB. pose proof (load_inside c) as HC.
  destruct (product_ok _ _ _ HA HB HC) as [E HI]. remember (sc_product (sc_load a) (sc_load b) (sc_load c)) as l eqn:EL. clear EL.
  rewrite sc_run_app.
  assert (ER : irun (ops_product ++ ops_reduce) iv_product = iv_muladd) by (vm_compute; reflexivity).
  destruct iv_muladd as [iv|] eqn:EI; [|discriminate EI].
  destruct (run_sound _ _ _ l ER HI) as [I [k V]]. rewrite (finish iv).
  - rewrite V, E. rewrite product_value by (rewrite (inside_length _ iv_32) by apply load_inside; reflexivity). rewrite !sval_load. apply Z.mod_add. discriminate.
  - unfold iv_muladd in EI. apply some_eq in EI. rewrite EI. vm_compute. reflexivity.
  - exact I.
Qed.
