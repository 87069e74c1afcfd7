(** FieldProofs3.v: FeToBytes, the two predicates on its result, and the two power ladders. *)
From Verif Require Import Base Field25519 FieldSpec FieldProofs FieldProofs2.
From Coq Require Import ZArith Lia List.
Local Open Scope Z_scope.

Lemma bound_abs : forall n d x k B, d * Z.abs x <= n * 2 ^ k -> (0 <? d) && (n * 2 ^ k <? d * (B + 1)) = true -> Z.abs x <= B.
Proof. intros. eapply abs_bound; eassumption. Qed.

(** The quotient chain computes the floor of (v + q0) / 2^255. *)
Lemma freeze_q : forall h0 h1 h2 h3 h4 h5 h6 h7 h8 h9, fe_bound 330 100 (mk_fe h0 h1 h2 h3 h4 h5 h6 h7 h8 h9) ->
  let q0 := shr (add32 (mul32 19 h9) (2 ^ 24)) 25 in
  q0 = (19 * h9 + 2 ^ 24) / 2 ^ 25 /\
  shr (add32 h9 (shr (add32 h8 (shr (add32 h7 (shr (add32 h6 (shr (add32 h5 (shr (add32 h4 (shr (add32 h3 (shr (add32 h2 (shr (add32 h1
    (shr (add32 h0 q0) 26)) 25)) 26)) 25)) 26)) 25)) 26)) 25)) 26)) 25
  = (fe_val (mk_fe h0 h1 h2 h3 h4 h5 h6 h7 h8 h9) + q0) / 2 ^ 255.
Proof.
  intros h0 h1 h2 h3 h4 h5 h6 h7 h8 h9 (B0 & B1 & B2 & B3 & B4 & B5 & B6 & B7 & B8 & B9). cbn [e0 e1 e2 e3 e4 e5 e6 e7 e8 e9] in *.
  pose proof (fun x k H => bound_abs 330 100 x k (2 ^ 27) H) as K.
  pose proof (K _ _ B0 eq_refl) as A0. pose proof (K _ _ B1 eq_refl) as A1. pose proof (K _ _ B2 eq_refl) as A2. pose proof (K _ _ B3 eq_refl) as A3.
  pose proof (K _ _ B4 eq_refl) as A4. pose proof (K _ _ B5 eq_refl) as A5. pose proof (K _ _ B6 eq_refl) as A6. pose proof (K _ _ B7 eq_refl) as A7.
  pose proof (K _ _ B8 eq_refl) as A8. pose proof (K _ _ B9 eq_refl) as A9.
  assert (C : shr (add32 (mul32 19 h9) (2 ^ 24)) 25 = (19 * h9 + 2 ^ 24) / 2 ^ 25 /\ Z.abs (shr (add32 (mul32 19 h9) (2 ^ 24)) 25) <= 2 ^ 5).
  { clear -B9. unfold add32, mul32, shr. rewrite (i32_small (19 * h9)) by lia. rewrite i32_small by lia. split; [reflexivity|].
    assert (- 32 <= (19 * h9 + 2 ^ 24) / 2 ^ 25) by (apply Z.div_le_lower_bound; lia).
    assert ((19 * h9 + 2 ^ 24) / 2 ^ 25 <= 32) by (apply Z.div_le_upper_bound; lia). lia. }
  clear B0 B1 B2 B3 B4 B5 B6 B7 B8 B9 K. destruct C as [C CB]. cbv zeta. split; [exact C|]. clear C.
  set (q0 := shr (add32 (mul32 19 h9) (2 ^ 24)) 25) in *. clearbody q0.
  destruct (q_step h0 q0 q0 0 26 ltac:(rewrite Z.pow_0_r, Z.div_1_r; reflexivity) A0 CB eq_refl) as [E1 C1].
  destruct (q_step h1 _ _ 26 25 E1 A1 C1 eq_refl) as [E2 C2].
  destruct (q_step h2 _ _ 51 26 E2 A2 C2 eq_refl) as [E3 C3].
  destruct (q_step h3 _ _ 77 25 E3 A3 C3 eq_refl) as [E4 C4].
  destruct (q_step h4 _ _ 102 26 E4 A4 C4 eq_refl) as [E5 C5].
  destruct (q_step h5 _ _ 128 25 E5 A5 C5 eq_refl) as [E6 C6].
  destruct (q_step h6 _ _ 153 26 E6 A6 C6 eq_refl) as [E7 C7].
  destruct (q_step h7 _ _ 179 25 E7 A7 C7 eq_refl) as [E8 C8].
  destruct (q_step h8 _ _ 204 26 E8 A8 C8 eq_refl) as [E9 C9].
  destruct (q_step h9 _ _ 230 25 E9 A9 C9 eq_refl) as [E10 C10].
  rewrite E10. clear. unfold fe_val. cbn [e0 e1 e2 e3 e4 e5 e6 e7 e8 e9]. change (230 + 25) with 255. apply (f_equal (fun x => x / 2 ^ 255)). ring.
Qed.

Lemma freeze_spec : forall h, fe_bound 330 100 h -> frozen (fe_to_bytes_limbs h) /\ fe_val (fe_to_bytes_limbs h) = fe_val h mod p25519.
Proof.
  intros [h0 h1 h2 h3 h4 h5 h6 h7 h8 h9] HB. destruct (freeze_q _ _ _ _ _ _ _ _ _ _ HB) as [EQ0 EQ].
  unfold fe_to_bytes_limbs. cbn [e0 e1 e2 e3 e4 e5 e6 e7 e8 e9]. cbv zeta in EQ, EQ0 |- *. rewrite EQ.
  set (v := fe_val _) in *. set (q0 := shr _ _) in *.
  destruct HB as (B0 & B1 & B2 & B3 & B4 & B5 & B6 & B7 & B8 & B9). cbn [e0 e1 e2 e3 e4 e5 e6 e7 e8 e9] in *.
  assert (Ev : v = (h0 + 2 ^ 26 * h1 + 2 ^ 51 * h2 + 2 ^ 77 * h3 + 2 ^ 102 * h4 + 2 ^ 128 * h5 + 2 ^ 153 * h6 + 2 ^ 179 * h7 + 2 ^ 204 * h8) + 2 ^ 230 * h9)
    by reflexivity.
  destruct (freeze_arith v _ h9 q0 Ev ltac:(clear -B0 B1 B2 B3 B4 B5 B6 B7 B8; lia) B9 EQ0) as [Q R].
  set (q := (v + q0) / 2 ^ 255) in *. clearbody q0 q. clear EQ EQ0.
  pose proof (fun x k H => bound_abs 330 100 x k (2 ^ 27) H) as K.
  pose proof (K _ _ B0 eq_refl) as A0. pose proof (K _ _ B1 eq_refl) as A1. pose proof (K _ _ B2 eq_refl) as A2. pose proof (K _ _ B3 eq_refl) as A3.
  pose proof (K _ _ B4 eq_refl) as A4. pose proof (K _ _ B5 eq_refl) as A5. pose proof (K _ _ B6 eq_refl) as A6. pose proof (K _ _ B7 eq_refl) as A7.
  pose proof (K _ _ B8 eq_refl) as A8. pose proof (K _ _ B9 eq_refl) as A9.
  clear B0 B1 B2 B3 B4 B5 B6 B7 B8 B9 K. clearbody v.
  assert (G : add32 h0 (mul32 19 q) = h0 + 19 * q /\ Z.abs (h0 + 19 * q) <= 2 ^ 28).
  { clear -Q A0. unfold add32, mul32. rewrite (i32_small (19 * q)) by lia. rewrite i32_small by lia. split; [reflexivity|lia]. }
  destruct G as [-> G0].
  destruct (carry32_step 26 _ h1 G0 A1 eq_refl) as (-> & F0 & G1). set (g1 := h1 + _) in *. assert (D1 : g1 = h1 + (h0 + 19 * q) / 2 ^ 26) by reflexivity. clearbody g1.
  destruct (carry32_step 25 g1 h2 G1 A2 eq_refl) as (-> & F1 & G2). set (g2 := h2 + _) in *. assert (D2 : g2 = h2 + g1 / 2 ^ 25) by reflexivity. clearbody g2.
  destruct (carry32_step 26 g2 h3 G2 A3 eq_refl) as (-> & F2 & G3). set (g3 := h3 + _) in *. assert (D3 : g3 = h3 + g2 / 2 ^ 26) by reflexivity. clearbody g3.
  destruct (carry32_step 25 g3 h4 G3 A4 eq_refl) as (-> & F3 & G4). set (g4 := h4 + _) in *. assert (D4 : g4 = h4 + g3 / 2 ^ 25) by reflexivity. clearbody g4.
  destruct (carry32_step 26 g4 h5 G4 A5 eq_refl) as (-> & F4 & G5). set (g5 := h5 + _) in *. assert (D5 : g5 = h5 + g4 / 2 ^ 26) by reflexivity. clearbody g5.
  destruct (carry32_step 25 g5 h6 G5 A6 eq_refl) as (-> & F5 & G6). set (g6 := h6 + _) in *. assert (D6 : g6 = h6 + g5 / 2 ^ 25) by reflexivity. clearbody g6.
  destruct (carry32_step 26 g6 h7 G6 A7 eq_refl) as (-> & F6 & G7). set (g7 := h7 + _) in *. assert (D7 : g7 = h7 + g6 / 2 ^ 26) by reflexivity. clearbody g7.
  destruct (carry32_step 25 g7 h8 G7 A8 eq_refl) as (-> & F7 & G8). set (g8 := h8 + _) in *. assert (D8 : g8 = h8 + g7 / 2 ^ 25) by reflexivity. clearbody g8.
  destruct (carry32_step 26 g8 h9 G8 A9 eq_refl) as (-> & F8 & G9). set (g9 := h9 + _) in *. assert (D9 : g9 = h9 + g8 / 2 ^ 26) by reflexivity. clearbody g9.
  assert (L : sub32 g9 (shl32 (shr g9 25) 25) = g9 mod 2 ^ 25).
  { clear -G9. assert (H := carry32_step 25 g9 0 G9 ltac:(cbn; lia) eq_refl). destruct H as (H & _). unfold carry32 in H. injection H as H _. exact H. }
  rewrite L. assert (F9 : 0 <= g9 mod 2 ^ 25 < 2 ^ 25) by (apply Z.mod_pos_bound; lia).
  set (r := mk_fe _ _ _ _ _ _ _ _ _ _).
  assert (FR : frozen r) by (unfold frozen, r; cbn [e0 e1 e2 e3 e4 e5 e6 e7 e8 e9]; repeat split; first [apply F0|apply F1|apply F2|apply F3|apply F4|apply F5|apply F6|apply F7|apply F8|apply F9]).
  split; [exact FR|]. pose proof (frozen_range r FR) as RR.
  assert (V : fe_val r = v + 19 * q - 2 ^ 255 * (g9 / 2 ^ 25)).
  { unfold r, fe_val. cbn [e0 e1 e2 e3 e4 e5 e6 e7 e8 e9]. clear -Ev D1 D2 D3 D4 D5 D6 D7 D8 D9.
    rewrite (Z.mod_eq (h0 + 19 * q) (2 ^ 26)), (Z.mod_eq g1 (2 ^ 25)), (Z.mod_eq g2 (2 ^ 26)), (Z.mod_eq g3 (2 ^ 25)), (Z.mod_eq g4 (2 ^ 26)),
      (Z.mod_eq g5 (2 ^ 25)), (Z.mod_eq g6 (2 ^ 26)), (Z.mod_eq g7 (2 ^ 25)), (Z.mod_eq g8 (2 ^ 26)), (Z.mod_eq g9 (2 ^ 25)) by discriminate.
    rewrite Ev. set (c9 := g9 / 2 ^ 25). set (c8 := g8 / 2 ^ 26) in *. set (c7 := g7 / 2 ^ 25) in *. set (c6 := g6 / 2 ^ 26) in *. set (c5 := g5 / 2 ^ 25) in *.
    set (c4 := g4 / 2 ^ 26) in *. set (c3 := g3 / 2 ^ 25) in *. set (c2 := g2 / 2 ^ 26) in *. set (c1 := g1 / 2 ^ 25) in *. set (c0 := (h0 + 19 * q) / 2 ^ 26) in *.
    clearbody c0 c1 c2 c3 c4 c5 c6 c7 c8 c9. subst. ring. }
  clear -V RR R Q. set (c := g9 / 2 ^ 25) in *. clearbody c. set (w := fe_val r) in *. clearbody w. unfold p25519 in *.
  assert (c = q) by lia. subst c.
  apply Z.mod_unique with (q := q); [left|]; lia.
Qed.

(** * Packing *)

Lemma zb_zbyte : forall z, zb (zbyte z) = z mod 256.
Proof.
  intros z. unfold zb, zbyte. pose proof (Z.mod_pos_bound z 256 ltac:(lia)) as H.
  rewrite b2n_n2b, N.mod_small by lia. lia.
Qed.

Lemma at_byte : forall a n, zb (zbyte (shr a n)) = (a / 2 ^ n) mod 256.
Proof. intros a n. apply zb_zbyte. Qed.

(** [byte(a>>n | b<<m)] when a has n + m bits: the top of a below the low 8 - m bits of b. The shift may wrap. *)
Lemma or_byte : forall a b n m, 0 <= a < 2 ^ (n + m) -> (0 <=? n) && (0 <=? m) && (m <=? 8) = true ->
  zb (zbyte (Z.lor (shr a n) (shl32 b m))) = a / 2 ^ n + 2 ^ m * (b mod 2 ^ (8 - m)).
Proof.
  intros a b n m Ha C. apply andb_prop in C. destruct C as [C C3]. apply andb_prop in C. destruct C as [C1 C2]. apply Z.leb_le in C1, C2, C3.
  assert (P1 : 0 < 2 ^ n) by (apply Z.pow_pos_nonneg; lia). assert (P2 : 0 < 2 ^ m) by (apply Z.pow_pos_nonneg; lia).
  assert (P3 : 0 < 2 ^ (8 - m)) by (apply Z.pow_pos_nonneg; lia). assert (P4 : 2 ^ m * 2 ^ (8 - m) = 256) by (rewrite <- Z.pow_add_r by lia; replace (m + (8 - m)) with 8 by lia; reflexivity).
  rewrite zb_zbyte. unfold shr. assert (A : 0 <= a / 2 ^ n < 2 ^ m).
  { split; [apply Z.div_pos; lia|]. apply Z.div_lt_upper_bound; [lia|]. rewrite <- Z.pow_add_r by lia. lia. }
  assert (S : shl32 b m mod 256 = (b mod 2 ^ (8 - m)) * 2 ^ m).
  { unfold shl32, i32. assert (E := Z.div_mod (b * 2 ^ m + 2 ^ 31) (2 ^ 32) ltac:(lia)).
    set (k := (b * 2 ^ m + 2 ^ 31) / 2 ^ 32) in *. replace ((b * 2 ^ m + 2 ^ 31) mod 2 ^ 32 - 2 ^ 31) with (b * 2 ^ m + (- k * 2 ^ 24) * 256) by lia.
    rewrite Z.mod_add by lia. rewrite <- P4. rewrite (Z.mul_comm b), Z.mul_mod_distr_l by lia. lia. }
  change 256 with (2 ^ 8) at 1. rewrite <- Z.land_ones by lia. rewrite Z.land_lor_distr_l, !Z.land_ones by lia. change (2 ^ 8) with 256.
  rewrite S. rewrite (Z.mod_small (a / 2 ^ n)) by nia. rewrite lor_disjoint by lia. ring.
Qed.

Lemma split_limb : forall b k, (0 <=? k) = true ->
  b = b mod 2 ^ k + 2 ^ k * ((b / 2 ^ k) mod 256) + 2 ^ (k + 8) * ((b / 2 ^ (k + 8)) mod 256) + 2 ^ (k + 16) * (b / 2 ^ (k + 16)).
Proof.
  intros b k C. apply Z.leb_le in C. assert (P1 : 0 < 2 ^ k) by (apply Z.pow_pos_nonneg; lia).
  rewrite !Z.pow_add_r by lia. rewrite <- !Z.div_div by lia. change (2 ^ 16) with (256 * 256). rewrite <- Z.div_div by lia. change (2 ^ 8) with 256.
  pose proof (Z.div_mod b (2 ^ k) ltac:(lia)). set (c := b / 2 ^ k) in *. pose proof (Z.div_mod c 256 ltac:(lia)). set (d := c / 256) in *.
  pose proof (Z.div_mod d 256 ltac:(lia)). nia.
Qed.

Lemma pack_spec : forall h, frozen h -> le_val (fe_pack h) = fe_val h.
Proof.
  intros [h0 h1 h2 h3 h4 h5 h6 h7 h8 h9] (F0 & F1 & F2 & F3 & F4 & F5 & F6 & F7 & F8 & F9). cbn [e0 e1 e2 e3 e4 e5 e6 e7 e8 e9] in *.
  unfold fe_pack, fe_val. cbn [e0 e1 e2 e3 e4 e5 e6 e7 e8 e9]. cbv zeta. cbn [le_val].
  rewrite (or_byte h0 h1 24 2 F0 eq_refl), (or_byte h1 h2 22 3 F1 eq_refl), (or_byte h2 h3 21 5 F2 eq_refl), (or_byte h3 h4 19 6 F3 eq_refl),
    (or_byte h5 h6 24 1 F5 eq_refl), (or_byte h6 h7 23 3 F6 eq_refl), (or_byte h7 h8 21 4 F7 eq_refl), (or_byte h8 h9 20 6 F8 eq_refl).
  rewrite !at_byte.
  pose proof (split_limb h0 8 eq_refl) as S0. pose proof (split_limb h1 6 eq_refl) as S1. pose proof (split_limb h2 5 eq_refl) as S2.
  pose proof (split_limb h3 3 eq_refl) as S3. pose proof (split_limb h4 2 eq_refl) as S4. pose proof (split_limb h5 8 eq_refl) as S5.
  pose proof (split_limb h6 7 eq_refl) as S6. pose proof (split_limb h7 5 eq_refl) as S7. pose proof (split_limb h8 4 eq_refl) as S8.
  pose proof (split_limb h9 2 eq_refl) as S9.
  rewrite (Z.mod_small (h4 / 2 ^ 18) 256) by (clear -F4; split; [apply Z.div_pos|apply Z.div_lt_upper_bound]; lia).
  rewrite (Z.mod_small (h9 / 2 ^ 18) 256) by (clear -F9; split; [apply Z.div_pos|apply Z.div_lt_upper_bound]; lia).
  change (2 ^ 0) with 1. rewrite !Z.div_1_r. clear F0 F1 F2 F3 F4 F5 F6 F7 F8 F9.
  change (8 - 2) with 6. change (8 - 3) with 5. change (8 - 5) with 3. change (8 - 6) with 2. change (8 - 1) with 7. change (8 - 4) with 4.
  change (8 + 8) with 16 in *. change (8 + 16) with 24 in *. change (6 + 8) with 14 in *. change (6 + 16) with 22 in *. change (5 + 8) with 13 in *.
  change (5 + 16) with 21 in *. change (3 + 8) with 11 in *. change (3 + 16) with 19 in *. change (2 + 8) with 10 in *. change (2 + 16) with 18 in *.
  change (7 + 8) with 15 in *. change (7 + 16) with 23 in *. change (4 + 8) with 12 in *. change (4 + 16) with 20 in *.
  change (2 ^ 8) with 256 in S0, S5. change (2 ^ 8) with 256.
  set (a0 := h0 mod 256) in *. set (b0 := (h0 / 256) mod 256) in *. set (c0 := (h0 / 2 ^ 16) mod 256) in *. set (d0 := h0 / 2 ^ 24) in *.
  set (a1 := h1 mod 2 ^ 6) in *. set (b1 := (h1 / 2 ^ 6) mod 256) in *. set (c1 := (h1 / 2 ^ 14) mod 256) in *. set (d1 := h1 / 2 ^ 22) in *.
  set (a2 := h2 mod 2 ^ 5) in *. set (b2 := (h2 / 2 ^ 5) mod 256) in *. set (c2 := (h2 / 2 ^ 13) mod 256) in *. set (d2 := h2 / 2 ^ 21) in *.
  set (a3 := h3 mod 2 ^ 3) in *. set (b3 := (h3 / 2 ^ 3) mod 256) in *. set (c3 := (h3 / 2 ^ 11) mod 256) in *. set (d3 := h3 / 2 ^ 19) in *.
  set (a4 := h4 mod 2 ^ 2) in *. set (b4 := (h4 / 2 ^ 2) mod 256) in *. set (c4 := (h4 / 2 ^ 10) mod 256) in *. set (d4 := h4 / 2 ^ 18) in *.
  set (a5 := h5 mod 256) in *. set (b5 := (h5 / 256) mod 256) in *. set (c5 := (h5 / 2 ^ 16) mod 256) in *. set (d5 := h5 / 2 ^ 24) in *.
  set (a6 := h6 mod 2 ^ 7) in *. set (b6 := (h6 / 2 ^ 7) mod 256) in *. set (c6 := (h6 / 2 ^ 15) mod 256) in *. set (d6 := h6 / 2 ^ 23) in *.
  set (a7 := h7 mod 2 ^ 5) in *. set (b7 := (h7 / 2 ^ 5) mod 256) in *. set (c7 := (h7 / 2 ^ 13) mod 256) in *. set (d7 := h7 / 2 ^ 21) in *.
  set (a8 := h8 mod 2 ^ 4) in *. set (b8 := (h8 / 2 ^ 4) mod 256) in *. set (c8 := (h8 / 2 ^ 12) mod 256) in *. set (d8 := h8 / 2 ^ 20) in *.
  set (a9 := h9 mod 2 ^ 2) in *. set (b9 := (h9 / 2 ^ 2) mod 256) in *. set (c9 := (h9 / 2 ^ 10) mod 256) in *. set (d9 := h9 / 2 ^ 18) in *.
  clearbody a0 b0 c0 d0 a1 b1 c1 d1 a2 b2 c2 d2 a3 b3 c3 d3 a4 b4 c4 d4 a5 b5 c5 d5 a6 b6 c6 d6 a7 b7 c7 d7 a8 b8 c8 d8 a9 b9 c9 d9.
  subst h0 h1 h2 h3 h4 h5 h6 h7 h8 h9. ring.
Qed.

Lemma fe_pack_length : forall h, length (fe_pack h) = 32%nat.
Proof. reflexivity. Qed.

Lemma fe_to_bytes_spec : forall h, fe_bound 330 100 h -> le_val (abytes (fe_to_bytes h)) = fe_val h mod p25519.
Proof.
  intros h H. destruct (freeze_spec h H) as [F V]. unfold fe_to_bytes. rewrite to_arr_exact by apply fe_pack_length. rewrite pack_spec by exact F. exact V.
Qed.

Lemma le_val_first : forall s : arr32, zb (first_byte s) mod 2 = le_val (abytes s) mod 2.
Proof.
  intros s. unfold first_byte. destruct (abytes s) as [|b l]; [reflexivity|]. cbn [le_val].
  replace (zb b + 256 * le_val l) with (zb b + (128 * le_val l) * 2) by ring. rewrite Z.mod_add by lia. reflexivity.
Qed.

Lemma fe_is_negative_spec : forall h, fe_bound 330 100 h -> fe_is_negative h = (fe_val h mod p25519) mod 2.
Proof. intros h H. unfold fe_is_negative. rewrite le_val_first, fe_to_bytes_spec by exact H. reflexivity. Qed.

Lemma le_val_nonneg : forall l, 0 <= le_val l.
Proof. induction l as [|b l IH]; cbn [le_val]; [lia|]. pose proof (zb_range b). lia. Qed.

Lemma or_all_zero : forall l x, fold_left (fun x b => N.lor x (b2n b)) l x = 0%N <-> x = 0%N /\ le_val l = 0.
Proof.
  induction l as [|b l IH]; intros x; cbn [fold_left le_val]; [intuition|].
  rewrite IH. rewrite N.lor_eq_0_iff. pose proof (le_val_nonneg l). pose proof (zb_range b). unfold zb in *. split; intros H1; [lia|].
  destruct H1 as [-> H1]. repeat split; lia.
Qed.

Lemma or_all_byte : forall l x, (x < 256)%N -> (fold_left (fun x b => N.lor x (b2n b)) l x < 256)%N.
Proof.
  induction l as [|b l IH]; intros x Hx; cbn [fold_left]; [exact Hx|]. apply IH.
  assert (B := b2n_lt b). destruct (N.eq_dec (N.lor x (b2n b)) 0) as [->|N0]; [reflexivity|].
  apply (N.log2_lt_pow2 _ 8); [lia|]. rewrite N.log2_lor. apply N.max_lub_lt.
  - destruct (N.eq_dec x 0) as [->|]; [reflexivity|]. apply N.log2_lt_pow2; [lia|exact Hx].
  - destruct (N.eq_dec (b2n b) 0) as [->|]; [reflexivity|]. apply N.log2_lt_pow2; [lia|exact B].
Qed.

(** The or-fold of FeIsNonZero on every byte value. *)
Lemma or_fold_bit : forall x, (x < 256)%N ->
  (let x := N.lor x (x / 16) in let x := N.lor x (x / 4) in let x := N.lor x (x / 2) in Z.of_N (N.land x 1)) = if N.eqb x 0 then 0 else 1.
Proof.
  intros x H. rewrite <- (N2Nat.id x). assert (K : (N.to_nat x < 256)%nat) by lia. revert K. generalize (N.to_nat x). clear x H. intros n Hn.
  assert (A : forallb (fun n => let x := N.of_nat n in Z.eqb (let x := N.lor x (x / 16) in let x := N.lor x (x / 4) in let x := N.lor x (x / 2) in Z.of_N (N.land x 1))
    (if N.eqb x 0 then 0 else 1)) (seq 0 256) = true) by (vm_compute; reflexivity).
  rewrite forallb_forall in A. specialize (A n). apply Z.eqb_eq, A, in_seq. lia.
Qed.

Lemma fe_is_non_zero_spec : forall h, fe_bound 330 100 h -> fe_is_non_zero h = if Z.eqb (fe_val h mod p25519) 0 then 0 else 1.
Proof.
  intros h H. unfold fe_is_non_zero. rewrite or_fold_bit by (apply or_all_byte; reflexivity). rewrite <- fe_to_bytes_spec by exact H.
  set (l := abytes _). pose proof (or_all_zero l 0%N) as E. destruct (N.eqb_spec (fold_left (fun x b => N.lor x (b2n b)) l 0%N) 0) as [E1|E1], (Z.eqb_spec (le_val l) 0) as [E2|E2]; try reflexivity; exfalso; intuition.
Qed.

(** * Powers *)

Definition is_pow (z t : fe) (e : Z) : Prop := eqp (fe_val t) (fe_val z ^ e) /\ fe_bound 101 100 t.

Lemma fe_bound_weaken : forall n d n' d' t, fe_bound n d t -> 0 < d -> 0 < d' -> n * d' <= n' * d -> fe_bound n' d' t.
Proof.
  assert (K : forall n d n' d' x k, d * Z.abs x <= n * 2 ^ k -> 0 < d -> 0 < d' -> n * d' <= n' * d -> 0 <= k -> d' * Z.abs x <= n' * 2 ^ k).
  { intros n d n' d' x k H1 H2 H3 H4 H5. assert (0 < 2 ^ k) by (apply Z.pow_pos_nonneg; lia). set (q := 2 ^ k) in *. set (a := Z.abs x) in *.
    assert (d * (d' * a) <= d' * (n * q)) by nia. assert (d' * (n * q) <= d * (n' * q)) by nia. nia. }
  intros n d n' d' t (A0 & A1 & A2 & A3 & A4 & A5 & A6 & A7 & A8 & A9) H1 H2 H3. unfold fe_bound.
  repeat split; eapply K; try eassumption; lia.
Qed.

Lemma eqp_mul : forall a b c d, eqp a b -> eqp c d -> eqp (a * c) (b * d).
Proof. unfold eqp. intros a b c d H1 H2. rewrite Zmult_mod, H1, H2, <- Zmult_mod. reflexivity. Qed.

Lemma b101 : forall t, fe_bound 101 100 t -> fe_bound 22 10 t.
Proof. intros t H. apply (fe_bound_weaken 101 100); [exact H|lia|lia|lia]. Qed.

Lemma pow_mul : forall z s t a b, is_pow z s a -> is_pow z t b -> (0 <=? a) && (0 <=? b) = true -> is_pow z (fe_mul s t) (a + b).
Proof.
  intros z s t a b [V1 B1] [V2 B2] C. apply andb_prop in C. destruct C as [C1 C2]. apply Z.leb_le in C1, C2.
  destruct (fe_mul_spec s t (b101 _ B1) (b101 _ B2)) as [V B]. split; [|exact B]. unfold eqp in V |- *. rewrite V. rewrite Z.pow_add_r by lia. apply eqp_mul; assumption.
Qed.
Lemma pow_mul_z : forall z t b, fe_bound 22 10 z -> is_pow z t b -> (0 <=? b) = true -> is_pow z (fe_mul z t) (1 + b).
Proof.
  intros z t b HZ [V2 B2] C. apply Z.leb_le in C. destruct (fe_mul_spec z t HZ (b101 _ B2)) as [V B]. split; [|exact B]. unfold eqp in V |- *. rewrite V.
  rewrite Z.pow_add_r, Z.pow_1_r by lia. apply eqp_mul; [reflexivity|assumption].
Qed.
Lemma pow_mul_z_r : forall z t b, fe_bound 22 10 z -> is_pow z t b -> (0 <=? b) = true -> is_pow z (fe_mul t z) (b + 1).
Proof.
  intros z t b HZ [V2 B2] C. apply Z.leb_le in C. destruct (fe_mul_spec t z (b101 _ B2) HZ) as [V B]. split; [|exact B]. unfold eqp in V |- *. rewrite V.
  rewrite Z.pow_add_r, Z.pow_1_r by lia. apply eqp_mul; [assumption|reflexivity].
Qed.
Lemma pow_square : forall z t a, is_pow z t a -> (0 <=? a) = true -> is_pow z (fe_square t) (2 * a).
Proof.
  intros z t a [V1 B1] C. apply Z.leb_le in C. destruct (fe_square_spec t (b101 _ B1)) as [V B]. split; [|exact B]. unfold eqp in V |- *. rewrite V.
  replace (2 * a) with (a + a) by lia. rewrite Z.pow_add_r by lia. apply eqp_mul; assumption.
Qed.
Lemma pow_square_z : forall z, fe_bound 22 10 z -> is_pow z (fe_square z) 2.
Proof.
  intros z H. destruct (fe_square_spec z H) as [V B]. split; [|exact B]. unfold eqp in V |- *. rewrite V. f_equal. change 2 with (1 + 1). rewrite Z.pow_add_r, Z.pow_1_r by lia. reflexivity.
Qed.
Lemma pow_squares : forall n z t a, is_pow z t a -> 0 <= a -> is_pow z (squares n t) (2 ^ Z.of_nat n * a).
Proof.
  induction n as [|n IH]; intros z t a H HA.
  - change (squares 0 t) with t. change (2 ^ Z.of_nat 0) with 1. rewrite Z.mul_1_l. exact H.
  - change (squares (S n) t) with (fe_square (squares n t)). rewrite Nat2Z.inj_succ, Z.pow_succ_r by lia. rewrite <- Z.mul_assoc.
    apply pow_square; [apply IH; assumption|]. apply Z.leb_le, Z.mul_nonneg_nonneg; [apply Z.pow_nonneg; lia|exact HA].
Qed.
Lemma pow_sq_n : forall n z t a e, is_pow z t a -> (0 <=? a) && (e =? 2 ^ Z.of_nat n * (2 * a)) = true -> is_pow z (squares n (fe_square t)) e.
Proof.
  intros n z t a e H C. apply andb_prop in C. destruct C as [C1 C2]. apply Z.eqb_eq in C2. rewrite C2. apply pow_squares; [apply pow_square; assumption|]. apply Z.leb_le in C1. lia.
Qed.

Lemma fe_invert_pow : forall z, fe_bound 22 10 z -> is_pow z (fe_invert z) (p25519 - 2).
Proof.
  intros z HZ. unfold fe_invert. cbv zeta.
  set (x0 := fe_square z). assert (P0 : is_pow z x0 2) by (apply pow_square_z; exact HZ). clearbody x0.
  set (x1 := squares 1 (fe_square x0)). assert (P1 : is_pow z x1 8) by (apply (pow_sq_n 1 z x0 2); [exact P0|vm_compute; reflexivity]). clearbody x1.
  set (x2 := fe_mul z x1). assert (P2 : is_pow z x2 9) by (apply (pow_mul_z z x1 8); [exact HZ|exact P1|reflexivity]). clearbody x2.
  set (x3 := fe_mul x0 x2). assert (P3 : is_pow z x3 11) by (apply (pow_mul z x0 x2 2 9); [exact P0|exact P2|reflexivity]). clearbody x3.
  set (x4 := fe_square x3). assert (P4 : is_pow z x4 22) by (apply (pow_square z x3 11); [exact P3|reflexivity]). clearbody x4.
  set (x5 := fe_mul x2 x4). assert (P5 : is_pow z x5 31) by (apply (pow_mul z x2 x4 9 22); [exact P2|exact P4|reflexivity]). clearbody x5.
  set (x6 := squares 4 (fe_square x5)). assert (P6 : is_pow z x6 992) by (apply (pow_sq_n 4 z x5 31); [exact P5|vm_compute; reflexivity]). clearbody x6.
  set (x7 := fe_mul x6 x5). assert (P7 : is_pow z x7 1023) by (apply (pow_mul z x6 x5 992 31); [exact P6|exact P5|reflexivity]). clearbody x7.
  set (x8 := squares 9 (fe_square x7)). assert (P8 : is_pow z x8 1047552) by (apply (pow_sq_n 9 z x7 1023); [exact P7|vm_compute; reflexivity]). clearbody x8.
  set (x9 := fe_mul x8 x7). assert (P9 : is_pow z x9 1048575) by (apply (pow_mul z x8 x7 1047552 1023); [exact P8|exact P7|reflexivity]). clearbody x9.
  set (x10 := squares 19 (fe_square x9)). assert (P10 : is_pow z x10 1099510579200) by (apply (pow_sq_n 19 z x9 1048575); [exact P9|vm_compute; reflexivity]). clearbody x10.
  set (x11 := fe_mul x10 x9). assert (P11 : is_pow z x11 1099511627775) by (apply (pow_mul z x10 x9 1099510579200 1048575); [exact P10|exact P9|reflexivity]). clearbody x11.
  set (x12 := squares 9 (fe_square x11)). assert (P12 : is_pow z x12 1125899906841600) by (apply (pow_sq_n 9 z x11 1099511627775); [exact P11|vm_compute; reflexivity]). clearbody x12.
  set (x13 := fe_mul x12 x7). assert (P13 : is_pow z x13 1125899906842623) by (apply (pow_mul z x12 x7 1125899906841600 1023); [exact P12|exact P7|reflexivity]). clearbody x13.
  set (x14 := squares 49 (fe_square x13)). assert (P14 : is_pow z x14 1267650600228228275596796362752) by (apply (pow_sq_n 49 z x13 1125899906842623); [exact P13|vm_compute; reflexivity]). clearbody x14.
  set (x15 := fe_mul x14 x13). assert (P15 : is_pow z x15 1267650600228229401496703205375) by (apply (pow_mul z x14 x13 1267650600228228275596796362752 1125899906842623); [exact P14|exact P13|reflexivity]). clearbody x15.
  set (x16 := squares 99 (fe_square x15)). assert (P16 : is_pow z x16 1606938044258990275541962092339894951921974764381296132096000) by (apply (pow_sq_n 99 z x15 1267650600228229401496703205375); [exact P15|vm_compute; reflexivity]). clearbody x16.
  set (x17 := fe_mul x16 x15). assert (P17 : is_pow z x17 1606938044258990275541962092341162602522202993782792835301375) by (apply (pow_mul z x16 x15 1606938044258990275541962092339894951921974764381296132096000 1267650600228229401496703205375); [exact P16|exact P15|reflexivity]). clearbody x17.
  set (x18 := squares 49 (fe_square x17)). assert (P18 : is_pow z x18 1809251394333065553493296640760748560207343510400633813116523624223735808000) by (apply (pow_sq_n 49 z x17 1606938044258990275541962092341162602522202993782792835301375); [exact P17|vm_compute; reflexivity]). clearbody x18.
  set (x19 := fe_mul x18 x13). assert (P19 : is_pow z x19 1809251394333065553493296640760748560207343510400633813116524750123642650623) by (apply (pow_mul z x18 x13 1809251394333065553493296640760748560207343510400633813116523624223735808000 1125899906842623); [exact P18|exact P13|reflexivity]). clearbody x19.
  set (x20 := squares 4 (fe_square x19)). assert (P20 : is_pow z x20 57896044618658097711785492504343953926634992332820282019728792003956564819936) by (apply (pow_sq_n 4 z x19 1809251394333065553493296640760748560207343510400633813116524750123642650623); [exact P19|vm_compute; reflexivity]). clearbody x20.
  set (x21 := fe_mul x20 x3). assert (P21 : is_pow z x21 57896044618658097711785492504343953926634992332820282019728792003956564819947) by (apply (pow_mul z x20 x3 57896044618658097711785492504343953926634992332820282019728792003956564819936 11); [exact P20|exact P3|reflexivity]). clearbody x21.
  exact P21.
Qed.

Lemma fe_pow22523_pow : forall z, fe_bound 22 10 z -> is_pow z (fe_pow22523 z) ((p25519 - 5) / 8).
Proof.
  intros z HZ. unfold fe_pow22523. cbv zeta.
  set (x0 := fe_square z). assert (P0 : is_pow z x0 2) by (apply pow_square_z; exact HZ). clearbody x0.
  set (x1 := squares 1 (fe_square x0)). assert (P1 : is_pow z x1 8) by (apply (pow_sq_n 1 z x0 2); [exact P0|vm_compute; reflexivity]). clearbody x1.
  set (x2 := fe_mul z x1). assert (P2 : is_pow z x2 9) by (apply (pow_mul_z z x1 8); [exact HZ|exact P1|reflexivity]). clearbody x2.
  set (x3 := fe_mul x0 x2). assert (P3 : is_pow z x3 11) by (apply (pow_mul z x0 x2 2 9); [exact P0|exact P2|reflexivity]). clearbody x3.
  set (x4 := fe_square x3). assert (P4 : is_pow z x4 22) by (apply (pow_square z x3 11); [exact P3|reflexivity]). clearbody x4.
  set (x5 := fe_mul x2 x4). assert (P5 : is_pow z x5 31) by (apply (pow_mul z x2 x4 9 22); [exact P2|exact P4|reflexivity]). clearbody x5.
  set (x6 := squares 4 (fe_square x5)). assert (P6 : is_pow z x6 992) by (apply (pow_sq_n 4 z x5 31); [exact P5|vm_compute; reflexivity]). clearbody x6.
  set (x7 := fe_mul x6 x5). assert (P7 : is_pow z x7 1023) by (apply (pow_mul z x6 x5 992 31); [exact P6|exact P5|reflexivity]). clearbody x7.
  set (x8 := squares 9 (fe_square x7)). assert (P8 : is_pow z x8 1047552) by (apply (pow_sq_n 9 z x7 1023); [exact P7|vm_compute; reflexivity]). clearbody x8.
  set (x9 := fe_mul x8 x7). assert (P9 : is_pow z x9 1048575) by (apply (pow_mul z x8 x7 1047552 1023); [exact P8|exact P7|reflexivity]). clearbody x9.
  set (x10 := squares 19 (fe_square x9)). assert (P10 : is_pow z x10 1099510579200) by (apply (pow_sq_n 19 z x9 1048575); [exact P9|vm_compute; reflexivity]). clearbody x10.
  set (x11 := fe_mul x10 x9). assert (P11 : is_pow z x11 1099511627775) by (apply (pow_mul z x10 x9 1099510579200 1048575); [exact P10|exact P9|reflexivity]). clearbody x11.
  set (x12 := squares 9 (fe_square x11)). assert (P12 : is_pow z x12 1125899906841600) by (apply (pow_sq_n 9 z x11 1099511627775); [exact P11|vm_compute; reflexivity]). clearbody x12.
  set (x13 := fe_mul x12 x7). assert (P13 : is_pow z x13 1125899906842623) by (apply (pow_mul z x12 x7 1125899906841600 1023); [exact P12|exact P7|reflexivity]). clearbody x13.
  set (x14 := squares 49 (fe_square x13)). assert (P14 : is_pow z x14 1267650600228228275596796362752) by (apply (pow_sq_n 49 z x13 1125899906842623); [exact P13|vm_compute; reflexivity]). clearbody x14.
  set (x15 := fe_mul x14 x13). assert (P15 : is_pow z x15 1267650600228229401496703205375) by (apply (pow_mul z x14 x13 1267650600228228275596796362752 1125899906842623); [exact P14|exact P13|reflexivity]). clearbody x15.
  set (x16 := squares 99 (fe_square x15)). assert (P16 : is_pow z x16 1606938044258990275541962092339894951921974764381296132096000) by (apply (pow_sq_n 99 z x15 1267650600228229401496703205375); [exact P15|vm_compute; reflexivity]). clearbody x16.
  set (x17 := fe_mul x16 x15). assert (P17 : is_pow z x17 1606938044258990275541962092341162602522202993782792835301375) by (apply (pow_mul z x16 x15 1606938044258990275541962092339894951921974764381296132096000 1267650600228229401496703205375); [exact P16|exact P15|reflexivity]). clearbody x17.
  set (x18 := squares 49 (fe_square x17)). assert (P18 : is_pow z x18 1809251394333065553493296640760748560207343510400633813116523624223735808000) by (apply (pow_sq_n 49 z x17 1606938044258990275541962092341162602522202993782792835301375); [exact P17|vm_compute; reflexivity]). clearbody x18.
  set (x19 := fe_mul x18 x13). assert (P19 : is_pow z x19 1809251394333065553493296640760748560207343510400633813116524750123642650623) by (apply (pow_mul z x18 x13 1809251394333065553493296640760748560207343510400633813116523624223735808000 1125899906842623); [exact P18|exact P13|reflexivity]). clearbody x19.
  set (x20 := squares 1 (fe_square x19)). assert (P20 : is_pow z x20 7237005577332262213973186563042994240829374041602535252466099000494570602492) by (apply (pow_sq_n 1 z x19 1809251394333065553493296640760748560207343510400633813116524750123642650623); [exact P19|vm_compute; reflexivity]). clearbody x20.
  set (x21 := fe_mul x20 z). assert (P21 : is_pow z x21 7237005577332262213973186563042994240829374041602535252466099000494570602493) by (apply (pow_mul_z_r z x20 7237005577332262213973186563042994240829374041602535252466099000494570602492); [exact HZ|exact P20|reflexivity]). clearbody x21.
  exact P21.
Qed.

