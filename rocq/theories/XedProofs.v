(** XedProofs.v: signatures made by sign are accepted by verify. *)
From Verif Require Import Base Crypto Field25519 Scalar25519 FieldSpec FieldProofs FieldProofs2 FieldProofs3 FieldProofs4 FieldPrime Fermat ScalarSpec ScalarProofs ScalarProofs2 Fp CurveSpec CurveGroup EdBase Edwards EdwardsProofs EdwardsProofs2 EdwardsTable EdwardsMult EdwardsOrder OrderPrime KdfProofs PropertiesField XEdDSA XedSpec.
From Coq Require Import ZArith Znumtheory List Lia Bool Ring Field.
Import ListNotations.
Local Open Scope F_scope.

(** * The key conversion in the field *)
Lemma finv_pow : forall x : F, x <> 0 -> ofZ (fz x ^ (p25519 - 2)) = finv x.
Proof.
  intros x N. assert (E : x * ofZ (fz x ^ (p25519 - 2)) = 1).
  { rewrite <- (ofZ_fz x) at 1. rewrite <- ofZ_mul. apply ofZ_eq. apply pow_p_minus_2. rewrite fz_mod. intros K. apply N. apply F_eq. exact K. }
  apply (finv_unique x) in E. exact (proj2 E).
Qed.
(** The Edwards y-coordinate of a Curve25519 key; 0 when u = -1. *)
Definition ed_y (u : F) : F := (u - 1) / (u + 1).
Lemma mont_to_ed_y : forall pub sig63,
  le_val (abytes (mont_to_ed pub sig63)) = (fz (ed_y (ofZ (le_val (abytes pub) mod 2 ^ 255))) + 2 ^ 255 * (zb sig63 / 128))%Z.
Proof.
  intros pub sig63. rewrite mont_to_ed_val. cbv zeta. set (u := (le_val (abytes pub) mod 2 ^ 255)%Z). clearbody u. apply (f_equal (fun x => (x + 2 ^ 255 * (zb sig63 / 128))%Z)).
  change (((u - 1) * (u + 1) ^ (p25519 - 2)) mod p25519)%Z with (fz (ofZ ((u - 1) * (u + 1) ^ (p25519 - 2)))). apply (f_equal fz).
  unfold ed_y, fdiv. rewrite ofZ_mul, ofZ_sub. change (ofZ 1) with f1. apply (f_equal (fmul (ofZ u - 1))).
  assert (E : ofZ u + 1 = ofZ (u + 1)) by (rewrite ofZ_add; reflexivity). rewrite E. clear E. generalize (u + 1)%Z. clear u. intros v.
  unfold finv. rewrite powmod_spec by (reflexivity || discriminate). apply ofZ_eq. unfold eqp. rewrite Z.mod_mod by discriminate. apply (mod_pow_eqp v (p25519 - 2)). discriminate.
Qed.

Lemma mont_alg : forall y : F, y <> 1 -> ofZ 2 <> 0 -> ((1 + y) / (1 - y) - 1) / ((1 + y) / (1 - y) + 1) = y.
Proof.
  intros y N N2. assert (N1 : 1 - y <> 0) by (intros E; apply N; symmetry; apply fsub_zero; exact E).
  assert (E1 : (1 + y) / (1 - y) + 1 = ofZ 2 / (1 - y)) by (field; exact N1).
  assert (E2 : (1 + y) / (1 - y) - 1 = ofZ 2 * y / (1 - y)) by (field; exact N1).
  rewrite E1, E2. field. split; [exact N1|exact N2].
Qed.
Lemma ed_y_mont_u : forall P, py P <> 1 -> ed_y (mont_u P) = py P.
Proof. intros P N. unfold ed_y, mont_u. exact (mont_alg (py P) N f2_neq_0). Qed.

(** Only the neutral element has y = 1. *)
Lemma y_one : forall P, on_curve P -> py P = 1 -> P = pzero.
Proof.
  intros P C E. destruct (same_y P pzero C pzero_on_curve E) as [X|X]; destruct P as [x y]; cbn [px py fst snd pzero] in *; unfold pzero; apply (f_equal2 pair); try exact E.
  - exact X.
  - rewrite X. ring.
Qed.

(** Clamped scalars do not kill the base point. *)
Lemma clamped_nonzero : forall k x, k = (2 ^ 254 + 8 * x)%Z -> (0 <= x < 2 ^ 251)%Z -> zmul k base_point <> pzero.
Proof.
  intros k x E R H. apply zmul_zero_iff in H. assert (D : (order_l | 8 * (2 ^ 251 + x))%Z). { replace (8 * (2 ^ 251 + x))%Z with k by (rewrite E; ring). exact H. }
  apply Gauss in D.
  - apply Z.divide_pos_le in D; [|lia]. unfold order_l in D. lia.
  - apply prime_rel_prime; [exact order_l_prime|]. intros K. apply Z.divide_pos_le in K; [|lia]. unfold order_l in K. lia.
Qed.

(** * Bytes *)
Lemma clear_set_top : forall t b, (zb b < 128)%Z -> clear_top (set_top t b) = b.
Proof.
  intros t b H. assert (E : zb (clear_top (set_top t b)) = zb b).
  { rewrite zb_clear_top, zb_set_top by exact H. rewrite Z.mul_comm, Z.mod_add by lia. apply Z.mod_small. pose proof (zb_range b). lia. }
  apply (f_equal Z.to_N) in E. unfold zb in E. rewrite !N2Z.id in E. apply (f_equal n2b) in E. rewrite !n2b_b2n in E. exact E.
Qed.
Lemma top_set_top : forall t b, (zb b < 128)%Z -> (zb (set_top t b) / 128 = zb t / 128)%Z.
Proof.
  intros t b H. rewrite zb_set_top by exact H. rewrite Z.mul_comm, Z.div_add by lia. pose proof (zb_range b). rewrite Z.div_small by lia. lia.
Qed.
Lemma arr_inj_val : forall a b : arr32, le_val (abytes a) = le_val (abytes b) -> a = b.
Proof.
  intros a b H. rewrite <- (to_arr_abytes 32 a), <- (to_arr_abytes 32 b). f_equal. apply le_val_inj; [rewrite !arr_length; reflexivity|exact H].
Qed.
Lemma top_byte : forall s : arr32, (zb (last (abytes s) x00) / 128 = le_val (abytes s) / 2 ^ 255)%Z.
Proof.
  intros s. destruct (arr32_snoc s) as (l & b & E & L). rewrite E, last_last, le_val_snoc, L. change (256 ^ Z.of_nat 31)%Z with (2 ^ 248)%Z.
  pose proof (le_val_bound l) as B. rewrite L in B. change (256 ^ Z.of_nat 31)%Z with (2 ^ 248)%Z in B.
  replace (2 ^ 255)%Z with (2 ^ 248 * 128)%Z by reflexivity. rewrite <- Z.div_div by lia. rewrite Z.mul_comm, Z.div_add by lia. rewrite (Z.div_small (le_val l)) by lia. reflexivity.
Qed.

(** * Signing and verifying *)
Local Opaque padd popp.
Lemma sign_equation : forall a r h, zmul ((h * a + r) mod order_l) base_point = padd (zmul h (zmul a base_point)) (zmul r base_point).
Proof.
  intros a r h. rewrite zmul_mod_order. pose proof base_on_curve as C. generalize dependent base_point. intros B C.
  rewrite (zmul_add _ _ B C), (zmul_mul _ _ B C). reflexivity.
Qed.
Lemma move_back : forall P Q, on_curve P -> on_curve Q -> padd (padd P Q) (popp P) = Q.
Proof.
  intros P Q HP HQ. rewrite (padd_comm P Q). rewrite (padd_assoc Q P (popp P) HQ HP (popp_on_curve P HP)). rewrite (padd_opp P HP). apply padd_zero_r.
Qed.

Lemma sig_split : forall (R s : arr32) t, (le_val (abytes s) < 2 ^ 255)%Z ->
  let sg := to_arr 64 (on_last (set_top t) (abytes R ++ abytes s)) in
  (zb (last (abytes sg) x00) / 128 = zb t / 128)%Z /\ to_arr 64 (on_last clear_top (abytes sg)) = to_arr 64 (abytes R ++ abytes s).
Proof.
  intros R s t H sg. destruct (arr32_snoc s) as (l & b & E & L). assert (B : (zb b < 128)%Z).
  { rewrite E, le_val_snoc, L in H. change (256 ^ Z.of_nat 31)%Z with (2 ^ 248)%Z in H. pose proof (le_val_bound l). pose proof (zb_range b). lia. }
  assert (A : abytes sg = (abytes R ++ l) ++ [set_top t b]).
  { unfold sg. rewrite E, app_assoc, on_last_snoc. apply to_arr_exact. rewrite !app_length, arr_length, L. reflexivity. }
  rewrite A, last_last, on_last_snoc, clear_set_top by exact B. split; [apply top_set_top, B|]. rewrite E, app_assoc. reflexivity.
Qed.
Lemma order_lt_255 : forall z, (0 <= z mod order_l < order_l)%Z.
Proof. intros z. apply Z.mod_pos_bound. reflexivity. Qed.
Lemma enc_lt : forall P, (0 <= enc_val P < 2 ^ 256)%Z.
Proof. intros P. unfold enc_val. pose proof (fz_range (py P)) as R. unfold p25519 in R. pose proof (Z.mod_pos_bound (fz (px P)) 2 ltac:(lia)). lia. Qed.

(** The converted public key is the Edwards public key of sign, byte for byte. *)
Lemma converted_key : forall (pub enc : arr32) A t, on_curve A -> A <> pzero -> le_val (abytes pub) = fz (mont_u A) -> encodes enc A ->
  (zb t / 128 = zb (last (abytes enc) x00) / 128)%Z -> mont_to_ed pub t = enc.
Proof.
  intros pub enc A t C N U E T. apply arr_inj_val. rewrite mont_to_ed_y, U. pose proof (fz_range (mont_u A)) as R. unfold p25519 in R.
  rewrite (Z.mod_small (fz (mont_u A))) by lia. rewrite ofZ_fz. rewrite ed_y_mont_u by (intros Y; apply N; exact (y_one A C Y)).
  rewrite T, top_byte. unfold encodes in E. rewrite E. unfold enc_val. pose proof (fz_range (py A)) as RY. unfold p25519 in RY.
  pose proof (Z.mod_pos_bound (fz (px A)) 2 ltac:(lia)) as M. apply (f_equal (fun x => (fz (py A) + 2 ^ 255 * x)%Z)).
  rewrite Z.mul_comm, Z.div_add by lia. rewrite Z.div_small by lia. lia.
Qed.

Theorem sign_verify : forall sha512 verify mult base, x25519_spec mult base -> ed25519_spec sha512 verify ->
  forall k m random, xeddsa_verify verify (base (clamp k)) m (xeddsa_sign sha512 (clamp k) m random) = true.
Proof.
  intros sha512 verify mult base [_ HB] HV k m random. unfold xeddsa_verify, xeddsa_sign. cbv zeta.
  pose proof (clamp_val k) as KV. set (x := ((le_val (abytes k) / 8) mod 2 ^ 251)%Z) in KV. assert (RX : (0 <= x < 2 ^ 251)%Z) by (apply Z.mod_pos_bound; lia). clearbody x.
  assert (KB : (le_val (abytes (clamp k)) < 2 ^ 255)%Z) by (rewrite KV; lia).
  assert (SC : scalar_of (abytes (clamp k)) = le_val (abytes (clamp k))).
  { unfold scalar_of. rewrite KV. replace (2 ^ 254 + 8 * x)%Z with ((2 ^ 251 + x) * 8)%Z by ring. rewrite Z.div_mul by lia.
    replace (2 ^ 251 + x)%Z with (x + 1 * 2 ^ 251)%Z by ring. rewrite Z.mod_add by lia. rewrite Z.mod_small by lia. ring. }
  pose proof (clamped_nonzero _ x KV RX) as NZ. pose proof (scalar_mult_base_rep (clamp k) KB) as RA. pose proof (ext_to_bytes_rep _ _ RA) as EA.
  specialize (HB (clamp k)). rewrite SC in HB. pose proof (zmul_on_curve (le_val (abytes (clamp k))) base_point base_on_curve) as CA.
  generalize dependent (ext_to_bytes (scalar_mult_base (clamp k))). intros encA EA. clear RA.
  pose proof (sc_reduce_spec (sha512 (diversifier ++ abytes (clamp k) ++ m ++ abytes random))) as RV. generalize dependent (sc_reduce (sha512 (diversifier ++ abytes (clamp k) ++ m ++ abytes random))).
  intros rr RV. pose proof (order_lt_255 (le_val (abytes (sha512 (diversifier ++ abytes (clamp k) ++ m ++ abytes random))))) as RB. rewrite <- RV in RB.
  assert (RB2 : (le_val (abytes rr) < 2 ^ 255)%Z) by (unfold order_l in RB; lia). clear RV.
  pose proof (ext_to_bytes_rep _ _ (scalar_mult_base_rep rr RB2)) as ER. generalize dependent (ext_to_bytes (scalar_mult_base rr)). intros encR ER.
  pose proof (sc_reduce_spec (sha512 (abytes encR ++ abytes encA ++ m))) as HRV. generalize dependent (sc_reduce (sha512 (abytes encR ++ abytes encA ++ m))). intros h HRV.
  pose proof (sc_mul_add_spec h (clamp k) rr) as SV. pose proof (order_lt_255 (le_val (abytes h) * le_val (abytes (clamp k)) + le_val (abytes rr))) as SB.
  rewrite <- SV in SB. assert (SB2 : (le_val (abytes (sc_mul_add h (clamp k) rr)) < 2 ^ 255)%Z) by (unfold order_l in SB; lia).
  generalize dependent (sc_mul_add h (clamp k) rr). intros s SV SB SB2.
  destruct (sig_split encR s (last (abytes encA) x00) SB2) as [S1 S2]. rewrite S2. rewrite (converted_key _ encA _ _ CA NZ HB EA S1). clear S1 S2.
  apply HV. rewrite to_arr_exact by (rewrite app_length, !arr_length; reflexivity).
  rewrite firstn_app, arr_length, firstn_all2 by (rewrite arr_length; apply le_n). rewrite Nat.sub_diag, firstn_O, app_nil_r.
  rewrite skipn_app, arr_length, skipn_all2 by (rewrite arr_length; apply le_n). rewrite Nat.sub_diag. change (skipn 0 (abytes s)) with (abytes s). cbn [app].
  exists (zmul (le_val (abytes (clamp k))) base_point). rewrite to_arr_abytes. split; [apply encodes_decodes; [exact CA|exact EA]|]. split; [apply SB|].
  unfold encodes in ER. rewrite ER. apply (f_equal enc_val). rewrite <- HRV, SV, sign_equation. symmetry.
  apply move_back; [apply zmul_on_curve; exact CA|apply zmul_on_curve; exact base_on_curve].
Qed.
