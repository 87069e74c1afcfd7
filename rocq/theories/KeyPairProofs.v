(** KeyPairProofs.v: which private keys share a public key, when a shared secret is zero, keys of small order. *)
From Verif Require Import Base Labels Crypto Ecc Keys X3dh Messages SessionState SessionRecord SessionBuilder FieldSpec ScalarSpec Fp CurveSpec CurveGroup EdBase Edwards EdwardsTable EdwardsOrder OrderPrime
  XEdDSA XedSpec XedProofs XedRef Sha2 Aes X25519 AesProofs LadderProofs PropertiesStandard KdfProofs OpsProofs2.
From Coq Require Import ZArith Znumtheory NArith List Lia Bool Ring Field.
Import ListNotations.
Local Open Scope Z_scope.
Local Opaque padd popp zmul smul base_point.

Lemma scalar_form : forall k, exists m, scalar_of k = 8 * m /\ 2 ^ 251 <= m < 2 ^ 252.
Proof.
  intros k. unfold scalar_of. pose proof (Z.mod_pos_bound (le_val k / 8) (2 ^ 251) ltac:(lia)) as B. exists (2 ^ 251 + (le_val k / 8) mod 2 ^ 251). split; lia.
Qed.
Lemma l_coprime_8 : forall z, (order_l | 8 * z) -> (order_l | z).
Proof.
  intros z D. apply Gauss in D; [exact D|]. apply prime_rel_prime; [exact order_l_prime|]. intros K. apply Z.divide_pos_le in K; [|lia]. unfold order_l in K. lia.
Qed.
Lemma zmul_pm : forall s s', mont_u (zmul s base_point) = mont_u (zmul s' base_point) -> zmul s base_point <> pzero -> zmul s' base_point <> pzero ->
  (order_l | s - s') \/ (order_l | s + s').
Proof.
  intros s s' H N N'. pose proof base_on_curve as C.
  assert (CS : on_curve (zmul s base_point)) by (apply zmul_on_curve; exact C). assert (CS' : on_curve (zmul s' base_point)) by (apply zmul_on_curve; exact C).
  assert (Y : py (zmul s base_point) = py (zmul s' base_point)).
  { rewrite <- (ed_y_mont_u (zmul s base_point)) by (intros E; exact (N (y_one _ CS E))). rewrite <- (ed_y_mont_u (zmul s' base_point)) by (intros E; exact (N' (y_one _ CS' E))). rewrite H. reflexivity. }
  clear H. destruct (same_y _ _ CS CS' Y) as [X|X].
  - left. apply zmul_zero_iff. rewrite zmul_sub by exact C. assert (E : zmul s base_point = zmul s' base_point).
    { generalize dependent (zmul s' base_point). generalize dependent (zmul s base_point). intros [x y] _ _ [x' y'] _ _ Y X. unfold px, py in *. cbn [fst snd] in *. rewrite X, Y. reflexivity. }
    rewrite E. apply padd_opp. exact CS'.
  - right. apply zmul_zero_iff. rewrite zmul_add by exact C. assert (E : zmul s base_point = popp (zmul s' base_point)).
    { Local Transparent popp. unfold popp. generalize dependent (zmul s' base_point). generalize dependent (zmul s base_point). intros [x y] _ _ [x' y'] _ _ Y X. unfold px, py in *. cbn [fst snd] in *. rewrite X, Y. reflexivity. }
    Local Opaque popp. rewrite E, padd_comm. apply padd_opp. exact CS'.
Qed.
Lemma scalar_neq_zero : forall k, zmul (scalar_of k) base_point <> pzero.
Proof.
  intros k. unfold scalar_of. pose proof (Z.mod_pos_bound (le_val k / 8) (2 ^ 251) ltac:(lia)) as B. exact (clamped_nonzero _ _ eq_refl B).
Qed.
Theorem same_public : forall k k' : arr32, x25519_base k = x25519_base k' <->
  scalar_of (abytes k) = scalar_of (abytes k') \/ scalar_of (abytes k) + scalar_of (abytes k') = 8 * order_l.
Proof.
  intros k k'. destruct x25519_ok as [_ HB]. split.
  - intros H. apply (f_equal (fun a : arr32 => le_val (abytes a))) in H. rewrite !HB in H. apply F_eq in H.
    destruct (scalar_form (abytes k)) as (m & E & B). destruct (scalar_form (abytes k')) as (m' & E' & B').
    destruct (zmul_pm _ _ H (scalar_neq_zero _) (scalar_neq_zero _)) as [D|D]; rewrite E, E' in *.
    + left. assert (D1 : (order_l | m - m')). { apply l_coprime_8. replace (8 * (m - m')) with (8 * m - 8 * m') by ring. exact D. }
      destruct D1 as [q Hq]. assert (q = 0). { unfold order_l in Hq. lia. } subst q. lia.
    + right. assert (D1 : (order_l | m + m')). { apply l_coprime_8. replace (8 * (m + m')) with (8 * m + 8 * m') by ring. exact D. }
      destruct D1 as [q Hq]. assert (q = 1). { unfold order_l in Hq. lia. } subst q. lia.
  - intros H. apply arr_inj_val. rewrite !HB. apply (f_equal fz). destruct H as [->|H]; [reflexivity|].
    assert (E : scalar_of (abytes k) = 8 * order_l + - scalar_of (abytes k')) by lia. rewrite E. pose proof base_on_curve as C.
    rewrite zmul_add by exact C. rewrite zmul_mul by exact C. rewrite base_order, zmul_pzero, padd_zero_l, zmul_opp. apply mont_u_opp.
Qed.

Lemma zero_val : forall a : arr32, le_val (abytes a) = 0 -> a = zero_arr 32.
Proof. intros a H. apply arr_inj_val. rewrite H. reflexivity. Qed.
Theorem honest_secret_nonzero : forall k k' : arr32, x25519 k (x25519_base k') <> zero_arr 32.
Proof.
  intros k k' H. destruct x25519_ok as [HM HB]. pose proof base_on_curve as C.
  assert (CS : on_curve (zmul (scalar_of (abytes k')) base_point)) by (apply zmul_on_curve; exact C).
  apply (f_equal (fun a : arr32 => le_val (abytes a))) in H. rewrite (HM k (x25519_base k') _ CS) in H by (rewrite HB, fz_mod_255; apply ofZ_fz).
  assert (E0 : le_val (abytes (zero_arr 32)) = fz f0) by reflexivity. rewrite E0 in H. apply F_eq in H. clear E0.
  rewrite <- (zmul_mul _ _ base_point C) in H.
  assert (D : (order_l | 2 * (scalar_of (abytes k) * scalar_of (abytes k')))).
  { apply zmul_zero_iff. rewrite (zmul_mul 2 _ base_point C). destruct (mont_u_eq_0 _ (zmul_on_curve _ _ C) H) as [E|E]; rewrite E; [apply zmul_pzero|].
    change 2 with (2 * 1). apply t2_even. }
  assert (P := order_l_prime). apply (prime_mult _ P) in D. destruct D as [D|D]; [apply Z.divide_pos_le in D; [|lia]; unfold order_l in D; lia|].
  apply (prime_mult _ P) in D. destruct D as [D|D]; apply zmul_zero_iff in D; exact (scalar_neq_zero _ D).
Qed.
Theorem low_order_secret : forall (k p : arr32) P, on_curve P -> zmul 8 P = pzero -> ofZ (le_val (abytes p) mod 2 ^ 255) = mont_u P -> x25519 k p = zero_arr 32.
Proof.
  intros k p P C H8 HU. destruct x25519_ok as [HM _]. apply zero_val. rewrite (HM k p P C HU). destruct (scalar_form (abytes k)) as (m & -> & _).
  rewrite Z.mul_comm, (zmul_mul m 8 P C), H8, zmul_pzero, mont_u_zero. reflexivity.
Qed.

(** The u-coordinate of a point of order 1, 2, 4 or 8. *)
Definition low_order (p : arr32) : Prop := exists P, on_curve P /\ zmul 8 P = pzero /\ ofZ (le_val (abytes p) mod 2 ^ 255) = mont_u P.
Lemma zero_low_order : low_order (zero_arr 32).
Proof.
  exists t2. split; [exact t2_on_curve|]. split; [change 8 with (2 * 4); apply t2_even|].
  assert (E : le_val (abytes (zero_arr 32)) mod 2 ^ 255 = 0) by reflexivity. rewrite E. unfold mont_u, t2, py. cbn [snd].
  change (ofZ 0) with f0. apply fdiv_eq; [|ring]. intros HE. apply two_neq_0. rewrite <- HE. ring.
Qed.
(** y = 0: a point of order 4, u = 1. *)
Definition t4 : point := (sqrt_m1, f0).
Lemma t4_on_curve : on_curve t4.
Proof. unfold on_curve, t4, px, py. cbn [fst snd]. rewrite sqrt_m1_ok. generalize d_ed. intros d. ring. Qed.
Lemma one_low_order : low_order (to_arr 32 [x01]).
Proof.
  exists t4. split; [exact t4_on_curve|]. assert (D : padd t4 t4 = t2).
  { symmetry. apply is_sum_padd; [exact t4_on_curve|exact t4_on_curve|]. unfold is_sum, t4, t2, px, py. cbn [fst snd]. rewrite !sqrt_m1_ok. split; ring. }
  split.
  - change 8 with (4 * 2). rewrite (zmul_mul 4 2 t4 t4_on_curve). assert (E : zmul 2 t4 = t2). { change 2 with (1 + 1). rewrite (zmul_add 1 1 t4 t4_on_curve), zmul_1. exact D. }
    rewrite E. change 4 with (2 * 2). apply t2_even.
  - assert (E : le_val (abytes (to_arr 32 [x01])) mod 2 ^ 255 = 1) by reflexivity. rewrite E. unfold mont_u, t4, py. cbn [snd].
    change (ofZ 1) with f1. apply fdiv_eq; [|ring]. intros HE. apply f1_neq_0. rewrite <- HE. ring.
Qed.

Lemma low_order_shared : forall p k, low_order p -> shared_secret standard p k = zero_arr 32.
Proof. intros p k (P & C & H8 & HU). exact (low_order_secret k p P C H8 HU). Qed.
Lemma low_order_sender : forall p k, kp_priv (sp_our_base p) = Some k -> low_order (sp_their_identity p) -> low_order (sp_their_signed p) ->
  (forall o, sp_their_one_time p = Some o -> low_order o) ->
  calculate_sender_session standard p = derive_session standard (repeat xff 32 ++ repeat x00 (if sp_their_one_time p then 128 else 96)).
Proof.
  intros p k HB H1 H2 H3. unfold calculate_sender_session. cbv zeta. unfold priv_of. rewrite HB. cbn [bind]. rewrite (low_order_shared _ _ H1), !(low_order_shared _ _ H2).
  destruct (sp_their_one_time p) as [o|]; [rewrite (low_order_shared _ _ (H3 o eq_refl))|]; reflexivity.
Qed.

(** A bundle in which every key is the all-zero string, and a signature that is accepted for it. *)
Definition zero_bundle : bundle :=
  {| b_reg := 1; b_prekey_id := Some (ou_some 7); b_prekey := Some (zero_arr 32); b_signed_id := 9;
     b_signed := Some (zero_arr 32); b_sig := to_arr 64 [x01]; b_identity := zero_arr 32 |}.
Definition zero_key : bytes := xec :: repeat xff 30 ++ [x7f].
Lemma zero_hash_even : le_val (sha sha512_params ((x01 :: repeat x00 31) ++ zero_key ++ x05 :: repeat x00 32)) mod order_l mod 2 = 0.
Proof. vm_compute. reflexivity. Qed.
Lemma zero_bundle_signature : verify_signature standard (zero_arr 32) (ser_pub (zero_arr 32)) (to_arr 64 [x01]) = true.
Proof.
  unfold verify_signature. change (xed_verify standard) with (xeddsa_verify (ref_verify sha512)). apply (verify_exact sha512 (ref_verify sha512) (ref_verify_ok sha512)).
  exists t2, (to_arr 32 zero_key). cbv zeta.
  assert (E0 : le_val (abytes (zero_arr 32)) mod 2 ^ 255 = 0) by reflexivity. rewrite E0. clear E0. change (ofZ 0) with f0.
  assert (EY : fdiv (fsub f0 f1) (fadd f0 f1) = fopp f1). { symmetry. apply fdiv_eq; [|ring]. intros HE. apply f1_neq_0. rewrite <- HE. ring. }
  rewrite EY. clear EY.
  assert (ES : le_val (skipn 32 (abytes (to_arr 64 [x01]))) = 0) by reflexivity. rewrite ES. clear ES.
  split; [exact t2_on_curve|]. split; [reflexivity|]. split; [left; reflexivity|]. split; [reflexivity|]. split; [reflexivity|].
  assert (EM : firstn 32 (abytes (to_arr 64 [x01])) ++ abytes (to_arr 32 zero_key) ++ ser_pub (zero_arr 32) = (x01 :: repeat x00 31) ++ zero_key ++ x05 :: repeat x00 32) by reflexivity.
  rewrite EM. clear EM. unfold sha512. rewrite (to_arr_exact 64 _ (sha512_bytes_len ((x01 :: repeat x00 31) ++ zero_key ++ x05 :: repeat x00 32))).
  pose proof zero_hash_even as HE. generalize dependent (le_val (sha sha512_params ((x01 :: repeat x00 31) ++ zero_key ++ x05 :: repeat x00 32)) mod order_l). intros h HE.
  assert (Hh : h = 2 * (h / 2)) by (pose proof (Z.div_mod h 2 ltac:(lia)); lia). rewrite Hh. rewrite t2_even, popp_zero, padd_zero_r.
  change (0 mod 2 ^ 255) with 0. rewrite zmul_0. reflexivity.
Qed.

Lemma zero_bundle_session : forall v s1 s2 g, v_trusted v (zero_arr 32) = true -> exists r es sc,
  process_bundle standard v zero_bundle (Some s1 :: Some s2 :: g) = (Ok tt, r, es, g) /\
  let first := derived_secrets (hkdf_bytes standard (repeat xff 32 ++ repeat x00 128) None x3dh_info 64) in
  let second := derived_secrets (hkdf_bytes standard (repeat x00 32) (Some (sk_root first)) root_kdf_info 64) in
  s_root (r_cur r) = Some (sk_root second) /\ s_sender (r_cur r) = Some sc /\ ch_key sc = sk_chain second.
Proof.
  intros v s1 s2 g HT. unfold process_bundle. cbn [zero_bundle b_identity b_signed b_sig b_prekey b_prekey_id b_signed_id b_reg]. rewrite HT, zero_bundle_signature. cbn [negb].
  cbn [generate_key_pair rng_read].
  rewrite (CryptoProofs.sender_session_explicit standard _ (clamp (to_arr 32 s1))) by reflexivity. cbn [sp_our_identity sp_their_signed sp_their_identity sp_their_one_time].
  assert (HZ : forall k, x_mult standard k (zero_arr 32) = zero_arr 32) by (intros k; exact (low_order_shared _ k zero_low_order)).
  rewrite !HZ. erewrite CryptoProofs.create_chain_ok by reflexivity. rewrite HZ.
  do 3 eexists. split; [reflexivity|]. cbv zeta. split; [reflexivity|]. split; [reflexivity|]. reflexivity.
Qed.
