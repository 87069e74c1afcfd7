(** MalleableProofs.v: proofs for C92. *)
From Verif Require Import Base Crypto Field25519 Scalar25519 FieldSpec FieldProofs FieldProofs2 FieldProofs3 FieldProofs4 FieldPrime Fermat ScalarSpec ScalarProofs ScalarProofs2 Fp CurveSpec CurveGroup EdBase Edwards EdwardsProofs EdwardsProofs2 EdwardsTable EdwardsMult EdwardsOrder OrderPrime KdfProofs PropertiesField PropertiesCurve XEdDSA XedSpec XedProofs XedRef.
From Coq Require Import ZArith Znumtheory List Lia.
Import ListNotations.
Local Open Scope F_scope.
Local Opaque padd popp.

Lemma scalar_inj : forall a b, (0 <= a < order_l)%Z -> (0 <= b < order_l)%Z -> zmul a base_point = zmul b base_point -> a = b.
Proof.
  intros a b HA HB E. assert (D : (order_l | a - b)%Z).
  { apply zmul_zero_iff. rewrite (zmul_sub a b base_point base_on_curve), E. apply padd_opp. exact (zmul_on_curve b base_point base_on_curve). }
  destruct D as [q D]. assert (q = 0)%Z by nia. subst q. lia.
Qed.
Lemma padd_right_cancel : forall P Q R, on_curve P -> on_curve Q -> on_curve R -> padd P R = padd Q R -> P = Q.
Proof.
  intros P Q R HP HQ HR E. rewrite <- (move_back R P HR HP), <- (move_back R Q HR HQ). rewrite (padd_comm R P), (padd_comm R Q), E. reflexivity.
Qed.
Lemma valid_unique : forall sha512 pub m (s1 s2 : arr64), xeddsa_valid sha512 pub m s1 -> xeddsa_valid sha512 pub m s2 ->
  firstn 32 (abytes s1) = firstn 32 (abytes s2) -> (le_val (skipn 32 (abytes s1)) / 2 ^ 255 = le_val (skipn 32 (abytes s2)) / 2 ^ 255)%Z -> s1 = s2.
Proof.
  intros sha512 pub m s1 s2 H1 H2 HR HT. unfold xeddsa_valid in H1, H2. cbv zeta in H1, H2.
  rewrite <- HR, <- HT in H2. destruct H1 as (A & k1 & C1 & Y1 & X1 & K1 & L1 & E1). destruct H2 as (B & k2 & C2 & Y2 & X2 & K2 & L2 & E2).
  assert (K : k1 = k2) by (apply arr_inj_val; rewrite K1, K2; reflexivity). subst k2. clear K2.
  assert (BD : (0 <= le_val (skipn 32 (abytes s1)) < 2 ^ 256)%Z).
  { assert (L := le_val_bound (skipn 32 (abytes s1))). rewrite skipn_length, arr_length in L. exact L. }
  set (sg := (le_val (skipn 32 (abytes s1)) / 2 ^ 255)%Z) in *.
  assert (SG : (0 <= sg < 2)%Z) by (unfold sg; split; [apply Z.div_pos; lia|apply Z.div_lt_upper_bound; lia]).
  revert Y1 Y2 K1. generalize ((ofZ (le_val (abytes pub) mod 2 ^ 255) - 1) / (ofZ (le_val (abytes pub) mod 2 ^ 255) + 1)). intros y Y1 Y2 K1.
  assert (FY := fz_range y). unfold p25519 in FY.
  assert (Q1 : (le_val (abytes k1) mod 2 ^ 255 = fz y)%Z). { rewrite K1, Z.mul_comm, Z.mod_add by lia. apply Z.mod_small. lia. }
  assert (Q2 : (le_val (abytes k1) / 2 ^ 255 = sg)%Z). { rewrite K1, Z.mul_comm, Z.div_add by lia. rewrite Z.div_small by lia. reflexivity. }
  assert (D1 : decodes k1 A). { unfold decodes. rewrite Q1, Q2, ofZ_fz. exact (conj C1 (conj Y1 X1)). }
  assert (D2 : decodes k1 B). { unfold decodes. rewrite Q1, Q2, ofZ_fz. exact (conj C2 (conj Y2 X2)). }
  assert (EA := decodes_unique k1 A B D1 D2). subst B. clear D1 D2 X2 Y2 C2. rewrite E1 in E2. clear E1.
  set (h := (le_val (abytes (sha512 (firstn 32 (abytes s1) ++ abytes k1 ++ m))) mod order_l)%Z) in E2. clearbody h.
  assert (CN := popp_on_curve _ (zmul_on_curve h A C1)). revert E2 CN. generalize (popp (zmul h A)). intros N E2 CN.
  set (a := (le_val (skipn 32 (abytes s1)) mod 2 ^ 255)%Z) in *. set (b := (le_val (skipn 32 (abytes s2)) mod 2 ^ 255)%Z) in *.
  assert (RA : (0 <= a < order_l)%Z) by (split; [apply Z.mod_pos_bound; lia|exact L1]). assert (RB : (0 <= b < order_l)%Z) by (split; [apply Z.mod_pos_bound; lia|exact L2]).
  assert (CA := zmul_on_curve a _ base_on_curve). assert (CB := zmul_on_curve b _ base_on_curve).
  assert (CPA := padd_on_curve _ _ CA CN). assert (CPB := padd_on_curve _ _ CB CN).
  assert (EP : padd (zmul a base_point) N = padd (zmul b base_point) N).
  { apply (encodes_inj (enc32 (enc_val (padd (zmul a base_point) N))) _ _ CPA CPB); unfold encodes; rewrite enc32_val by apply enc_lt; [reflexivity|exact E2]. }
  apply (padd_right_cancel _ _ _ CA CB CN) in EP. apply (scalar_inj a b RA RB) in EP.
  assert (V : le_val (skipn 32 (abytes s1)) = le_val (skipn 32 (abytes s2))).
  { rewrite (Z.div_mod (le_val (skipn 32 (abytes s1))) (2 ^ 255)) by lia. rewrite (Z.div_mod (le_val (skipn 32 (abytes s2))) (2 ^ 255)) by lia. fold a. fold b. rewrite <- HT, EP. reflexivity. }
  apply le_val_inj in V; [|rewrite !skipn_length, !arr_length; reflexivity].
  rewrite <- (to_arr_abytes 64 s1), <- (to_arr_abytes 64 s2). apply (f_equal (to_arr 64)). rewrite <- (firstn_skipn 32 (abytes s1)), HR, V. apply firstn_skipn.
Qed.

(** Verification reads of a public key only its coordinate. *)
Lemma valid_same_key : forall sha512 (pub pub' : arr32) m s, ofZ (le_val (abytes pub) mod 2 ^ 255) = ofZ (le_val (abytes pub') mod 2 ^ 255) ->
  xeddsa_valid sha512 pub m s -> xeddsa_valid sha512 pub' m s.
Proof. intros sha512 pub pub' m s E H. unfold xeddsa_valid in *. cbv zeta in *. rewrite <- E. exact H. Qed.
Lemma alias_key : forall pub : arr32, exists pub' : arr32, pub' <> pub /\ (le_val (abytes pub') mod 2 ^ 255 = le_val (abytes pub) mod 2 ^ 255)%Z.
Proof.
  intros pub. set (n := le_val (abytes pub)). assert (B := le_val_bound (abytes pub)). rewrite arr_length in B. change (256 ^ Z.of_nat 32)%Z with (2 ^ 256)%Z in B. fold n in B.
  assert (K : exists z, (0 <= z < 2 ^ 256)%Z /\ (z mod 2 ^ 255 = n mod 2 ^ 255)%Z /\ z <> n).
  { destruct (Z.lt_ge_cases n (2 ^ 255)) as [H|H].
    - exists (n + 1 * 2 ^ 255)%Z. split; [lia|]. split; [apply Z.mod_add; lia|lia].
    - exists (n + (-1) * 2 ^ 255)%Z. split; [lia|]. split; [apply Z.mod_add; lia|lia]. }
  destruct K as (z & R & M & N). exists (enc32 z). assert (V := enc32_val z R). split; [|rewrite V; exact M].
  intros E. apply N. rewrite <- V, E. reflexivity.
Qed.
