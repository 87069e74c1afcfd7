(** PropertiesMalleable.v: which other signatures and keys verify once one does (C92). [verify_signature] is ecc.VerifySignature, here with the library's own
    signature code ([with_xeddsa], XEdDSA.v) over crypto/ed25519 and SHA-512; [ed25519_spec] (XedSpec.v) says what the former computes. *)
From Verif Require Import Base Crypto Ecc Field25519 FieldSpec Fp CurveSpec ScalarSpec XEdDSA XedSpec XedRef MalleableProofs PropertiesXed Toy.
From Coq Require Import ZArith List.
Import ListNotations.
Local Open Scope list_scope.

(** The first half of a signature, and the top bit of its last byte. *)
Definition first_half (s : arr64) : bytes := firstn 32 (abytes s).
Definition top_bit (s : arr64) : bool := (128 <=? b2n (last (abytes s) x00))%N.

Lemma top_bit_spec : forall s, top_bit s = (le_val (skipn 32 (abytes s)) / 2 ^ 255 =? 1)%Z /\ (0 <= le_val (skipn 32 (abytes s)) / 2 ^ 255 < 2)%Z.
Proof.
  intros s. destruct (sig_parts s) as (R & l & b & E & LR & LL). unfold top_bit. rewrite E.
  assert (A1 : last (R ++ l ++ [b]) x00 = b) by (rewrite app_assoc; apply last_last).
  assert (A4 : skipn 32 (R ++ l ++ [b]) = l ++ [b]) by (rewrite skipn_app, LR, skipn_all2 by (rewrite LR; apply le_n); reflexivity).
  rewrite A1, A4. rewrite FieldProofs4.le_val_snoc, LL. pose proof (FieldProofs4.le_val_bound l) as BL. rewrite LL in BL. change (256 ^ Z.of_nat 31)%Z with (2 ^ 248)%Z in *.
  assert (D : ((le_val l + 2 ^ 248 * zb b) / 2 ^ 255 = zb b / 128)%Z).
  { assert (DM := Z.div_mod (zb b) 128 ltac:(discriminate)). assert (M := Z.mod_pos_bound (zb b) 128 ltac:(reflexivity)).
    symmetry. apply Z.div_unique with (r := (le_val l + 2 ^ 248 * (zb b mod 128))%Z); [left; Lia.lia|Lia.lia]. }
  rewrite D. destruct (FieldProofs4.zb_top_bit b) as [_ TB]. split; [|Lia.lia]. unfold zb in *.
  assert (DM := Z.div_mod (Z.of_N (b2n b)) 128 ltac:(discriminate)). assert (M := Z.mod_pos_bound (Z.of_N (b2n b)) 128 ltac:(reflexivity)).
  destruct (N.leb_spec 128 (b2n b)); destruct (Z.eqb_spec (Z.of_N (b2n b) / 128) 1); try reflexivity; Lia.lia.
Qed.

(** Of two accepted signatures of one message under one key that agree in the first half and in the top bit of the last byte, both are the same. *)
Theorem C92_one_second_half : forall C sha512 ed25519_verify, ed25519_spec sha512 ed25519_verify -> forall pub msg s1 s2,
  let X := with_xeddsa C sha512 ed25519_verify in
  verify_signature X pub msg s1 = true -> verify_signature X pub msg s2 = true -> first_half s1 = first_half s2 -> top_bit s1 = top_bit s2 -> s1 = s2.
Proof.
  intros C sha512 v HV pub msg s1 s2 X H1 H2 HR HT. unfold verify_signature in H1, H2. cbn [X with_xeddsa xed_verify] in H1, H2.
  apply (C57_verify_exact sha512 v HV) in H1. apply (C57_verify_exact sha512 v HV) in H2. apply (valid_unique sha512 pub msg s1 s2 H1 H2 HR).
  destruct (top_bit_spec s1) as [T1 B1]. destruct (top_bit_spec s2) as [T2 B2]. rewrite T1, T2 in HT.
  revert HT B1 B2. generalize (le_val (skipn 32 (abytes s1)) / 2 ^ 255)%Z (le_val (skipn 32 (abytes s2)) / 2 ^ 255)%Z. clear. intros a b HT B1 B2.
  destruct (Z.eqb_spec a 1); destruct (Z.eqb_spec b 1); try discriminate HT; Lia.lia.
Qed.

(** No first half has three. *)
Theorem C92_at_most_two : forall C sha512 ed25519_verify, ed25519_spec sha512 ed25519_verify -> forall pub msg s1 s2 s3,
  let X := with_xeddsa C sha512 ed25519_verify in
  verify_signature X pub msg s1 = true -> verify_signature X pub msg s2 = true -> verify_signature X pub msg s3 = true ->
  first_half s1 = first_half s2 -> first_half s2 = first_half s3 -> s1 = s2 \/ s2 = s3 \/ s1 = s3.
Proof.
  intros C sha512 v HV pub msg s1 s2 s3 X H1 H2 H3 E12 E23. assert (E13 := eq_trans E12 E23).
  destruct (top_bit s1) eqn:T1; destruct (top_bit s2) eqn:T2; destruct (top_bit s3) eqn:T3;
    first [left; apply (C92_one_second_half C sha512 v HV pub msg s1 s2 H1 H2 E12); rewrite T1, T2; reflexivity
          |right; left; apply (C92_one_second_half C sha512 v HV pub msg s2 s3 H2 H3 E23); rewrite T2, T3; reflexivity
          |right; right; apply (C92_one_second_half C sha512 v HV pub msg s1 s3 H1 H3 E13); rewrite T1, T3; reflexivity].
Qed.

(** Keys of the same coordinate (their integers without the top bit are congruent modulo 2^255 - 19) accept the same signatures. *)
Theorem C92_same_coordinate : forall C sha512 ed25519_verify, ed25519_spec sha512 ed25519_verify -> forall pub pub' : arr32,
  ((le_val (abytes pub) mod 2 ^ 255) mod (2 ^ 255 - 19) = (le_val (abytes pub') mod 2 ^ 255) mod (2 ^ 255 - 19))%Z ->
  let X := with_xeddsa C sha512 ed25519_verify in forall msg s, verify_signature X pub msg s = verify_signature X pub' msg s.
Proof.
  intros C sha512 v HV pub pub' E X msg s. unfold verify_signature. cbn [X with_xeddsa xed_verify].
  assert (EO : ofZ (le_val (abytes pub) mod 2 ^ 255) = ofZ (le_val (abytes pub') mod 2 ^ 255)) by (apply ofZ_eq; exact E).
  assert (K : xeddsa_verify v pub msg s = true <-> xeddsa_verify v pub' msg s = true).
  { rewrite !(C57_verify_exact sha512 v HV). split; apply valid_same_key; [exact EO|symmetry; exact EO]. }
  destruct (xeddsa_verify v pub msg s); destruct (xeddsa_verify v pub' msg s); try reflexivity; destruct K as [K1 K2]; [discriminate (K1 eq_refl)|discriminate (K2 eq_refl)].
Qed.

(** "A signature is accepted under one public key only" is false: every key has another that accepts exactly the same signatures (its top bit turned over). *)
Theorem C92_one_key_refuted : forall C sha512 ed25519_verify, ed25519_spec sha512 ed25519_verify -> forall pub, exists pub', pub' <> pub /\
  let X := with_xeddsa C sha512 ed25519_verify in forall msg s, verify_signature X pub msg s = verify_signature X pub' msg s.
Proof.
  intros C sha512 v HV pub. destruct (alias_key pub) as (pub' & N & E). exists pub'. split; [exact N|].
  apply (C92_same_coordinate C sha512 v HV). rewrite E. reflexivity.
Qed.

(** Signatures accepted exist, for every message: those of any generated key. *)
Example C92_example : forall sha512, exists C v, ed25519_spec sha512 v /\ forall seed msg random,
  verify_signature (with_xeddsa C sha512 v) (x_base C (clamp seed)) msg (xeddsa_sign sha512 (clamp seed) msg random) = true.
Proof.
  intros sha512. exists {| hmac := hmac toy; x_base := ref_base; x_mult := ref_mult; aes_enc := aes_enc toy; aes_dec := aes_dec toy; xed_sign := xed_sign toy; xed_verify := xed_verify toy |}, (ref_verify sha512).
  split; [exact (ref_verify_ok sha512)|]. intros seed msg random. exact (C57_sign_verify sha512 (ref_verify sha512) ref_mult ref_base ref_x25519_ok (ref_verify_ok sha512) seed msg random).
Qed.
Example C92_example_bits : top_bit (to_arr 64 (repeat x00 63 ++ [x80])) = true /\ top_bit (zero_arr 64) = false /\ first_half (to_arr 64 (repeat x00 63 ++ [x80])) = first_half (zero_arr 64).
Proof. vm_compute. repeat split. Qed.

Print Assumptions C92_one_second_half.
Print Assumptions C92_at_most_two.
Print Assumptions C92_same_coordinate.
Print Assumptions C92_one_key_refuted.
