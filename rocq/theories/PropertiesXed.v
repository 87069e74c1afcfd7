(** PropertiesXed.v: C57, signatures. Specification: XedSpec.v (the external functions and what a valid signature is). *)
From Verif Require Import Base Crypto Field25519 Scalar25519 FieldSpec FieldProofs2 FieldProofs3 FieldProofs4 ScalarSpec ScalarProofs2 Fp CurveSpec CurveGroup EdBase Edwards EdwardsProofs EdwardsProofs2 EdwardsMult KdfProofs PropertiesField XEdDSA XedSpec XedProofs EdwardsDecode XedRef Toy CryptoProofs.
From Coq Require Import ZArith List Lia.
Import ListNotations.
Local Open Scope Z_scope.
Local Opaque padd popp.

(** Whatever CalculateSignature produces with a generated key, VerifySignature accepts, for every message and every random
    string (all zero included), whatever function SHA-512 is. *)
Theorem C57_sign_verify : forall sha512 ed25519_verify mult base, x25519_spec mult base -> ed25519_spec sha512 ed25519_verify ->
  forall seed message random,
  xeddsa_verify ed25519_verify (base (clamp seed)) message (xeddsa_sign sha512 (clamp seed) message random) = true.
Proof. exact sign_verify. Qed.

(** VerifySignature accepts exactly the valid signatures. *)
Theorem C57_verify_exact : forall sha512 ed25519_verify, ed25519_spec sha512 ed25519_verify -> forall pub message sig,
  xeddsa_verify ed25519_verify pub message sig = true <-> xeddsa_valid sha512 pub message sig.
Proof. exact verify_exact. Qed.

(** The signature, part by part: R = r B with the hedged nonce r; S = r + h a mod L; the top bit is the sign of the
    Edwards public key. *)
Theorem C57_signature_bytes : forall sha512 seed message random,
  let a := le_val (abytes (clamp seed)) in
  let r := le_val (abytes (sha512 ((xfe :: repeat xff 31) ++ abytes (clamp seed) ++ message ++ abytes random))) mod order_l in
  exists (R A : arr32), encodes R (zmul r base_point) /\ encodes A (zmul a base_point) /\
    let h := le_val (abytes (sha512 (abytes R ++ abytes A ++ message))) mod order_l in
    let sig := abytes (xeddsa_sign sha512 (clamp seed) message random) in
    length sig = 64%nat /\ firstn 32 sig = abytes R /\
    le_val (skipn 32 sig) = (r + h * a) mod order_l + 2 ^ 255 * (fz (px (zmul a base_point)) mod 2).
Proof.
  intros sha512 seed message random a r. unfold xeddsa_sign. cbv zeta.
  assert (KB : le_val (abytes (clamp seed)) < 2 ^ 255). { rewrite clamp_val. pose proof (Z.mod_pos_bound (le_val (abytes seed) / 8) (2 ^ 251) ltac:(lia)). lia. }
  pose proof (ext_to_bytes_rep _ _ (scalar_mult_base_rep (clamp seed) KB)) as EA. fold a in EA. generalize dependent (ext_to_bytes (scalar_mult_base (clamp seed))). intros A EA.
  pose proof (sc_reduce_spec (sha512 (diversifier ++ abytes (clamp seed) ++ message ++ abytes random))) as RV. change diversifier with (xfe :: repeat xff 31) in *. fold r in RV.
  generalize dependent (sc_reduce (sha512 ((xfe :: repeat xff 31) ++ abytes (clamp seed) ++ message ++ abytes random))). intros rr RV.
  assert (RB : 0 <= r < order_l) by (apply Z.mod_pos_bound; reflexivity). assert (RB2 : le_val (abytes rr) < 2 ^ 255) by (rewrite RV; unfold order_l in RB; lia).
  pose proof (ext_to_bytes_rep _ _ (scalar_mult_base_rep rr RB2)) as ER. rewrite RV in ER. generalize dependent (ext_to_bytes (scalar_mult_base rr)). intros R ER.
  exists R, A. split; [exact ER|]. split; [exact EA|].
  pose proof (sc_reduce_spec (sha512 (abytes R ++ abytes A ++ message))) as HV. set (h := le_val (abytes (sha512 (abytes R ++ abytes A ++ message))) mod order_l) in *.
  pose proof (sc_mul_add_spec (sc_reduce (sha512 (abytes R ++ abytes A ++ message))) (clamp seed) rr) as SV. rewrite HV, RV in SV. fold a in SV.
  generalize dependent (sc_mul_add (sc_reduce (sha512 (abytes R ++ abytes A ++ message))) (clamp seed) rr). intros s SV. clear HV.
  assert (SB : 0 <= (h * a + r) mod order_l < order_l) by (apply Z.mod_pos_bound; reflexivity). rewrite <- SV in SB.
  replace (r + h * a) with (h * a + r) by ring. rewrite <- SV.
  split; [apply arr_length|]. destruct (arr32_snoc s) as (l & b & E & L). rewrite E, app_assoc, on_last_snoc.
  assert (B : zb b < 128). { clear - SB E L. rewrite E, le_val_snoc, L in SB. change (256 ^ Z.of_nat 31) with (2 ^ 248) in SB. unfold order_l in SB. pose proof (le_val_bound l). pose proof (zb_range b). lia. }
  rewrite to_arr_exact by (rewrite !app_length, arr_length, L; reflexivity). rewrite <- app_assoc.
  rewrite firstn_app, arr_length, firstn_all2 by (rewrite arr_length; apply le_n). rewrite Nat.sub_diag, firstn_O, app_nil_r.
  rewrite skipn_app, arr_length, skipn_all2 by (rewrite arr_length; apply le_n). rewrite Nat.sub_diag. split; [reflexivity|].
  cbn [app skipn]. rewrite !le_val_snoc, L, zb_set_top by exact B. rewrite top_byte. unfold encodes in EA. rewrite EA. unfold enc_val.
  pose proof (fz_255 (py (zmul a base_point))) as RY. rewrite (Z.mul_comm (2 ^ 255) (fz (px (zmul a base_point)) mod 2)), Z.div_add by lia. rewrite (Z.div_small (fz (py (zmul a base_point)))) by exact RY.
  change (256 ^ Z.of_nat 31) with (2 ^ 248). ring.
Qed.

(** ECDH commutes (used for X3DH and the ratchet). *)
Theorem C57_key_agreement : forall mult base, x25519_spec mult base -> forall a b, mult a (base b) = mult b (base a).
Proof. exact x25519_dh. Qed.

(** So with the repository's own signature code, everything the other theorems assume of the cryptography
    ([crypto_laws]) follows from the external functions meeting their RFCs. *)
Theorem C57_laws : forall C sha512 ed25519_verify, external_spec C sha512 ed25519_verify -> crypto_laws (with_xeddsa C sha512 ed25519_verify).
Proof. exact laws_of_external. Qed.

(** ** Examples *)
(** The external specifications are met by functions on the real curve, for any SHA-512. *)
Example C57_example_external : forall sha512, exists C ed25519_verify, external_spec C sha512 ed25519_verify.
Proof.
  intros sha512. exists {| hmac := hmac toy; x_base := ref_base; x_mult := ref_mult; aes_enc := aes_enc toy; aes_dec := aes_dec toy; xed_sign := xed_sign toy; xed_verify := xed_verify toy |}, (ref_verify sha512).
  destruct toy_laws as [L1 _ L2 L3 L4 _]. constructor; cbn [hmac x_base x_mult aes_enc aes_dec].
  - exact L1.
  - exact L2.
  - exact L3.
  - exact L4.
  - exact ref_x25519_ok.
  - exact (ref_verify_ok sha512).
Qed.
(** A signature computed by the model, against one computed independently (SHA-512 replaced by reversal); the Edwards
    public key has sign 1, so the top bit is used. *)
Definition rev_hash (l : bytes) : arr64 := to_arr 64 (rev l).
Definition ex_seed : arr32 := to_arr 32 (map (fun n => n2b (N.of_nat n)) (seq 1 32)).
Definition ex_random : arr64 := to_arr 64 (map (fun n => n2b (N.of_nat n)) (seq 100 64)).
Definition ex_sig : bytes := [xc0; x59; xb4; x1b; x81; xe6; x95; xb3; xd4; x92; xfa; x1a; xe9; x7d; x97; x20; xa3; x5a; x94; x43; x41; xef; xbf; x15; x3f; x7a; xa3; xe6; x4e; x3d; x89; xa2; x7d; x79; x8a; x9c; x5a; x6d; xca; x13; x98; x6f; x90; x1c; xf3; x3e; x3d; xf9; xf8; x9a; x2d; x4d; xfd; x6d; x4c; x06; xe0; xa5; x76; x02; xee; x75; xb6; x88].
(** Checked by running the model when this file is compiled. *)
Check (eq_refl (ex_sig) <: abytes (xeddsa_sign rev_hash (clamp ex_seed) [x68; x69] ex_random) = ex_sig).
Example C57_example_valid : xeddsa_valid rev_hash (ref_base (clamp ex_seed)) [x68; x69] (xeddsa_sign rev_hash (clamp ex_seed) [x68; x69] ex_random).
Proof.
  apply (C57_verify_exact rev_hash (ref_verify rev_hash) (ref_verify_ok rev_hash)).
  exact (C57_sign_verify rev_hash (ref_verify rev_hash) ref_mult ref_base ref_x25519_ok (ref_verify_ok rev_hash) ex_seed [x68; x69] ex_random).
Qed.

Print Assumptions C57_sign_verify.
Print Assumptions C57_verify_exact.
Print Assumptions C57_signature_bytes.
Print Assumptions C57_key_agreement.
Print Assumptions C57_laws.
