(** PropertiesAsync.v: the functions that answer through a completion (C91). [told] is what the completion hears: OnSuccess of a value or OnFailure of a
    text. [one_key] (KeyHelperSpec.v) says what a call that draws one key gives; [with_xeddsa], [xeddsa_sign] are the code's signatures (XEdDSA.v),
    [x25519_spec] and [ed25519_spec] say what the libraries it calls should compute. *)
From Verif Require Import Base Labels Crypto Ecc Keys KeyHelper KeyHelperSpec KeyHelperProofs XEdDSA XedSpec XedRef Async AsyncProofs PropertiesXed Toy.
From Coq Require Import String List.
Import ListNotations.
Local Open Scope list_scope.

(** GenerateIdentityKeyPairAsync: one call, which tells the pair or the error of the random source. *)
Theorem C91_identity : forall C g o g',
  generate_identity_async C g = (o, g') <->
  exists r, one_key (fun priv => {| ip_pub := x_base C priv; ip_priv := priv |}) g r g' /\
    ((exists k, r = Ok k /\ o = Some (OnSuccess k)) \/ (exists e, r = Err e /\ o = Some (OnFailure (inr e)))).
Proof.
  intros C g o g'. unfold generate_identity_async. split.
  - intros H. destruct (generate_identity C g) as [r g1] eqn:E. assert (K := proj1 (identity_iff C _ _ _) E). exists r.
    destruct r as [k|e|]; injection H as <- <-; (split; [exact K|]); [left; exists k; split; reflexivity|right; exists e; split; reflexivity|].
    destruct K as [(priv & _ & K)|[_ K]]; discriminate K.
  - intros (r & K & H). apply identity_iff in K. rewrite K. destruct H as [(k & -> & ->)|(e & -> & ->)]; reflexivity.
Qed.

(** VerifySignatureAsync: success, and that with true, exactly for a signature VerifySignature accepts; "Signature invalid" for the others. *)
Theorem C91_verify : forall C pub msg sig,
  (verify_signature C pub msg sig = true /\ verify_signature_async C pub msg sig = OnSuccess true) \/
  (verify_signature C pub msg sig = false /\ verify_signature_async C pub msg sig = OnFailure (inl (str "Signature invalid"))).
Proof. intros C pub msg sig. unfold verify_signature_async. destruct (verify_signature C pub msg sig); [left|right]; split; reflexivity. Qed.

(** CalculateSignatureAsync tells the signature CalculateSignature gives: with the code's signatures it never calls OnFailure, whatever the
    32 bytes of the key, and even if the random source fails. *)
Theorem C91_sign : forall C sha512 ed25519_verify k msg g,
  let X := with_xeddsa C sha512 ed25519_verify in
  let '(sig, g') := calculate_signature X k msg g in calculate_signature_async X k msg g = (OnSuccess sig, g').
Proof.
  intros C sha512 ed25519_verify k msg g X. unfold calculate_signature_async. destruct (calculate_signature X k msg g) as [sig g'] eqn:E.
  assert (N : sig <> zero_arr 64).
  { unfold calculate_signature in E. destruct (rng_read 64 g) as [[z|] g1]; injection E as <- _; apply signature_not_zero. }
  destruct (arr_eqb sig (zero_arr 64)) eqn:A; [|reflexivity]. apply arr_eqb_eq in A. contradiction.
Qed.
(** No signature is all zeros. *)
Theorem C91_signature_not_zero : forall sha512 k msg random, xeddsa_sign sha512 k msg random <> zero_arr 64.
Proof. exact signature_not_zero. Qed.

(** What one tells, the other accepts. *)
Theorem C91_round_trip : forall C sha512 ed25519_verify, x25519_spec (x_mult C) (x_base C) -> ed25519_spec sha512 ed25519_verify -> forall k msg g,
  let X := with_xeddsa C sha512 ed25519_verify in
  exists sig g', calculate_signature_async X (clamp k) msg g = (OnSuccess sig, g') /\ verify_signature_async X (x_base C (clamp k)) msg sig = OnSuccess true.
Proof.
  intros C sha512 v HX HV k msg g X. assert (S := C91_sign C sha512 v (clamp k) msg g). cbv zeta in S. fold X in S.
  destruct (calculate_signature X (clamp k) msg g) as [sig g'] eqn:E. exists sig, g'. split; [exact S|].
  assert (K : exists z, sig = xeddsa_sign sha512 (clamp k) msg z).
  { unfold calculate_signature in E. destruct (rng_read 64 g) as [[z|] g1]; injection E as <- _; eexists; reflexivity. }
  destruct K as [z ->]. unfold verify_signature_async, verify_signature. cbn [X with_xeddsa xed_verify].
  rewrite (C57_sign_verify sha512 v (x_mult C) (x_base C) HX HV k msg z). reflexivity.
Qed.

(** Of an interface whose signatures may be all zeros this would be false: "CalculateSignatureAsync tells every signature" rests on the curve. *)
Theorem C91_zero_told_refuted : exists C k msg g, fst (calculate_signature_async C (clamp k) msg g) = OnFailure (inl (str "Error calculating signature")).
Proof.
  exists {| hmac := hmac toy; x_base := x_base toy; x_mult := x_mult toy; aes_enc := aes_enc toy; aes_dec := aes_dec toy;
            xed_sign := fun _ _ _ => zero_arr 64; xed_verify := fun _ _ _ => false |}, (zero_arr 32), [], []. reflexivity.
Qed.

(** * Concrete cases *)

Example C91_example_identity : generate_identity_async toy [Some [x01]] = (Some (OnSuccess {| ip_pub := x_base toy (clamp (to_arr 32 [x01])); ip_priv := clamp (to_arr 32 [x01]) |}), []) /\
  fst (generate_identity_async toy [None]) = Some (OnFailure (inr ERand)).
Proof. split; vm_compute; reflexivity. Qed.
Example C91_example_verify : verify_signature_async toy (x_base toy (clamp (zero_arr 32))) [x01] (xed_sign toy (clamp (zero_arr 32)) [x01] (zero_arr 64)) = OnSuccess true /\
  verify_signature_async toy (x_base toy (clamp (zero_arr 32))) [x02] (xed_sign toy (clamp (zero_arr 32)) [x01] (zero_arr 64)) = OnFailure (inl (str "Signature invalid")).
Proof. split; vm_compute; reflexivity. Qed.
(** There are interfaces that meet the specifications of the libraries. *)
Example C91_example_specs : forall sha512, exists C ed25519_verify, x25519_spec (x_mult C) (x_base C) /\ ed25519_spec sha512 ed25519_verify.
Proof.
  intros sha512. exists {| hmac := hmac toy; x_base := ref_base; x_mult := ref_mult; aes_enc := aes_enc toy; aes_dec := aes_dec toy; xed_sign := xed_sign toy; xed_verify := xed_verify toy |}, (ref_verify sha512).
  split; [exact ref_x25519_ok|exact (ref_verify_ok sha512)].
Qed.

Print Assumptions C91_identity.
Print Assumptions C91_verify.
Print Assumptions C91_sign.
Print Assumptions C91_signature_not_zero.
Print Assumptions C91_round_trip.
Print Assumptions C91_zero_told_refuted.
