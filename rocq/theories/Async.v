(** Async.v: the functions that answer through a completion (complete.Completionable, outside the repository: OnSuccess and OnFailure). Each starts one
    goroutine; modelled is the one call of the completion that the goroutine makes when the work is done. When it is scheduled is not modelled; a panic of
    the work ends the program before any call is made (the work modelled here does not panic). *)
From Verif Require Import Base Crypto Ecc Keys KeyHelper.
From Coq Require Import String List.
Import ListNotations.

(** What the completion is told. The text of an error of the random source, err.Error(), is left as the error. *)
Inductive told (A : Type) : Type := OnSuccess (x : A) | OnFailure (why : bytes + err).
Arguments OnSuccess {A} x. Arguments OnFailure {A} why.

Section Gen.
Context (C : crypto).

(** util/keyhelper/key.go:28-38 GenerateIdentityKeyPairAsync *)
Definition generate_identity_async (g : rng) : option (told id_pair) * rng :=
  match generate_identity C g with
  | (Err e, g') => (Some (OnFailure (inr e)), g')
  | (Ok r, g') => (Some (OnSuccess r), g')
  | (Panic, g') => (None, g')
  end.

(** ecc/curve.go:94-104 VerifySignatureAsync *)
Definition verify_signature_async (pub : arr32) (msg : bytes) (sig : arr64) : told bool :=
  let r := verify_signature C pub msg sig in
  if negb r then OnFailure (inl (str "Signature invalid")) else OnSuccess r.

(** ecc/curve.go:123-133 CalculateSignatureAsync *)
Definition calculate_signature_async (priv : arr32) (msg : bytes) (g : rng) : told arr64 * rng :=
  let '(sig, g') := calculate_signature C priv msg g in
  (if arr_eqb sig (zero_arr 64) then OnFailure (inl (str "Error calculating signature")) else OnSuccess sig, g').
End Gen.
