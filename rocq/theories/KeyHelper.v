(** KeyHelper.v: util/keyhelper/key.go (registration ids and sender keys are in Group.v). *)
From Verif Require Import Base Crypto Ecc Messages PreKeyRecords.

(** uint32(i) for a Go int *)
Definition u32_of_int (z : Z) : N := Z.to_N (z mod 4294967296).

Section KeyHelper.
Context (C : crypto).

(** util/keyhelper/key.go:17-25 GenerateIdentityKeyPair *)
Definition generate_identity (g : rng) : res id_pair * rng :=
  match rng_read 32 g with
  | (Some seed, g') => (Ok {| ip_pub := x_base C (clamp seed); ip_priv := clamp seed |}, g')
  | (None, g') => (Err ERand, g')
  end.

(** util/keyhelper/key.go:47-59 GeneratePreKeys: for i := start; i <= count; i++. The loop runs count - start + 1
    times ([n]); an int counter that would overflow (count = 2^63-1) is out of scope. *)
Fixpoint gen_pre_keys (n : nat) (i : Z) (g : rng) : res (list pkr) * rng :=
  match n with
  | O => (Ok [], g)
  | S n' =>
      match generate_key_pair C g with
      | (Err e, g1) => (Err e, g1)
      | (Panic, g1) => (Panic, g1)
      | (Ok kp, g1) =>
          match new_pkr (u32_of_int i) kp with
          | Err e => (Err e, g1)
          | Panic => (Panic, g1)
          | Ok k => match gen_pre_keys n' (i + 1) g1 with
                    | (Ok l, g2) => (Ok (k :: l), g2)
                    | (Err e, g2) => (Err e, g2)
                    | (Panic, g2) => (Panic, g2)
                    end
          end
      end
  end.
Definition generate_pre_keys (start count : Z) (g : rng) : res (list pkr) * rng :=
  gen_pre_keys (Z.to_nat (count - start + 1)) start g.

(** util/keyhelper/key.go:64-70 GenerateLastResortKey: id 0 *)
Definition generate_last_resort (g : rng) : res pkr * rng :=
  match generate_key_pair C g with
  | (Err e, g1) => (Err e, g1)
  | (Panic, g1) => (Panic, g1)
  | (Ok kp, g1) => (new_pkr 0 kp, g1)
  end.

(** util/keyhelper/key.go:73-82 GenerateSignedPreKey ([now] is time.Now().Unix()) *)
Definition generate_signed_pre_key (ident : id_pair) (id : N) (now : Z) (g : rng) : res skr * rng :=
  match generate_key_pair C g with
  | (Err e, g1) => (Err e, g1)
  | (Panic, g1) => (Panic, g1)
  | (Ok kp, g1) =>
      let '(sig, g2) := calculate_signature C (ip_priv ident) (ser_pub (kp_pub kp)) g1 in
      (new_skr id now kp sig, g2)
  end.
End KeyHelper.
