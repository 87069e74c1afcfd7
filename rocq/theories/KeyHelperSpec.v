(** KeyHelperSpec.v: what the key helper gives, written without the model's helper functions (C88).
    Code: util/keyhelper/key.go, ecc/curve.go:53-82 and 107-120, state/record/prekey.go:47-57, state/record/signed_prekey.go:51-66. *)
From Verif Require Import Base Crypto Ecc Messages PreKeyRecords.
From Coq Require Import List NArith ZArith.
Import ListNotations.
Local Open Scope list_scope.

(** One request for [n] random bytes. The source is a list of answers: it gives bytes (cut or filled with zeros to [n]) or it fails; an exhausted source fails. *)
Inductive gives (n : nat) : rng -> bytes -> rng -> Prop :=
| gives_bytes : forall l g, gives n (Some l :: g) (firstn n (l ++ repeat x00 n)) g.
Inductive fails : rng -> rng -> Prop :=
| fails_now : forall g, fails (None :: g) g
| fails_empty : fails [] [].

(** A private key made of 32 random bytes: the three lowest bits of the first byte cleared, the top bit of the last cleared and the next set. *)
Definition key_from (seed key : bytes) : Prop :=
  exists first middle last, seed = first :: middle ++ [last] /\ length middle = 30%nat /\
    key = n2b (b2n first - b2n first mod 8) :: middle ++ [n2b (64 + b2n last mod 64)].

Section Spec.
Context (C : crypto).

(** The key pair, the prekey record and the signed prekey record with a given private key. *)
Definition pair_with (priv : arr32) : ec_pair := {| kp_pub := x_base C priv; kp_priv := Some priv |}.
Definition prekey_with (id : N) (priv : arr32) : pkr :=
  {| kr_struct := {| ks_id := id; ks_pub := x05 :: abytes (x_base C priv); ks_priv := abytes priv |}; kr_pair := pair_with priv |}.
Definition signed_with (id : N) (now : Z) (priv : arr32) (sig : arr64) : skr :=
  {| zr_struct := {| zs_id := id; zs_pub := x05 :: abytes (x_base C priv); zs_priv := abytes priv; zs_sig := abytes sig; zs_time := now |};
     zr_pair := pair_with priv; zr_sig := sig |}.

(** A new private key is drawn. *)
Definition drawn (g : rng) (priv : arr32) (g' : rng) : Prop := exists seed, gives 32 g seed g' /\ key_from seed (abytes priv).

(** A call that draws one key and builds [make] of it, or fails. *)
Definition one_key {A} (make : arr32 -> A) (g : rng) (o : res A) (g' : rng) : Prop :=
  (exists priv, drawn g priv g' /\ o = Ok (make priv)) \/ (fails g g' /\ o = Err ERand).

(** GeneratePreKeys from number [i] to [count]: one key for each number, in order; the first failure ends it without keys. *)
Inductive prekeys_fate (count : Z) : Z -> rng -> res (list pkr) -> rng -> Prop :=
| pf_done : forall i g, (count < i)%Z -> prekeys_fate count i g (Ok []) g
| pf_fails : forall i g g', (i <= count)%Z -> fails g g' -> prekeys_fate count i g (Err ERand) g'
| pf_key : forall i g priv g1 l g2, (i <= count)%Z -> drawn g priv g1 -> prekeys_fate count (i + 1) g1 (Ok l) g2 ->
    prekeys_fate count i g (Ok (prekey_with (Z.to_N (i mod 4294967296)) priv :: l)) g2
| pf_later : forall i g priv g1 g2, (i <= count)%Z -> drawn g priv g1 -> prekeys_fate count (i + 1) g1 (Err ERand) g2 ->
    prekeys_fate count i g (Err ERand) g2.

(** GenerateSignedPreKey: the signature is over the 33 bytes of the new public key; a failed read of its 64 random bytes goes unnoticed and zeros are used. *)
Definition noise (n : nat) (g : rng) (z : bytes) (g' : rng) : Prop := gives n g z g' \/ (fails g g' /\ z = repeat x00 n).
Definition signed_fate (self : arr32) (id : N) (now : Z) (g : rng) (o : res skr) (g' : rng) : Prop :=
  (exists priv g1 z, drawn g priv g1 /\ noise 64 g1 (abytes z) g' /\
     o = Ok (signed_with id now priv (xed_sign C self (x05 :: abytes (x_base C priv)) z))) \/
  (fails g g' /\ o = Err ERand).
End Spec.
