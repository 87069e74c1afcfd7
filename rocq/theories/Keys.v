(** Keys.v: keys/message/key.go, keys/chain/key.go, keys/root/key.go,
    keys/session/derived_secrets.go, keys/session/pair.go. *)
From Verif Require Import Base Labels Crypto Ecc.

(** keys/message/key.go:64-69 *)
Record msg_keys : Type := { mk_cipher : bytes; mk_mac : bytes; mk_iv : bytes; mk_index : N }.

(** keys/chain/key.go:52-56 (the kdf field is always kdf.DeriveSecrets) *)
Record chain_key : Type := { ck_key : bytes; ck_index : N }.

(** keys/session/pair.go:40-43: root key bytes and chain key. *)
Record session_keys : Type := { sk_root : bytes; sk_chain : chain_key }.

(** keys/chain/key.go:12-13 *)
Definition message_key_seed : bytes := [x01].
Definition chain_key_seed : bytes := [x02].

(** keys/message/key.go:6 *)
Definition message_secrets_size : nat := 80.
(** keys/root/key.go:13 *)
Definition root_secrets_size : nat := 64.

Section Keys.
Context (C : crypto).

(** keys/chain/key.go:107-112 *)
Definition base_material (ck : chain_key) (seed : bytes) : bytes := hmac C (ck_key ck) seed.

(** keys/chain/key.go:84-87; the uint32 index wraps. *)
Definition next_key (ck : chain_key) : chain_key :=
  {| ck_key := base_material ck chain_key_seed; ck_index := u32_add (ck_index ck) 1 |}.

(** keys/chain/key.go:116-128 *)
Definition new_key_material (km : bytes) (i : N) : msg_keys :=
  {| mk_cipher := firstn 32 km;
     mk_mac := firstn 32 (skipn 32 km);
     mk_iv := firstn 16 (skipn 64 km);
     mk_index := i |}.

(** keys/chain/key.go:90-104. The discarded error of DeriveSecrets cannot occur: 80 <= 8160
    ([derive_secrets_80] below). *)
Definition message_keys (ck : chain_key) : msg_keys :=
  new_key_material
    (hkdf_bytes C (base_material ck message_key_seed) None message_kdf_info message_secrets_size)
    (ck_index ck).

Lemma derive_secrets_80 : forall ikm salt info,
  derive_secrets C ikm salt info message_secrets_size = Ok (hkdf_bytes C ikm salt info message_secrets_size).
Proof. reflexivity. Qed.
Lemma derive_secrets_64 : forall ikm salt info,
  derive_secrets C ikm salt info root_secrets_size = Ok (hkdf_bytes C ikm salt info root_secrets_size).
Proof. reflexivity. Qed.

(** keys/session/derived_secrets.go:5-12: first 32 bytes root key, rest chain key (index 0). *)
Definition derived_secrets (km : bytes) : session_keys :=
  {| sk_root := firstn 32 km; sk_chain := {| ck_key := skipn 32 km; ck_index := 0 |} |}.

(** keys/root/key.go:41-66 CreateChain: a key pair without private key panics (nil interface). *)
Definition create_chain (root : bytes) (their : arr32) (our : ec_pair) : res session_keys :=
  match kp_priv our with
  | None => Panic
  | Some priv =>
      km <- derive_secrets C (abytes (shared_secret C their priv)) (Some root) root_kdf_info root_secrets_size ;;
      Ok (derived_secrets km)
  end.
End Keys.
