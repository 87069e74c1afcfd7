(** Crypto.v: the external cryptographic primitives as an interface, and HKDF on top.

    The Go code calls crypto/hmac+sha256, golang.org/x/crypto/curve25519,
    crypto/aes and its own XEdDSA (ecc/sign_curve25519.go).  They are the fields of a record;
    what is assumed of them is the record [crypto_laws], always an explicit hypothesis. *)
From Verif Require Import Base.

Record crypto : Type := {
  (** hmac.New(sha256.New, key); Write(msg); Sum(nil) *)
  hmac : bytes -> bytes -> bytes;
  (** curve25519.ScalarBaseMult *)
  x_base : arr32 -> arr32;
  (** curve25519.ScalarMult(dst, scalar, point) *)
  x_mult : arr32 -> arr32 -> arr32;
  (** aes.NewCipher(key).Encrypt / .Decrypt on one 16-byte block *)
  aes_enc : bytes -> bytes -> bytes;
  aes_dec : bytes -> bytes -> bytes;
  (** ecc/sign_curve25519.go:36 sign(privateKey, message, random) *)
  xed_sign : arr32 -> bytes -> arr64 -> arr64;
  (** ecc/sign_curve25519.go:90 verify(publicKey, message, signature) *)
  xed_verify : arr32 -> bytes -> arr64 -> bool
}.

(** aes.NewCipher accepts 16, 24 and 32 byte keys. *)
Definition aes_key_ok (k : bytes) : bool :=
  (length k =? 16)%nat || (length k =? 24)%nat || (length k =? 32)%nat.

Definition upd_nth (i : nat) (f : byte -> byte) (l : bytes) : bytes :=
  firstn i l ++ match skipn i l with b :: r => f b :: r | [] => [] end.

Lemma upd_nth_length : forall i f l, length (upd_nth i f l) = length l.
Proof.
  intros i f l. unfold upd_nth. rewrite <- (firstn_skipn i l) at 3.
  rewrite !app_length. destruct (skipn i l); reflexivity.
Qed.

(** ecc/curve.go:37-39 and 68-70: private[0] &= 248; private[31] &= 127; private[31] |= 64. *)
Definition clamp (k : arr32) : arr32 :=
  to_arr 32
    (upd_nth 31 (fun b => n2b (N.lor (N.land (b2n b) 127) 64))
      (upd_nth 0 (fun b => n2b (N.land (b2n b) 248)) (abytes k))).

Record crypto_laws (C : crypto) : Prop := {
  law_hmac_len : forall k m, length (hmac C k m) = 32%nat;
  law_dh : forall a b, x_mult C a (x_base C b) = x_mult C b (x_base C a);
  law_aes_enc_len : forall k b, aes_key_ok k = true -> length b = 16%nat -> length (aes_enc C k b) = 16%nat;
  law_aes_dec_len : forall k b, aes_key_ok k = true -> length b = 16%nat -> length (aes_dec C k b) = 16%nat;
  law_aes : forall k b, aes_key_ok k = true -> length b = 16%nat -> aes_dec C k (aes_enc C k b) = b;
  law_sign : forall k m r, xed_verify C (x_base C (clamp k)) m (xed_sign C (clamp k) m r) = true
}.

(** Random source: each read consumes one entry; [None] or an exhausted list is a read failure.
    (io.ReadFull(rand.Reader, buf), ecc/curve.go:62; cipher/cbc.go:70.) *)
Definition rng := list (option bytes).
Definition rng_read (n : nat) (r : rng) : option (arr n) * rng :=
  match r with
  | [] => (None, [])
  | e :: r' => (match e with Some l => Some (to_arr n l) | None => None end, r')
  end.

Section Hkdf.
Context (C : crypto).

(** RFC 5869 extract, golang.org/x/crypto/hkdf.New: a nil salt is 32 zero bytes. *)
Definition hkdf_extract (ikm : bytes) (salt : option bytes) : bytes :=
  hmac C (match salt with Some s => s | None => repeat x00 32 end) ikm.

(** RFC 5869 expand: T(i) = HMAC(prk, T(i-1) || info || i). [k] blocks starting at counter [i]. *)
Fixpoint hkdf_expand (k : nat) (prk prev info : bytes) (i : N) : bytes :=
  match k with
  | O => []
  | S k' => let t := hmac C prk (prev ++ info ++ [n2b i]) in
            t ++ hkdf_expand k' prk t info (i + 1)
  end.

Definition hkdf_blocks (n : nat) : nat := (n + 31) / 32.

Definition hkdf_bytes (ikm : bytes) (salt : option bytes) (info : bytes) (n : nat) : bytes :=
  firstn n (hkdf_expand (hkdf_blocks n) (hkdf_extract ikm salt) [] info 1).

(** kdf/hkdf.go:18-31 DeriveSecrets. The reader fails when more than 255 blocks of 32 bytes are asked for. *)
Definition derive_secrets (ikm : bytes) (salt : option bytes) (info : bytes) (n : nat) : res bytes :=
  if (N.of_nat n <=? 255 * 32)%N then Ok (hkdf_bytes ikm salt info n) else Err EHkdfLimit.

(** kdf/hkdf.go:35-40 CalculateSharedSecret(theirKey, ourKey). *)
Definition shared_secret (their_pub our_priv : arr32) : arr32 := x_mult C our_priv their_pub.

Lemma hkdf_expand_length : forall k prk prev info i,
  (forall a b, length (hmac C a b) = 32%nat) ->
  length (hkdf_expand k prk prev info i) = (32 * k)%nat.
Proof.
  intros k. induction k as [|k IH]; intros prk prev info i H; cbn [hkdf_expand].
  - reflexivity.
  - rewrite app_length, H, IH by exact H. lia.
Qed.

Lemma hkdf_bytes_length : forall ikm salt info n,
  (forall a b, length (hmac C a b) = 32%nat) ->
  length (hkdf_bytes ikm salt info n) = n.
Proof.
  intros ikm salt info n H. unfold hkdf_bytes.
  rewrite firstn_length, hkdf_expand_length by exact H.
  unfold hkdf_blocks. apply Nat.min_l.
  pose proof (Nat.div_mod (n + 31) 32 ltac:(discriminate)) as D.
  pose proof (Nat.mod_upper_bound (n + 31) 32 ltac:(discriminate)). lia.
Qed.

End Hkdf.
