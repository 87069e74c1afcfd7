(** CipherSpec.v: the outcome of every call of the symmetric ciphers, for keys, ivs and texts of any length (C21, C22, C23). *)
From Verif Require Import Base Crypto WireFormatSpec BodySpec.
From Coq Require Import ZArith NArith List.
Import ListNotations.

Definition key_size (key : bytes) : Prop := length key = 16%nat \/ length key = 24%nat \/ length key = 32%nat.

(** A last byte n > 0 and n copies of it at the end. *)
Definition closed (b r : bytes) : Prop := exists z n, (0 < n)%nat /\ b2n z = N.of_nat n /\ b = r ++ repeat z n.

(** cipher/cipher.go:67-79 pkcs7Pad *)
Inductive pad_fate (b : bytes) (bs : Z) : res bytes -> Prop :=
| pad_size : (bs <= 0)%Z -> pad_fate b bs (Err EInvalidBlockSize)
| pad_nothing : (0 < bs)%Z -> b = [] -> pad_fate b bs (Err EInvalidPkcs7Data)
| pad_done : forall n, (0 < Z.of_nat n <= bs)%Z -> b <> [] -> (Z.of_nat (length b + n) mod bs = 0)%Z -> pad_fate b bs (Ok (b ++ repeat (n2b (N.of_nat n)) n)).

(** cipher/cipher.go:84-105 pkcs7Unpad *)
Inductive unpad_fate (b : bytes) (bs : Z) : res bytes -> Prop :=
| unpad_size : (bs <= 0)%Z -> unpad_fate b bs (Err EInvalidBlockSize)
| unpad_nothing : (0 < bs)%Z -> b = [] -> unpad_fate b bs (Err EInvalidPkcs7Data)
| unpad_ragged : (0 < bs)%Z -> b <> [] -> (Z.of_nat (length b) mod bs <> 0)%Z -> unpad_fate b bs (Err EInvalidPkcs7Padding)
| unpad_open : (0 < bs)%Z -> b <> [] -> (forall r, ~ closed b r) -> unpad_fate b bs (Err EInvalidPkcs7Padding)
| unpad_done : forall r, (0 < bs)%Z -> (Z.of_nat (length b) mod bs = 0)%Z -> closed b r -> unpad_fate b bs (Ok r).

Section Spec.
Context (C : crypto).

(** cipher/cipher.go:13-30 Decrypt *)
Inductive dec_fate (iv key ct : bytes) : res bytes -> Prop :=
| dec_key : ~ key_size key -> dec_fate iv key ct (Err EAesKeySize)
| dec_short : key_size key -> (length ct < 16)%nat -> dec_fate iv key ct (Err ECipherTooShort)
| dec_iv : key_size key -> (16 <= length ct)%nat -> length iv <> 16%nat -> dec_fate iv key ct Panic
| dec_ragged : key_size key -> (16 <= length ct)%nat -> length iv = 16%nat -> (length ct mod 16 <> 0)%nat -> dec_fate iv key ct Panic
| dec_blocks : forall p o, key_size key -> (16 <= length ct)%nat -> length iv = 16%nat -> (length ct mod 16 = 0)%nat -> cbc_plaintext C key iv ct p -> unpad_fate p 16 o -> dec_fate iv key ct o.

(** cipher/cipher.go:34-48 Encrypt *)
Inductive enc_fate (iv key pt : bytes) : res bytes -> Prop :=
| enc_key : ~ key_size key -> enc_fate iv key pt (Err EAesKeySize)
| enc_nothing : key_size key -> pt = [] -> enc_fate iv key pt (Err EInvalidPkcs7Data)
| enc_iv : key_size key -> pt <> [] -> length iv <> 16%nat -> enc_fate iv key pt Panic
| enc_done : forall ct, key_size key -> pt <> [] -> length iv = 16%nat -> cbc_ciphertext C key iv pt ct -> enc_fate iv key pt (Ok ct).

(** cipher/cbc.go:29-49 DecryptCbc, with or without an iv *)
Inductive deccbc_fate (iv : option bytes) (key ct : bytes) : res bytes -> Prop :=
| deccbc_key : ~ key_size key -> deccbc_fate iv key ct (Err EAesKeySize)
| deccbc_short : key_size key -> (length ct < 16)%nat -> deccbc_fate iv key ct (Err ECipherTooShort)
| deccbc_iv : forall v, key_size key -> (16 <= length ct)%nat -> iv = Some v -> length v <> 16%nat -> deccbc_fate iv key ct Panic
| deccbc_body : forall v o, key_size key -> (16 <= length ct)%nat -> iv = Some v -> length v = 16%nat -> body_fate C key v ct o -> deccbc_fate iv key ct o
| deccbc_only_iv : key_size key -> iv = None -> length ct = 16%nat -> deccbc_fate iv key ct Panic
| deccbc_ragged : key_size key -> iv = None -> (16 < length ct < 32)%nat -> deccbc_fate iv key ct Panic
| deccbc_with_iv : forall v body o, key_size key -> iv = None -> ct = v ++ body -> length v = 16%nat -> (16 <= length body)%nat -> body_fate C key v body o -> deccbc_fate iv key ct o.

(** cipher/cbc.go:54-84 EncryptCbc, with an iv or with a random one in front *)
Inductive enccbc_fate (iv : option bytes) (key pt : bytes) (g : rng) : res bytes -> rng -> Prop :=
| enccbc_key : ~ key_size key -> enccbc_fate iv key pt g (Err EAesKeySize) g
| enccbc_iv : forall v, key_size key -> iv = Some v -> length v <> 16%nat -> enccbc_fate iv key pt g Panic g
| enccbc_done : forall v ct, key_size key -> iv = Some v -> length v = 16%nat -> cbc_ciphertext C key v pt ct -> enccbc_fate iv key pt g (Ok ct) g
| enccbc_random : forall g', key_size key -> iv = None -> rng_read 16 g = (None, g') -> enccbc_fate iv key pt g (Err ERand) g'
| enccbc_generated : forall v ct g', key_size key -> iv = None -> rng_read 16 g = (Some v, g') -> cbc_ciphertext C key (abytes v) pt ct -> enccbc_fate iv key pt g (Ok (abytes v ++ ct)) g'.
End Spec.
