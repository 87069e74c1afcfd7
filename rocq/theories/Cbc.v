(** Cbc.v: cipher/cbc.go and cipher/cipher.go. CBC mode itself (crypto/cipher) is modelled over
    the block functions of the [crypto] record. *)
From Verif Require Import Base Crypto.

Section Cbc.
Context (C : crypto).

Definition byte_xor (a b : byte) : byte := n2b (N.lxor (b2n a) (b2n b)).
Fixpoint xor_bytes (a b : bytes) : bytes :=
  match a, b with
  | x :: a', y :: b' => byte_xor x y :: xor_bytes a' b'
  | _, _ => []
  end.

(** crypto/cipher NewCBCEncrypter(block, iv).CryptBlocks on [n] blocks. *)
Fixpoint cbc_enc (n : nat) (key iv : bytes) (l : bytes) : bytes :=
  match n with
  | O => []
  | S n' => let c := aes_enc C key (xor_bytes (firstn 16 l) iv) in
            c ++ cbc_enc n' key c (skipn 16 l)
  end.

(** crypto/cipher NewCBCDecrypter(block, iv).CryptBlocks on [n] blocks. *)
Fixpoint cbc_dec (n : nat) (key iv : bytes) (l : bytes) : bytes :=
  match n with
  | O => []
  | S n' => let c := firstn 16 l in
            xor_bytes (aes_dec C key c) iv ++ cbc_dec n' key c (skipn 16 l)
  end.

Definition blocks (l : bytes) : nat := length l / 16.

(** cipher/cbc.go:86-90 pad. *)
Definition pad (l : bytes) (bs : nat) : bytes :=
  let p := (bs - length l mod bs)%nat in l ++ repeat (n2b (N.of_nat p)) p.

(** cipher/cbc.go:92-101 unpad: src[length-1] panics on an empty slice. *)
Definition unpad (src : bytes) : res bytes :=
  match rev src with
  | [] => Panic
  | b :: _ =>
      let p := N.to_nat (b2n b) in
      if (length src <? p)%nat then Err EPadTooLong
      else Ok (firstn (length src - p) src)
  end.

(** cipher/cbc.go:29-49 DecryptCbc. The order of checks is the code's: key size, minimal length,
    IV split, NewCBCDecrypter (panics unless len(iv) = 16), CryptBlocks (panics unless full blocks).
    The decryption is in place: the overwritten ciphertext buffer is the second component (the part
    after a leading IV). *)
Definition decrypt_cbc_full (iv : option bytes) (key ct : bytes) : res bytes * bytes :=
  if negb (aes_key_ok key) then (Err EAesKeySize, ct)
  else if (length ct <? 16)%nat then (Err ECipherTooShort, ct)
  else
    let '(iv', pre, ct') := match iv with
                       | Some v => (v, [], ct)
                       | None => (firstn 16 ct, firstn 16 ct, skipn 16 ct)
                       end in
    if negb (length iv' =? 16)%nat then (Panic, ct)
    else if negb (length ct' mod 16 =? 0)%nat then (Panic, ct)
    else let pt := cbc_dec (blocks ct') key iv' ct' in (unpad pt, pre ++ pt).

Definition decrypt_cbc (iv : option bytes) (key ct : bytes) : res bytes :=
  fst (decrypt_cbc_full iv key ct).

(** cipher/cbc.go:54-84 EncryptCbc. [rng] is used only when [iv] is nil. The multiple-of-16 check
    on the padded text (57-59) comes before the key check. *)
Definition encrypt_cbc_rng (iv : option bytes) (key pt : bytes) (r : rng) : res bytes * rng :=
  let p := pad pt 16 in
  if negb (length p mod 16 =? 0)%nat then (Err EInvalidBlockSize, r)
  else if negb (aes_key_ok key) then (Err EAesKeySize, r)
  else match iv with
       | Some v => if negb (length v =? 16)%nat then (Panic, r)
                   else (Ok (cbc_enc (blocks p) key v p), r)
       | None => match rng_read 16 r with
                 | (Some v, r') => (Ok (abytes v ++ cbc_enc (blocks p) key (abytes v) p), r')
                 | (None, r') => (Err ERand, r')
                 end
       end.

(** EncryptCbc with a non-nil IV: no randomness involved. *)
Definition encrypt_cbc (iv key pt : bytes) : res bytes := fst (encrypt_cbc_rng (Some iv) key pt []).

(** cipher/cipher.go:67-79 pkcs7Pad (blocksize is a Go int). *)
Definition pkcs7_pad (b : bytes) (bs : Z) : res bytes :=
  if (bs <=? 0)%Z then Err EInvalidBlockSize
  else if (length b =? 0)%nat then Err EInvalidPkcs7Data
  else let k := Z.to_nat bs in
       let n := (k - length b mod k)%nat in
       Ok (b ++ repeat (n2b (N.of_nat n)) n).

(** cipher/cipher.go:84-105 pkcs7Unpad. *)
Definition pkcs7_unpad (b : bytes) (bs : Z) : res bytes :=
  if (bs <=? 0)%Z then Err EInvalidBlockSize
  else if (length b =? 0)%nat then Err EInvalidPkcs7Data
  else if negb (length b mod Z.to_nat bs =? 0)%nat then Err EInvalidPkcs7Padding
  else match rev b with
       | [] => Panic
       | c :: _ =>
           let n := N.to_nat (b2n c) in
           if (n =? 0)%nat || (length b <? n)%nat then Err EInvalidPkcs7Padding
           else if forallb (Byte.eqb c) (skipn (length b - n) b)
                then Ok (firstn (length b - n) b)
                else Err EInvalidPkcs7Padding
       end.

(** cipher/cipher.go:13-30 Decrypt: needs full blocks and a 16-byte IV, otherwise panics. *)
Definition cipher_decrypt (iv key ct : bytes) : res bytes :=
  if negb (aes_key_ok key) then Err EAesKeySize
  else if (length ct <? 16)%nat then Err ECipherTooShort
  else if negb (length iv =? 16)%nat then Panic
  else if negb (length ct mod 16 =? 0)%nat then Panic
  else pkcs7_unpad (cbc_dec (blocks ct) key iv ct) 16.

(** cipher/cipher.go:34-48 Encrypt. *)
Definition cipher_encrypt (iv key pt : bytes) : res bytes :=
  if negb (aes_key_ok key) then Err EAesKeySize
  else match pkcs7_pad pt 16 with
       | Ok p => if negb (length iv =? 16)%nat then Panic else Ok (cbc_enc (blocks p) key iv p)
       | Err e => Err e
       | Panic => Panic
       end.
End Cbc.
