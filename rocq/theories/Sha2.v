(** Sha2.v: SHA-256, SHA-512 (FIPS 180-4) and HMAC-SHA-256 (RFC 2104), the functions behind Go's crypto/sha256, crypto/sha512 and
    crypto/hmac that /repo calls (kdf/hkdf.go:19, keys/chain/key.go:108, protocol/signal_message.go:216,
    groups/ratchet/sender_chain_key.go:64, provision/cipher.go:32, ecc/sign_curve25519.go:52). These packages are not part of /repo: this file is the standard, not a model of their code. *)
From Verif Require Import Base.
From Coq Require Import NArith List Lia.
Import ListNotations.
Local Open Scope N_scope.

(** FIPS 180-4, parameters of one family member: word size in bits, rotation amounts, constants, initial value. *)
Record sha2 : Type := {
  s_word : N;
  s_big0 : N * N * N; s_big1 : N * N * N;
  s_small0 : N * N * N; s_small1 : N * N * N;   (* two rotations, one shift *)
  s_consts : list N; s_init : list N }.

Section Sha2.
Context (S : sha2).
(** FIPS 180-4 section 2.2.2, 3.2: addition modulo 2^w, ROTR, SHR. *)
Definition wmod : N := 2 ^ s_word S.
Definition wadd (a b : N) : N := (a + b) mod wmod.
Definition rotr (n x : N) : N := N.lor (N.shiftr x n) (N.shiftl x (s_word S - n) mod wmod).
(** FIPS 180-4 section 4.1.2, 4.1.3. *)
Definition ch (x y z : N) : N := N.lxor (N.land x y) (N.land (N.lxor x (wmod - 1)) z).
Definition maj (x y z : N) : N := N.lxor (N.lxor (N.land x y) (N.land x z)) (N.land y z).
Definition big (r : N * N * N) (x : N) : N := let '(a, b, c) := r in N.lxor (N.lxor (rotr a x) (rotr b x)) (rotr c x).
Definition small (r : N * N * N) (x : N) : N := let '(a, b, c) := r in N.lxor (N.lxor (rotr a x) (rotr b x)) (N.shiftr x c).
(** FIPS 180-4 section 6.2.2, 6.4.2: the rounds, with the message schedule kept as a window of the next sixteen words. *)
Fixpoint rounds (ks w st : list N) : list N :=
  match ks with
  | [] => st
  | k :: ks' =>
      match st with
      | [a; b; c; d; e; f; g; h] =>
          let t1 := wadd (wadd (wadd (wadd h (big (s_big1 S) e)) (ch e f g)) k) (nth 0 w 0) in
          let t2 := wadd (big (s_big0 S) a) (maj a b c) in
          let nw := wadd (wadd (wadd (small (s_small1 S) (nth 14 w 0)) (nth 9 w 0)) (small (s_small0 S) (nth 1 w 0))) (nth 0 w 0) in
          rounds ks' (tl w ++ [nw]) [wadd t1 t2; a; b; c; wadd d t1; e; f; g]
      | _ => st
      end
  end.
Fixpoint add_words (a b : list N) : list N :=
  match a, b with x :: a', y :: b' => wadd x y :: add_words a' b' | _, _ => [] end.
Definition wbytes : nat := N.to_nat (s_word S / 8).
Definition be_word (l : bytes) : N := fold_left (fun acc b => acc * 256 + b2n b) l 0.
Fixpoint be_bytes (n : nat) (x : N) : bytes := match n with O => [] | Datatypes.S n' => be_bytes n' (x / 256) ++ [n2b x] end.
Fixpoint words (n : nat) (l : bytes) : list N :=
  match n with O => [] | Datatypes.S n' => be_word (firstn wbytes l) :: words n' (skipn wbytes l) end.
(** FIPS 180-4 section 5.1: 0x80, zeros, and the length in bits as a number of two words (in Go as here modulo 2^64 bits). *)
Definition sha_pad (m : bytes) : bytes :=
  let blk := (16 * wbytes)%nat in
  let len := (length m + 1 + 2 * wbytes)%nat in
  m ++ x80 :: repeat x00 ((blk - len mod blk) mod blk) ++ be_bytes (2 * wbytes) (8 * N.of_nat (length m) mod 2 ^ 64).
Fixpoint sha_blocks (n : nat) (l : bytes) (h : list N) : list N :=
  match n with
  | O => h
  | Datatypes.S n' => sha_blocks n' (skipn (16 * wbytes) l) (add_words h (rounds (s_consts S) (words 16 l) h))
  end.
Definition sha (m : bytes) : bytes :=
  let p := sha_pad m in
  concat (map (be_bytes wbytes) (sha_blocks (length p / (16 * wbytes)) p (s_init S))).
End Sha2.

(** FIPS 180-4 section 4.1.2, 4.2.2, 5.3.3. *)
Definition sha256_params : sha2 := {|
  s_word := 32; s_big0 := (2, 13, 22); s_big1 := (6, 11, 25); s_small0 := (7, 18, 3); s_small1 := (17, 19, 10);
  s_consts :=
  [0x428a2f98; 0x71374491; 0xb5c0fbcf; 0xe9b5dba5; 0x3956c25b; 0x59f111f1; 0x923f82a4; 0xab1c5ed5;
   0xd807aa98; 0x12835b01; 0x243185be; 0x550c7dc3; 0x72be5d74; 0x80deb1fe; 0x9bdc06a7; 0xc19bf174;
   0xe49b69c1; 0xefbe4786; 0x0fc19dc6; 0x240ca1cc; 0x2de92c6f; 0x4a7484aa; 0x5cb0a9dc; 0x76f988da;
   0x983e5152; 0xa831c66d; 0xb00327c8; 0xbf597fc7; 0xc6e00bf3; 0xd5a79147; 0x06ca6351; 0x14292967;
   0x27b70a85; 0x2e1b2138; 0x4d2c6dfc; 0x53380d13; 0x650a7354; 0x766a0abb; 0x81c2c92e; 0x92722c85;
   0xa2bfe8a1; 0xa81a664b; 0xc24b8b70; 0xc76c51a3; 0xd192e819; 0xd6990624; 0xf40e3585; 0x106aa070;
   0x19a4c116; 0x1e376c08; 0x2748774c; 0x34b0bcb5; 0x391c0cb3; 0x4ed8aa4a; 0x5b9cca4f; 0x682e6ff3;
   0x748f82ee; 0x78a5636f; 0x84c87814; 0x8cc70208; 0x90befffa; 0xa4506ceb; 0xbef9a3f7; 0xc67178f2];
  s_init := [0x6a09e667; 0xbb67ae85; 0x3c6ef372; 0xa54ff53a; 0x510e527f; 0x9b05688c; 0x1f83d9ab; 0x5be0cd19] |}.
Definition sha256 (m : bytes) : bytes := sha sha256_params m.

(** FIPS 180-4 section 4.1.3, 4.2.3, 5.3.5. *)
Definition sha512_params : sha2 := {|
  s_word := 64; s_big0 := (28, 34, 39); s_big1 := (14, 18, 41); s_small0 := (1, 8, 7); s_small1 := (19, 61, 6);
  s_consts :=
  [0x428a2f98d728ae22; 0x7137449123ef65cd; 0xb5c0fbcfec4d3b2f; 0xe9b5dba58189dbbc;
   0x3956c25bf348b538; 0x59f111f1b605d019; 0x923f82a4af194f9b; 0xab1c5ed5da6d8118;
   0xd807aa98a3030242; 0x12835b0145706fbe; 0x243185be4ee4b28c; 0x550c7dc3d5ffb4e2;
   0x72be5d74f27b896f; 0x80deb1fe3b1696b1; 0x9bdc06a725c71235; 0xc19bf174cf692694;
   0xe49b69c19ef14ad2; 0xefbe4786384f25e3; 0x0fc19dc68b8cd5b5; 0x240ca1cc77ac9c65;
   0x2de92c6f592b0275; 0x4a7484aa6ea6e483; 0x5cb0a9dcbd41fbd4; 0x76f988da831153b5;
   0x983e5152ee66dfab; 0xa831c66d2db43210; 0xb00327c898fb213f; 0xbf597fc7beef0ee4;
   0xc6e00bf33da88fc2; 0xd5a79147930aa725; 0x06ca6351e003826f; 0x142929670a0e6e70;
   0x27b70a8546d22ffc; 0x2e1b21385c26c926; 0x4d2c6dfc5ac42aed; 0x53380d139d95b3df;
   0x650a73548baf63de; 0x766a0abb3c77b2a8; 0x81c2c92e47edaee6; 0x92722c851482353b;
   0xa2bfe8a14cf10364; 0xa81a664bbc423001; 0xc24b8b70d0f89791; 0xc76c51a30654be30;
   0xd192e819d6ef5218; 0xd69906245565a910; 0xf40e35855771202a; 0x106aa07032bbd1b8;
   0x19a4c116b8d2d0c8; 0x1e376c085141ab53; 0x2748774cdf8eeb99; 0x34b0bcb5e19b48a8;
   0x391c0cb3c5c95a63; 0x4ed8aa4ae3418acb; 0x5b9cca4f7763e373; 0x682e6ff3d6b2b8a3;
   0x748f82ee5defb2fc; 0x78a5636f43172f60; 0x84c87814a1f0ab72; 0x8cc702081a6439ec;
   0x90befffa23631e28; 0xa4506cebde82bde9; 0xbef9a3f7b2c67915; 0xc67178f2e372532b;
   0xca273eceea26619c; 0xd186b8c721c0c207; 0xeada7dd6cde0eb1e; 0xf57d4f7fee6ed178;
   0x06f067aa72176fba; 0x0a637dc5a2c898a6; 0x113f9804bef90dae; 0x1b710b35131c471b;
   0x28db77f523047d84; 0x32caab7b40c72493; 0x3c9ebe0a15c9bebc; 0x431d67c49c100d4c;
   0x4cc5d4becb3e42b6; 0x597f299cfc657e2a; 0x5fcb6fab3ad6faec; 0x6c44198c4a475817];
  s_init :=
  [0x6a09e667f3bcc908; 0xbb67ae8584caa73b; 0x3c6ef372fe94f82b; 0xa54ff53a5f1d36f1;
   0x510e527fade682d1; 0x9b05688c2b3e6c1f; 0x1f83d9abfb41bd6b; 0x5be0cd19137e2179] |}.
Definition sha512 (m : bytes) : arr64 := to_arr 64 (sha sha512_params m).

(** RFC 2104 with SHA-256: block size 64. *)
Definition hmac_key (k : bytes) : bytes := let k' := if (64 <? length k)%nat then sha256 k else k in k' ++ repeat x00 (64 - length k').
Definition hmac_sha256 (k m : bytes) : bytes :=
  let xk (c : N) := map (fun b => n2b (N.lxor (b2n b) c)) (hmac_key k) in
  sha256 (xk 0x5c ++ sha256 (xk 0x36 ++ m)).
