(** Aes.v: AES with 128-, 192- and 256-bit keys (FIPS 197), the block functions behind Go's crypto/aes that cipher/cbc.go:30 and 61 uses.
    The package is not part of /repo: this file is the standard, not a model of its code. *)
From Verif Require Import Base.
From Coq Require Import NArith List.
Import ListNotations.

(** FIPS 197 section 5.1.1, figure 7: S-box; section 5.3.2, figure 14: inverse S-box. *)
Definition sbox_table : list byte :=
  [x63; x7c; x77; x7b; xf2; x6b; x6f; xc5; x30; x01; x67; x2b; xfe; xd7; xab; x76; xca; x82; xc9; x7d; xfa; x59; x47; xf0; xad; xd4; xa2; xaf; x9c; xa4; x72; xc0;
   xb7; xfd; x93; x26; x36; x3f; xf7; xcc; x34; xa5; xe5; xf1; x71; xd8; x31; x15; x04; xc7; x23; xc3; x18; x96; x05; x9a; x07; x12; x80; xe2; xeb; x27; xb2; x75;
   x09; x83; x2c; x1a; x1b; x6e; x5a; xa0; x52; x3b; xd6; xb3; x29; xe3; x2f; x84; x53; xd1; x00; xed; x20; xfc; xb1; x5b; x6a; xcb; xbe; x39; x4a; x4c; x58; xcf;
   xd0; xef; xaa; xfb; x43; x4d; x33; x85; x45; xf9; x02; x7f; x50; x3c; x9f; xa8; x51; xa3; x40; x8f; x92; x9d; x38; xf5; xbc; xb6; xda; x21; x10; xff; xf3; xd2;
   xcd; x0c; x13; xec; x5f; x97; x44; x17; xc4; xa7; x7e; x3d; x64; x5d; x19; x73; x60; x81; x4f; xdc; x22; x2a; x90; x88; x46; xee; xb8; x14; xde; x5e; x0b; xdb;
   xe0; x32; x3a; x0a; x49; x06; x24; x5c; xc2; xd3; xac; x62; x91; x95; xe4; x79; xe7; xc8; x37; x6d; x8d; xd5; x4e; xa9; x6c; x56; xf4; xea; x65; x7a; xae; x08;
   xba; x78; x25; x2e; x1c; xa6; xb4; xc6; xe8; xdd; x74; x1f; x4b; xbd; x8b; x8a; x70; x3e; xb5; x66; x48; x03; xf6; x0e; x61; x35; x57; xb9; x86; xc1; x1d; x9e;
   xe1; xf8; x98; x11; x69; xd9; x8e; x94; x9b; x1e; x87; xe9; xce; x55; x28; xdf; x8c; xa1; x89; x0d; xbf; xe6; x42; x68; x41; x99; x2d; x0f; xb0; x54; xbb; x16].
Definition inv_sbox_table : list byte :=
  [x52; x09; x6a; xd5; x30; x36; xa5; x38; xbf; x40; xa3; x9e; x81; xf3; xd7; xfb; x7c; xe3; x39; x82; x9b; x2f; xff; x87; x34; x8e; x43; x44; xc4; xde; xe9; xcb;
   x54; x7b; x94; x32; xa6; xc2; x23; x3d; xee; x4c; x95; x0b; x42; xfa; xc3; x4e; x08; x2e; xa1; x66; x28; xd9; x24; xb2; x76; x5b; xa2; x49; x6d; x8b; xd1; x25;
   x72; xf8; xf6; x64; x86; x68; x98; x16; xd4; xa4; x5c; xcc; x5d; x65; xb6; x92; x6c; x70; x48; x50; xfd; xed; xb9; xda; x5e; x15; x46; x57; xa7; x8d; x9d; x84;
   x90; xd8; xab; x00; x8c; xbc; xd3; x0a; xf7; xe4; x58; x05; xb8; xb3; x45; x06; xd0; x2c; x1e; x8f; xca; x3f; x0f; x02; xc1; xaf; xbd; x03; x01; x13; x8a; x6b;
   x3a; x91; x11; x41; x4f; x67; xdc; xea; x97; xf2; xcf; xce; xf0; xb4; xe6; x73; x96; xac; x74; x22; xe7; xad; x35; x85; xe2; xf9; x37; xe8; x1c; x75; xdf; x6e;
   x47; xf1; x1a; x71; x1d; x29; xc5; x89; x6f; xb7; x62; x0e; xaa; x18; xbe; x1b; xfc; x56; x3e; x4b; xc6; xd2; x79; x20; x9a; xdb; xc0; xfe; x78; xcd; x5a; xf4;
   x1f; xdd; xa8; x33; x88; x07; xc7; x31; xb1; x12; x10; x59; x27; x80; xec; x5f; x60; x51; x7f; xa9; x19; xb5; x4a; x0d; x2d; xe5; x7a; x9f; x93; xc9; x9c; xef;
   xa0; xe0; x3b; x4d; xae; x2a; xf5; xb0; xc8; xeb; xbb; x3c; x83; x53; x99; x61; x17; x2b; x04; x7e; xba; x77; xd6; x26; xe1; x69; x14; x63; x55; x21; x0c; x7d].
Definition sub_byte (b : byte) : byte := nth (N.to_nat (b2n b)) sbox_table x00.
Definition inv_sub_byte (b : byte) : byte := nth (N.to_nat (b2n b)) inv_sbox_table x00.

(** FIPS 197 section 4.1, 4.2.1: addition is xor, multiplication by x modulo x^8+x^4+x^3+x+1. *)
Definition bxor (a b : byte) : byte := n2b (N.lxor (b2n a) (b2n b)).
Definition xtime (a : byte) : byte := n2b (N.lxor (N.land (N.shiftl (b2n a) 1) 255) (if N.testbit (b2n a) 7 then 27 else 0)).
Definition mul3 (a : byte) : byte := bxor (xtime a) a.
Definition mul9 (a : byte) : byte := bxor (xtime (xtime (xtime a))) a.
Definition mul11 (a : byte) : byte := bxor (bxor (xtime (xtime (xtime a))) (xtime a)) a.
Definition mul13 (a : byte) : byte := bxor (bxor (xtime (xtime (xtime a))) (xtime (xtime a))) a.
Definition mul14 (a : byte) : byte := bxor (bxor (xtime (xtime (xtime a))) (xtime (xtime a))) (xtime a).
Definition bxor4 (a b c d : byte) : byte := bxor (bxor (bxor a b) c) d.

(** FIPS 197 section 5.1.3 and 5.3.3: MixColumns, InvMixColumns on one column. *)
Definition mix_column (a b c d : byte) : bytes :=
  [bxor4 (xtime a) (mul3 b) c d; bxor4 a (xtime b) (mul3 c) d; bxor4 a b (xtime c) (mul3 d); bxor4 (mul3 a) b c (xtime d)].
Definition inv_mix_column (a b c d : byte) : bytes :=
  [bxor4 (mul14 a) (mul11 b) (mul13 c) (mul9 d); bxor4 (mul9 a) (mul14 b) (mul11 c) (mul13 d);
   bxor4 (mul13 a) (mul9 b) (mul14 c) (mul11 d); bxor4 (mul11 a) (mul13 b) (mul9 c) (mul14 d)].
Fixpoint columns (f : byte -> byte -> byte -> byte -> bytes) (s : bytes) : bytes :=
  match s with a :: b :: c :: d :: r => f a b c d ++ columns f r | _ => s end.
Definition mix_columns : bytes -> bytes := columns mix_column.
Definition inv_mix_columns : bytes -> bytes := columns inv_mix_column.

(** FIPS 197 section 3.4, 5.1.2, 5.3.1: the state is the block read column by column; row r is rotated by r. *)
Definition shift_rows (s : bytes) : bytes :=
  match s with
  | [a0; a1; a2; a3; b0; b1; b2; b3; c0; c1; c2; c3; d0; d1; d2; d3] => [a0; b1; c2; d3; b0; c1; d2; a3; c0; d1; a2; b3; d0; a1; b2; c3]
  | _ => s
  end.
Definition inv_shift_rows (s : bytes) : bytes :=
  match s with
  | [a0; a1; a2; a3; b0; b1; b2; b3; c0; c1; c2; c3; d0; d1; d2; d3] => [a0; d1; c2; b3; b0; a1; d2; c3; c0; b1; a2; d3; d0; c1; b2; a3]
  | _ => s
  end.
Definition sub_bytes : bytes -> bytes := map sub_byte.
Definition inv_sub_bytes : bytes -> bytes := map inv_sub_byte.
(** FIPS 197 section 5.1.4 *)
Fixpoint add_round_key (k s : bytes) : bytes :=
  match s, k with x :: s', y :: k' => bxor x y :: add_round_key k' s' | _, _ => s end.

(** FIPS 197 section 5.2: key expansion, word by word; [ws] is the list of the words so far, last first. *)
Definition sub_word (w : bytes) : bytes := map sub_byte w.
Definition rot_word (w : bytes) : bytes := match w with a :: r => r ++ [a] | [] => [] end.
Fixpoint xor_word (a b : bytes) : bytes := match a, b with x :: a', y :: b' => bxor x y :: xor_word a' b' | _, _ => [] end.
Fixpoint rcon (i : nat) : byte := match i with O => x00 | S O => x01 | S i' => xtime (rcon i') end.
Fixpoint expand (n i nk : nat) (ws : list bytes) : list bytes :=
  match n with
  | O => ws
  | S n' =>
      let t := hd [] ws in
      let t' := if (i mod nk =? 0)%nat then xor_word (sub_word (rot_word t)) [rcon (i / nk); x00; x00; x00]
                else if ((6 <? nk) && (i mod nk =? 4))%nat%bool then sub_word t else t in
      expand n' (S i) nk (xor_word (nth (nk - 1) ws []) t' :: ws)
  end.
Fixpoint key_words (n : nat) (k : bytes) : list bytes := match n with O => [] | S n' => firstn 4 k :: key_words n' (skipn 4 k) end.
Fixpoint group4 (n : nat) (ws : list bytes) : list bytes :=
  match n with O => [] | S n' => concat (firstn 4 ws) :: group4 n' (skipn 4 ws) end.
(** The round keys, in order; Nr = Nk + 6. *)
Definition round_keys (k : bytes) : list bytes :=
  let nk := (length k / 4)%nat in
  let nr := (nk + 6)%nat in
  group4 (S nr) (rev (expand (4 * (nr + 1) - nk) nk nk (rev (key_words nk k)))).

(** FIPS 197 section 5.1, figure 5: Cipher. *)
Fixpoint enc_rounds (ks : list bytes) (s : bytes) : bytes :=
  match ks with
  | [] => s
  | [k] => add_round_key k (shift_rows (sub_bytes s))
  | k :: ks' => enc_rounds ks' (add_round_key k (mix_columns (shift_rows (sub_bytes s))))
  end.
Definition aes_encrypt (k b : bytes) : bytes :=
  match round_keys k with [] => b | k0 :: ks => enc_rounds ks (add_round_key k0 b) end.

(** FIPS 197 section 5.3, figure 12: InvCipher; [dec_rounds] takes the round keys from the last but one down to the second. *)
Fixpoint dec_rounds (ks : list bytes) (s : bytes) : bytes :=
  match ks with
  | [] => s
  | [k0] => add_round_key k0 (inv_sub_bytes (inv_shift_rows s))
  | k :: ks' => dec_rounds ks' (inv_mix_columns (add_round_key k (inv_sub_bytes (inv_shift_rows s))))
  end.
Definition aes_decrypt (k b : bytes) : bytes :=
  match rev (round_keys k) with [] => b | kl :: ks => dec_rounds ks (add_round_key kl b) end.
