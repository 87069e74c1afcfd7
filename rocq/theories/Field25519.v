(** Field25519.v: the field arithmetic of ecc/edwards25519/edwards25519.go (lines 1-600) and the conversion of a
    Curve25519 public key used by ecc/sign_curve25519.go verify.

    Machine integers are [Z] values kept in range by explicit two's complement wrapping after every operation, as
    in Go: [i32], [i64]. A FieldElement is a [10]int32 array. *)
From Verif Require Import Base.
From Coq Require Import ZArith Lia List.
Local Open Scope Z_scope.

(** Go int32 / int64 wrap-around (Go language specification, integer overflow). *)
Definition i32 (z : Z) : Z := (z + 2 ^ 31) mod 2 ^ 32 - 2 ^ 31.
Definition i64 (z : Z) : Z := (z + 2 ^ 63) mod 2 ^ 64 - 2 ^ 63.
Definition add32 (a b : Z) : Z := i32 (a + b).
Definition sub32 (a b : Z) : Z := i32 (a - b).
Definition mul32 (a b : Z) : Z := i32 (a * b).
Definition shl32 (a n : Z) : Z := i32 (a * 2 ^ n).
Definition add64 (a b : Z) : Z := i64 (a + b).
Definition sub64 (a b : Z) : Z := i64 (a - b).
Definition mul64 (a b : Z) : Z := i64 (a * b).
Definition shl64 (a n : Z) : Z := i64 (a * 2 ^ n).
(** >> on a signed integer: rounds towards minus infinity. *)
Definition shr (a n : Z) : Z := a / 2 ^ n.

(** ecc/edwards25519/edwards25519.go:14 FieldElement *)
Record fe : Type := mk_fe { e0 : Z; e1 : Z; e2 : Z; e3 : Z; e4 : Z; e5 : Z; e6 : Z; e7 : Z; e8 : Z; e9 : Z }.

(** ecc/edwards25519/edwards25519.go:16-25 FeZero, FeOne *)
Definition fe_zero : fe := mk_fe 0 0 0 0 0 0 0 0 0 0.
Definition fe_one : fe := mk_fe 1 0 0 0 0 0 0 0 0 0.

(** ecc/edwards25519/edwards25519.go:27-38 FeAdd, 40-51 FeSub, 245-256 FeNeg *)
Definition fe_add (a b : fe) : fe :=
  mk_fe (add32 (e0 a) (e0 b)) (add32 (e1 a) (e1 b)) (add32 (e2 a) (e2 b)) (add32 (e3 a) (e3 b)) (add32 (e4 a) (e4 b))
        (add32 (e5 a) (e5 b)) (add32 (e6 a) (e6 b)) (add32 (e7 a) (e7 b)) (add32 (e8 a) (e8 b)) (add32 (e9 a) (e9 b)).
Definition fe_sub (a b : fe) : fe :=
  mk_fe (sub32 (e0 a) (e0 b)) (sub32 (e1 a) (e1 b)) (sub32 (e2 a) (e2 b)) (sub32 (e3 a) (e3 b)) (sub32 (e4 a) (e4 b))
        (sub32 (e5 a) (e5 b)) (sub32 (e6 a) (e6 b)) (sub32 (e7 a) (e7 b)) (sub32 (e8 a) (e8 b)) (sub32 (e9 a) (e9 b)).
Definition fe_neg (a : fe) : fe :=
  mk_fe (i32 (- e0 a)) (i32 (- e1 a)) (i32 (- e2 a)) (i32 (- e3 a)) (i32 (- e4 a))
        (i32 (- e5 a)) (i32 (- e6 a)) (i32 (- e7 a)) (i32 (- e8 a)) (i32 (- e9 a)).

(** ecc/edwards25519/edwards25519.go:57-73 FeCMove: [f ^= (-b) & (f ^ g)] limb by limb *)
Definition cmove (b f g : Z) : Z := Z.lxor f (Z.land (i32 (- b)) (Z.lxor f g)).
Definition fe_cmove (f g : fe) (b : Z) : fe :=
  mk_fe (cmove b (e0 f) (e0 g)) (cmove b (e1 f) (e1 g)) (cmove b (e2 f) (e2 g)) (cmove b (e3 f) (e3 g)) (cmove b (e4 f) (e4 g))
        (cmove b (e5 f) (e5 g)) (cmove b (e6 f) (e6 g)) (cmove b (e7 f) (e7 g)) (cmove b (e8 f) (e8 g)) (cmove b (e9 f) (e9 g)).

(** ecc/edwards25519/edwards25519.go:258-345 FeCombine. One carry: [c = (h + (1 << (s-1))) >> s; hn += c; h -= c << s]. *)
Definition carry64 (s h hn : Z) : Z * Z :=
  let c := shr (add64 h (2 ^ (s - 1))) s in (sub64 h (shl64 c s), add64 hn c).
(** The carry out of the last limb: [c9 = (h9 + (1<<24)) >> 25; h0 += c9 * 19; h9 -= c9 << 25] (323-325). *)
Definition carry64_19 (h9 h0 : Z) : Z * Z :=
  let c := shr (add64 h9 (2 ^ 24)) 25 in (sub64 h9 (shl64 c 25), add64 h0 (mul64 c 19)).
Definition fe_combine (h0 h1 h2 h3 h4 h5 h6 h7 h8 h9 : Z) : fe :=
  let '(h0, h1) := carry64 26 h0 h1 in
  let '(h4, h5) := carry64 26 h4 h5 in
  let '(h1, h2) := carry64 25 h1 h2 in
  let '(h5, h6) := carry64 25 h5 h6 in
  let '(h2, h3) := carry64 26 h2 h3 in
  let '(h6, h7) := carry64 26 h6 h7 in
  let '(h3, h4) := carry64 25 h3 h4 in
  let '(h7, h8) := carry64 25 h7 h8 in
  let '(h4, h5) := carry64 26 h4 h5 in
  let '(h8, h9) := carry64 26 h8 h9 in
  let '(h9, h0) := carry64_19 h9 h0 in
  let '(h0, h1) := carry64 26 h0 h1 in
  mk_fe (i32 h0) (i32 h1) (i32 h2) (i32 h3) (i32 h4) (i32 h5) (i32 h6) (i32 h7) (i32 h8) (i32 h9).

(** ecc/edwards25519/edwards25519.go:374-425 FeMul. The products by 2 and 19 are computed in int32 before the conversion. *)
Definition fe_mul (f g : fe) : fe :=
  let f0 := e0 f in let f1 := e1 f in let f2 := e2 f in let f3 := e3 f in let f4 := e4 f in
  let f5 := e5 f in let f6 := e6 f in let f7 := e7 f in let f8 := e8 f in let f9 := e9 f in
  let f1_2 := mul32 2 f1 in let f3_2 := mul32 2 f3 in let f5_2 := mul32 2 f5 in let f7_2 := mul32 2 f7 in let f9_2 := mul32 2 f9 in
  let g0 := e0 g in let g1 := e1 g in let g2 := e2 g in let g3 := e3 g in let g4 := e4 g in
  let g5 := e5 g in let g6 := e6 g in let g7 := e7 g in let g8 := e8 g in let g9 := e9 g in
  let g1_19 := mul32 19 g1 in let g2_19 := mul32 19 g2 in let g3_19 := mul32 19 g3 in let g4_19 := mul32 19 g4 in
  let g5_19 := mul32 19 g5 in let g6_19 := mul32 19 g6 in let g7_19 := mul32 19 g7 in let g8_19 := mul32 19 g8 in
  let g9_19 := mul32 19 g9 in
  let sum10 a b c d e f g h i j := add64 (add64 (add64 (add64 (add64 (add64 (add64 (add64 (add64 a b) c) d) e) f) g) h) i) j in
  let m := mul64 in
  fe_combine
    (sum10 (m f0 g0) (m f1_2 g9_19) (m f2 g8_19) (m f3_2 g7_19) (m f4 g6_19) (m f5_2 g5_19) (m f6 g4_19) (m f7_2 g3_19) (m f8 g2_19) (m f9_2 g1_19))
    (sum10 (m f0 g1) (m f1 g0) (m f2 g9_19) (m f3 g8_19) (m f4 g7_19) (m f5 g6_19) (m f6 g5_19) (m f7 g4_19) (m f8 g3_19) (m f9 g2_19))
    (sum10 (m f0 g2) (m f1_2 g1) (m f2 g0) (m f3_2 g9_19) (m f4 g8_19) (m f5_2 g7_19) (m f6 g6_19) (m f7_2 g5_19) (m f8 g4_19) (m f9_2 g3_19))
    (sum10 (m f0 g3) (m f1 g2) (m f2 g1) (m f3 g0) (m f4 g9_19) (m f5 g8_19) (m f6 g7_19) (m f7 g6_19) (m f8 g5_19) (m f9 g4_19))
    (sum10 (m f0 g4) (m f1_2 g3) (m f2 g2) (m f3_2 g1) (m f4 g0) (m f5_2 g9_19) (m f6 g8_19) (m f7_2 g7_19) (m f8 g6_19) (m f9_2 g5_19))
    (sum10 (m f0 g5) (m f1 g4) (m f2 g3) (m f3 g2) (m f4 g1) (m f5 g0) (m f6 g9_19) (m f7 g8_19) (m f8 g7_19) (m f9 g6_19))
    (sum10 (m f0 g6) (m f1_2 g5) (m f2 g4) (m f3_2 g3) (m f4 g2) (m f5_2 g1) (m f6 g0) (m f7_2 g9_19) (m f8 g8_19) (m f9_2 g7_19))
    (sum10 (m f0 g7) (m f1 g6) (m f2 g5) (m f3 g4) (m f4 g3) (m f5 g2) (m f6 g1) (m f7 g0) (m f8 g9_19) (m f9 g8_19))
    (sum10 (m f0 g8) (m f1_2 g7) (m f2 g6) (m f3_2 g5) (m f4 g4) (m f5_2 g3) (m f6 g2) (m f7_2 g1) (m f8 g0) (m f9_2 g9_19))
    (sum10 (m f0 g9) (m f1 g8) (m f2 g7) (m f3 g6) (m f4 g5) (m f5 g4) (m f6 g3) (m f7 g2) (m f8 g1) (m f9 g0)).

(** ecc/edwards25519/edwards25519.go:427-464 feSquare: ten int64 values (a [fe] is used to hold them). The doublings are int32, the
    products by 19 and 38 are int64. *)
Definition fe_square_wide (f : fe) : fe :=
  let f0 := e0 f in let f1 := e1 f in let f2 := e2 f in let f3 := e3 f in let f4 := e4 f in
  let f5 := e5 f in let f6 := e6 f in let f7 := e7 f in let f8 := e8 f in let f9 := e9 f in
  let f0_2 := mul32 2 f0 in let f1_2 := mul32 2 f1 in let f2_2 := mul32 2 f2 in let f3_2 := mul32 2 f3 in
  let f4_2 := mul32 2 f4 in let f5_2 := mul32 2 f5 in let f6_2 := mul32 2 f6 in let f7_2 := mul32 2 f7 in
  let f5_38 := mul64 38 f5 in let f6_19 := mul64 19 f6 in let f7_38 := mul64 38 f7 in let f8_19 := mul64 19 f8 in
  let f9_38 := mul64 38 f9 in
  let sum5 a b c d e := add64 (add64 (add64 (add64 a b) c) d) e in
  let sum6 a b c d e f := add64 (sum5 a b c d e) f in
  let m := mul64 in
  mk_fe
    (sum6 (m f0 f0) (m f1_2 f9_38) (m f2_2 f8_19) (m f3_2 f7_38) (m f4_2 f6_19) (m f5 f5_38))
    (sum5 (m f0_2 f1) (m f2 f9_38) (m f3_2 f8_19) (m f4 f7_38) (m f5_2 f6_19))
    (sum6 (m f0_2 f2) (m f1_2 f1) (m f3_2 f9_38) (m f4_2 f8_19) (m f5_2 f7_38) (m f6 f6_19))
    (sum5 (m f0_2 f3) (m f1_2 f2) (m f4 f9_38) (m f5_2 f8_19) (m f6 f7_38))
    (sum6 (m f0_2 f4) (m f1_2 f3_2) (m f2 f2) (m f5_2 f9_38) (m f6_2 f8_19) (m f7 f7_38))
    (sum5 (m f0_2 f5) (m f1_2 f4) (m f2_2 f3) (m f6 f9_38) (m f7_2 f8_19))
    (sum6 (m f0_2 f6) (m f1_2 f5_2) (m f2_2 f4) (m f3_2 f3) (m f7_2 f9_38) (m f8 f8_19))
    (sum5 (m f0_2 f7) (m f1_2 f6) (m f2_2 f5) (m f3_2 f4) (m f8 f9_38))
    (sum6 (m f0_2 f8) (m f1_2 f7_2) (m f2_2 f6) (m f3_2 f5_2) (m f4 f4) (m f9 f9_38))
    (sum5 (m f0_2 f9) (m f1_2 f8) (m f2_2 f7) (m f3_2 f6) (m f4_2 f5)).

(** ecc/edwards25519/edwards25519.go:473-476 FeSquare, 488-503 FeSquare2 *)
Definition combine_wide (h : fe) : fe := fe_combine (e0 h) (e1 h) (e2 h) (e3 h) (e4 h) (e5 h) (e6 h) (e7 h) (e8 h) (e9 h).
Definition fe_square (f : fe) : fe := combine_wide (fe_square_wide f).
Definition fe_square2 (f : fe) : fe :=
  let h := fe_square_wide f in let d x := add64 x x in
  fe_combine (d (e0 h)) (d (e1 h)) (d (e2 h)) (d (e3 h)) (d (e4 h)) (d (e5 h)) (d (e6 h)) (d (e7 h)) (d (e8 h)) (d (e9 h)).

(** ecc/edwards25519/edwards25519.go:75-90 load3, load4: the byte is converted to int64 and shifted; [|] of non-overlapping bits. *)
Definition zb (b : byte) : Z := Z.of_N (b2n b).
Definition load3 (l : bytes) : Z :=
  match l with
  | a :: b :: c :: _ => Z.lor (Z.lor (zb a) (shl64 (zb b) 8)) (shl64 (zb c) 16)
  | _ => 0
  end.
Definition load4 (l : bytes) : Z :=
  match l with
  | a :: b :: c :: d :: _ => Z.lor (Z.lor (Z.lor (zb a) (shl64 (zb b) 8)) (shl64 (zb c) 16)) (shl64 (zb d) 24)
  | _ => 0
  end.

(** ecc/edwards25519/edwards25519.go:92-105 FeFromBytes *)
Definition fe_from_bytes (s : arr32) : fe :=
  let l := abytes s in let at_ n := skipn n l in
  fe_combine (load4 (at_ 0%nat)) (shl64 (load3 (at_ 4%nat)) 6) (shl64 (load3 (at_ 7%nat)) 5) (shl64 (load3 (at_ 10%nat)) 3)
             (shl64 (load3 (at_ 13%nat)) 2) (load4 (at_ 16%nat)) (shl64 (load3 (at_ 20%nat)) 7) (shl64 (load3 (at_ 23%nat)) 5)
             (shl64 (load3 (at_ 26%nat)) 4) (shl64 (Z.land (load3 (at_ 29%nat)) 8388607) 2).

(** ecc/edwards25519/edwards25519.go:130-217 FeToBytes. [carry32]: [carry = h >> s; hn += carry; h -= carry << s]. The argument is
    modified in place by the code; [fe_to_bytes_full] returns the limbs left behind as well. *)
Definition carry32 (s h hn : Z) : Z * Z :=
  let c := shr h s in (sub32 h (shl32 c s), add32 hn c).
(** byte(x): the low eight bits *)
Definition zbyte (z : Z) : byte := n2b (Z.to_N (z mod 256)).
Definition fe_to_bytes_limbs (h : fe) : fe :=
  let q := shr (add32 (mul32 19 (e9 h)) (2 ^ 24)) 25 in
  let q := shr (add32 (e0 h) q) 26 in
  let q := shr (add32 (e1 h) q) 25 in
  let q := shr (add32 (e2 h) q) 26 in
  let q := shr (add32 (e3 h) q) 25 in
  let q := shr (add32 (e4 h) q) 26 in
  let q := shr (add32 (e5 h) q) 25 in
  let q := shr (add32 (e6 h) q) 26 in
  let q := shr (add32 (e7 h) q) 25 in
  let q := shr (add32 (e8 h) q) 26 in
  let q := shr (add32 (e9 h) q) 25 in
  let h0 := add32 (e0 h) (mul32 19 q) in
  let '(h0, h1) := carry32 26 h0 (e1 h) in
  let '(h1, h2) := carry32 25 h1 (e2 h) in
  let '(h2, h3) := carry32 26 h2 (e3 h) in
  let '(h3, h4) := carry32 25 h3 (e4 h) in
  let '(h4, h5) := carry32 26 h4 (e5 h) in
  let '(h5, h6) := carry32 25 h5 (e6 h) in
  let '(h6, h7) := carry32 26 h6 (e7 h) in
  let '(h7, h8) := carry32 25 h7 (e8 h) in
  let '(h8, h9) := carry32 26 h8 (e9 h) in
  let h9 := sub32 h9 (shl32 (shr h9 25) 25) in
  mk_fe h0 h1 h2 h3 h4 h5 h6 h7 h8 h9.
Definition fe_pack (h : fe) : bytes :=
  let or2 a n b m := zbyte (Z.lor (shr a n) (shl32 b m)) in
  let at_ a n := zbyte (shr a n) in
  [at_ (e0 h) 0; at_ (e0 h) 8; at_ (e0 h) 16; or2 (e0 h) 24 (e1 h) 2; at_ (e1 h) 6; at_ (e1 h) 14; or2 (e1 h) 22 (e2 h) 3;
   at_ (e2 h) 5; at_ (e2 h) 13; or2 (e2 h) 21 (e3 h) 5; at_ (e3 h) 3; at_ (e3 h) 11; or2 (e3 h) 19 (e4 h) 6; at_ (e4 h) 2;
   at_ (e4 h) 10; at_ (e4 h) 18; at_ (e5 h) 0; at_ (e5 h) 8; at_ (e5 h) 16; or2 (e5 h) 24 (e6 h) 1; at_ (e6 h) 7; at_ (e6 h) 15;
   or2 (e6 h) 23 (e7 h) 3; at_ (e7 h) 5; at_ (e7 h) 13; or2 (e7 h) 21 (e8 h) 4; at_ (e8 h) 4; at_ (e8 h) 12;
   or2 (e8 h) 20 (e9 h) 6; at_ (e9 h) 2; at_ (e9 h) 10; at_ (e9 h) 18].
Definition fe_to_bytes (h : fe) : arr32 := to_arr 32 (fe_pack (fe_to_bytes_limbs h)).

(** ecc/edwards25519/edwards25519.go:219-223 FeIsNegative, 225-236 FeIsNonZero *)
Definition first_byte (s : arr32) : byte := match abytes s with b :: _ => b | [] => x00 end.
Definition fe_is_negative (f : fe) : Z := zb (first_byte (fe_to_bytes f)) mod 2.
Definition fe_is_non_zero (f : fe) : Z :=
  let x := fold_left (fun x b => N.lor x (b2n b)) (abytes (fe_to_bytes f)) 0%N in
  let x := N.lor x (x / 16) in
  let x := N.lor x (x / 4) in
  let x := N.lor x (x / 2) in
  Z.of_N (N.land x 1).

(** ecc/edwards25519/edwards25519.go:505-558 FeInvert. [squares n t]: FeSquare applied [n] times. *)
Definition squares (n : nat) (t : fe) : fe := Nat.iter n fe_square t.
Definition fe_invert (z : fe) : fe :=
  let t0 := fe_square z in
  let t1 := squares 1 (fe_square t0) in
  let t1 := fe_mul z t1 in
  let t0 := fe_mul t0 t1 in
  let t2 := fe_square t0 in
  let t1 := fe_mul t1 t2 in
  let t2 := squares 4 (fe_square t1) in
  let t1 := fe_mul t2 t1 in
  let t2 := squares 9 (fe_square t1) in
  let t2 := fe_mul t2 t1 in
  let t3 := squares 19 (fe_square t2) in
  let t2 := fe_mul t3 t2 in
  let t2 := squares 9 (fe_square t2) in
  let t1 := fe_mul t2 t1 in
  let t2 := squares 49 (fe_square t1) in
  let t2 := fe_mul t2 t1 in
  let t3 := squares 99 (fe_square t2) in
  let t2 := fe_mul t3 t2 in
  let t2 := squares 49 (fe_square t2) in
  let t1 := fe_mul t2 t1 in
  let t1 := squares 4 (fe_square t1) in
  fe_mul t1 t0.

(** ecc/edwards25519/edwards25519.go:560-619 fePow22523 *)
Definition fe_pow22523 (z : fe) : fe :=
  let t0 := fe_square z in
  let t1 := squares 1 (fe_square t0) in
  let t1 := fe_mul z t1 in
  let t0 := fe_mul t0 t1 in
  let t0 := fe_square t0 in
  let t0 := fe_mul t1 t0 in
  let t1 := squares 4 (fe_square t0) in
  let t0 := fe_mul t1 t0 in
  let t1 := squares 9 (fe_square t0) in
  let t1 := fe_mul t1 t0 in
  let t2 := squares 19 (fe_square t1) in
  let t1 := fe_mul t2 t1 in
  let t1 := squares 9 (fe_square t1) in
  let t0 := fe_mul t1 t0 in
  let t1 := squares 49 (fe_square t0) in
  let t1 := fe_mul t1 t0 in
  let t2 := squares 99 (fe_square t1) in
  let t1 := fe_mul t2 t1 in
  let t1 := squares 49 (fe_square t1) in
  let t0 := fe_mul t1 t0 in
  let t0 := squares 1 (fe_square t0) in
  fe_mul t0 z.

(** ecc/sign_curve25519.go:90-116 verify, the conversion of the key: the Edwards key handed to ed25519.Verify, from the
    32-byte Curve25519 key and the last byte of the signature. [mask] is [&= 0x7F] on the last byte, [or] the
    [|= signature[63] & 0x80]. *)
Definition on_last (f : byte -> byte) (l : bytes) : bytes :=
  match rev l with [] => [] | b :: r => rev (f b :: r) end.
Definition clear_top (b : byte) : byte := n2b (N.land (b2n b) 127).
Definition set_top (s b : byte) : byte := n2b (N.lor (b2n b) (N.land (b2n s) 128)).
Definition mont_to_ed (pub : arr32) (sig63 : byte) : arr32 :=
  let mont_x := fe_from_bytes (to_arr 32 (on_last clear_top (abytes pub))) in
  let minus := fe_sub mont_x fe_one in
  let plus := fe_invert (fe_add mont_x fe_one) in
  let ed_y := fe_mul minus plus in
  to_arr 32 (on_last (set_top sig63) (abytes (fe_to_bytes ed_y))).
