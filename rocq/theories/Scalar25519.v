(** Scalar25519.v: the scalar arithmetic of ecc/edwards25519/edwards25519.go (lines 882-1639): ScMulAdd and ScReduce.

    The local variables s0 .. s23 (int64) are a list of 24 integers; every operation wraps at 64 bits as in Go. *)
From Verif Require Import Base Field25519.
From Coq Require Import ZArith Lia List.
Import ListNotations.
Local Open Scope list_scope.
Local Open Scope Z_scope.

(** Reading and assigning the variable s_i. *)
Definition limb (i : nat) (s : list Z) : Z := nth i s 0.
Fixpoint set_limb (i : nat) (x : Z) (s : list Z) : list Z :=
  match s, i with
  | [], _ => []
  | _ :: r, O => x :: r
  | y :: r, S i' => y :: set_limb i' x r
  end.
(** [s_i += x] and [s_i -= x] *)
Definition add_limb (i : nat) (x : Z) (s : list Z) : list Z := set_limb i (add64 (limb i s) x) s.
Definition sub_limb (i : nat) (x : Z) (s : list Z) : list Z := set_limb i (sub64 (limb i s) x) s.

(** The three kinds of groups of statements both functions are made of. *)
Inductive sc_op : Type :=
  | Rnd (i : nat)   (** carry[i] = (s_i + (1 << 20)) >> 21; s_(i+1) += carry[i]; s_i -= carry[i] << 21   (e.g. 956-958) *)
  | Flr (i : nat)   (** carry[i] = s_i >> 21; s_(i+1) += carry[i]; s_i -= carry[i] << 21   (e.g. 1204-1206) *)
  | Fold (i : nat). (** s_(i-12) += s_i * 666643; ... s_(i-7) -= s_i * 683901; s_i = 0   (e.g. 1027-1033) *)

Definition carry_out (c : Z) (i : nat) (s : list Z) : list Z :=
  let s := add_limb (S i) c s in sub_limb i (shl64 c 21) s.

Definition fold_limb (i : nat) (s : list Z) : list Z :=
  let x := limb i s in
  let s := add_limb (i - 12) (mul64 x 666643) s in
  let s := add_limb (i - 11) (mul64 x 470296) s in
  let s := add_limb (i - 10) (mul64 x 654183) s in
  let s := sub_limb (i - 9) (mul64 x 997805) s in
  let s := add_limb (i - 8) (mul64 x 136657) s in
  let s := sub_limb (i - 7) (mul64 x 683901) s in
  set_limb i 0 s.

Definition sc_step (o : sc_op) (s : list Z) : list Z :=
  match o with
  | Rnd i => carry_out (shr (add64 (limb i s) (2 ^ 20)) 21) i s
  | Flr i => carry_out (shr (limb i s) 21) i s
  | Fold i => fold_limb i s
  end.
Definition sc_run (ops : list sc_op) (s : list Z) : list Z := fold_left (fun s o => sc_step o s) ops s.

(** ecc/edwards25519/edwards25519.go:956-1025: the carries at the start of ScMulAdd *)
Definition ops_product : list sc_op :=
  map Rnd [0; 2; 4; 6; 8; 10; 12; 14; 16; 18; 20; 22]%nat ++ map Rnd [1; 3; 5; 7; 9; 11; 13; 15; 17; 19; 21]%nat.
(** ecc/edwards25519/edwards25519.go:1027-1202 (ScMulAdd) and 1349-1526 (ScReduce): the same statements, up to the first floor carry *)
Definition ops_reduce : list sc_op :=
  map Fold [23; 22; 21; 20; 19; 18]%nat ++
  map Rnd [6; 8; 10; 12; 14; 16]%nat ++ map Rnd [7; 9; 11; 13; 15]%nat ++
  map Fold [17; 16; 15; 14; 13; 12]%nat ++
  map Rnd [0; 2; 4; 6; 8; 10]%nat ++ map Rnd [1; 3; 5; 7; 9; 11]%nat ++
  [Fold 12%nat].
(** ecc/edwards25519/edwards25519.go:1204-1281 (ScMulAdd) and 1528-1605 (ScReduce) *)
Definition ops_floor : list sc_op := map Flr [0; 1; 2; 3; 4; 5; 6; 7; 8; 9; 10; 11]%nat.
Definition ops_last : list sc_op := Fold 12%nat :: map Flr [0; 1; 2; 3; 4; 5; 6; 7; 8; 9; 10]%nat.

(** ecc/edwards25519/edwards25519.go:1283-1314 and 1607-1638: the 32 bytes of s0 .. s11 *)
Definition sc_pack (s : list Z) : bytes :=
  let at_ i n := zbyte (shr (limb i s) n) in
  let or2 i n j m := zbyte (Z.lor (shr (limb i s) n) (shl64 (limb j s) m)) in
  [at_ 0%nat 0; at_ 0%nat 8; or2 0%nat 16 1%nat 5; at_ 1%nat 3; at_ 1%nat 11; or2 1%nat 19 2%nat 2; at_ 2%nat 6;
   or2 2%nat 14 3%nat 7; at_ 3%nat 1; at_ 3%nat 9; or2 3%nat 17 4%nat 4; at_ 4%nat 4; at_ 4%nat 12; or2 4%nat 20 5%nat 1;
   at_ 5%nat 7; or2 5%nat 15 6%nat 6; at_ 6%nat 2; at_ 6%nat 10; or2 6%nat 18 7%nat 3; at_ 7%nat 5; at_ 7%nat 13;
   at_ 8%nat 0; at_ 8%nat 8; or2 8%nat 16 9%nat 5; at_ 9%nat 3; at_ 9%nat 11; or2 9%nat 19 10%nat 2; at_ 10%nat 6;
   or2 10%nat 14 11%nat 7; at_ 11%nat 1; at_ 11%nat 9; at_ 11%nat 17].

(** 2097151 & (load(a[off:]) >> n) *)
Definition l3 (l : bytes) (off : nat) (n : Z) : Z := Z.land 2097151 (shr (load3 (skipn off l)) n).
Definition l4 (l : bytes) (off : nat) (n : Z) : Z := Z.land 2097151 (shr (load4 (skipn off l)) n).

(** ecc/edwards25519/edwards25519.go:893-904 (a), 905-916 (b), 917-928 (c): twelve limbs of a 32-byte scalar *)
Definition sc_load (a : arr32) : list Z :=
  let l := abytes a in
  [l3 l 0 0; l4 l 2 5; l3 l 5 2; l4 l 7 7; l4 l 10 4; l3 l 13 1; l4 l 15 6; l3 l 18 3; l3 l 21 0; l4 l 23 5; l3 l 26 2;
   shr (load4 (skipn 28 l)) 7].

(** ecc/edwards25519/edwards25519.go:931-954: s_k = c_k + a_0*b_k + a_1*b_(k-1) + ... (no c beyond 11; s23 = 0) *)
Definition sc_terms (a b : list Z) (k : nat) : list Z :=
  map (fun i => mul64 (limb i a) (limb (k - i) b))
      (filter (fun i => (i <=? 11) && (k - i <=? 11))%nat (seq 0 (S k))).
Definition sc_sum (l : list Z) : Z := match l with [] => 0 | x :: r => fold_left add64 r x end.
Definition sc_product (a b c : list Z) : list Z :=
  map (fun k => sc_sum ((if (k <=? 11)%nat then [limb k c] else []) ++ sc_terms a b k)) (seq 0 24).

(** ecc/edwards25519/edwards25519.go:892-1315 ScMulAdd *)
Definition sc_mul_add (a b c : arr32) : arr32 :=
  let s := sc_product (sc_load a) (sc_load b) (sc_load c) in
  to_arr 32 (sc_pack (sc_run (ops_product ++ ops_reduce ++ ops_floor ++ ops_last) s)).

(** ecc/edwards25519/edwards25519.go:1324-1347: the 24 limbs of 64 bytes *)
Definition sc_load64 (a : arr64) : list Z :=
  let l := abytes a in
  [l3 l 0 0; l4 l 2 5; l3 l 5 2; l4 l 7 7; l4 l 10 4; l3 l 13 1; l4 l 15 6; l3 l 18 3; l3 l 21 0; l4 l 23 5; l3 l 26 2;
   l4 l 28 7; l4 l 31 4; l3 l 34 1; l4 l 36 6; l3 l 39 3; l3 l 42 0; l4 l 44 5; l3 l 47 2; l4 l 49 7; l4 l 52 4; l3 l 55 1;
   l4 l 57 6; shr (load4 (skipn 60 l)) 3].

(** ecc/edwards25519/edwards25519.go:1323-1639 ScReduce *)
Definition sc_reduce (s : arr64) : arr32 :=
  to_arr 32 (sc_pack (sc_run (ops_reduce ++ ops_floor ++ ops_last) (sc_load64 s))).
