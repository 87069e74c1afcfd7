(** Edwards.v: ecc/edwards25519/edwards25519.go:620-880, group elements in several coordinate systems and GeScalarMultBase.
    FeCopy is the identity here; out-parameters are results. *)
From Verif Require Import Base Field25519 EdBase.
From Coq Require Import ZArith List.
Import ListNotations.
Local Open Scope Z_scope.

(** ecc/edwards25519/edwards25519.go:630-632 ProjectiveGroupElement, 634-636 ExtendedGroupElement, 638-640 CompletedGroupElement *)
Record proj : Type := mk_proj { prj_x : fe; prj_y : fe; prj_z : fe }.
Record ext : Type := mk_ext { ext_x : fe; ext_y : fe; ext_z : fe; ext_t : fe }.
Record comp : Type := mk_comp { cmp_x : fe; cmp_y : fe; cmp_z : fe; cmp_t : fe }.
(** ecc/edwards25519/edwards25519.go:646-648 CachedGroupElement *)
Record cached : Type := mk_cached { cch_ypx : fe; cch_ymx : fe; cch_z : fe; cch_t2d : fe }.

(** ecc/edwards25519/edwards25519.go:650-654, 680-685, 775-779: the neutral element *)
Definition proj_zero : proj := mk_proj fe_zero fe_one fe_one.
Definition ext_zero : ext := mk_ext fe_zero fe_one fe_one fe_zero.
Definition pc_zero : precomp := mk_pc fe_one fe_one fe_zero.

(** ecc/edwards25519/edwards25519.go:656-668 ProjectiveGroupElement.Double *)
Definition proj_double (p : proj) : comp :=
  let xx := fe_square (prj_x p) in
  let yy := fe_square (prj_y p) in
  let b := fe_square2 (prj_z p) in
  let a := fe_add (prj_x p) (prj_y p) in
  let aa := fe_square a in
  let ry := fe_add yy xx in
  let rz := fe_sub yy xx in
  mk_comp (fe_sub aa ry) ry rz (fe_sub b rz).

(** ecc/edwards25519/edwards25519.go:693-698 ToCached *)
Definition ext_to_cached (p : ext) : cached :=
  mk_cached (fe_add (ext_y p) (ext_x p)) (fe_sub (ext_y p) (ext_x p)) (ext_z p) (fe_mul (ext_t p) ed_d2).
(** ecc/edwards25519/edwards25519.go:700-704 ToProjective *)
Definition ext_to_proj (p : ext) : proj := mk_proj (ext_x p) (ext_y p) (ext_z p).
(** ecc/edwards25519/edwards25519.go:687-691 ExtendedGroupElement.Double *)
Definition ext_double (p : ext) : comp := proj_double (ext_to_proj p).

(** ecc/edwards25519/edwards25519.go:670-678 and 706-714 ToBytes: s[31] ^= FeIsNegative(&x) << 7 *)
Definition xor_top (n : Z) (b : byte) : byte := zbyte (Z.lxor (zb b) ((n * 128) mod 256)).
Definition affine_to_bytes (x y z : fe) : arr32 :=
  let recip := fe_invert z in
  let x' := fe_mul x recip in
  let y' := fe_mul y recip in
  to_arr 32 (on_last (xor_top (fe_is_negative x')) (abytes (fe_to_bytes y'))).
Definition proj_to_bytes (p : proj) : arr32 := affine_to_bytes (prj_x p) (prj_y p) (prj_z p).
Definition ext_to_bytes (p : ext) : arr32 := affine_to_bytes (ext_x p) (ext_y p) (ext_z p).

(** FeToBytes (130-217) and so FeIsNegative (219-223) leave their argument reduced: [fe_to_bytes_limbs]. *)
Definition fe_freeze (h : fe) : fe := fe_to_bytes_limbs h.
(** ecc/edwards25519/edwards25519.go:753-755: if FeIsNegative(&p.X) != (s[31] >> 7) { FeNeg(&p.X, &p.X) } *)
Definition fix_sign (x : fe) (top : byte) : fe :=
  if (fe_is_negative x =? zb top / 128) then fe_freeze x else fe_neg (fe_freeze x).
(** ecc/edwards25519/edwards25519.go:716-760 FromBytes; [None] is a false result. The tmp2 loop (749-751) has no effect, but FeToBytes
    before it reduces X. *)
Definition ext_from_bytes (s : arr32) : option ext :=
  let y := fe_from_bytes s in
  let z := fe_one in
  let y2 := fe_square y in
  let v := fe_add (fe_mul y2 ed_d) z in
  let u := fe_sub y2 z in
  let v3 := fe_mul (fe_square v) v in
  let x := fe_mul (fe_mul (fe_square v3) v) u in
  let x := fe_mul (fe_mul (fe_pow22523 x) v3) u in
  let vxx := fe_mul (fe_square x) v in
  let finish x := let x := fix_sign x (last (abytes s) x00) in Some (mk_ext x y z (fe_mul x y)) in
  if (fe_is_non_zero (fe_sub vxx u) =? 1) then
    if (fe_is_non_zero (fe_add vxx u) =? 1) then None
    else finish (fe_freeze (fe_mul x ed_sqrt_m1))
  else finish x.

(** ecc/edwards25519/edwards25519.go:762-766 CompletedGroupElement.ToProjective, 768-773 ToExtended *)
Definition comp_to_proj (p : comp) : proj :=
  mk_proj (fe_mul (cmp_x p) (cmp_t p)) (fe_mul (cmp_y p) (cmp_z p)) (fe_mul (cmp_z p) (cmp_t p)).
Definition comp_to_ext (p : comp) : ext :=
  mk_ext (fe_mul (cmp_x p) (cmp_t p)) (fe_mul (cmp_y p) (cmp_z p)) (fe_mul (cmp_z p) (cmp_t p)) (fe_mul (cmp_x p) (cmp_y p)).

(** ecc/edwards25519/edwards25519.go:781-794 geMixedAdd *)
Definition mixed_add (p : ext) (q : precomp) : comp :=
  let a := fe_mul (fe_add (ext_y p) (ext_x p)) (pc_ypx q) in
  let b := fe_mul (fe_sub (ext_y p) (ext_x p)) (pc_ymx q) in
  let c := fe_mul (pc_xy2d q) (ext_t p) in
  let t0 := fe_add (ext_z p) (ext_z p) in
  mk_comp (fe_sub a b) (fe_add a b) (fe_add t0 c) (fe_sub t0 c).

(** ecc/edwards25519/edwards25519.go:798-802 equal: uint32(b ^ c) - 1, shifted right by 31 *)
Definition go_equal (b c : Z) : Z := (((Z.lxor b c) mod 2 ^ 32 - 1) mod 2 ^ 32) / 2 ^ 31.
(** ecc/edwards25519/edwards25519.go:805-807 negative *)
Definition go_negative (b : Z) : Z := Z.land (shr b 31) 1.

(** ecc/edwards25519/edwards25519.go:809-813 PreComputedGroupElementCMove *)
Definition pc_cmove (t u : precomp) (b : Z) : precomp :=
  mk_pc (fe_cmove (pc_ypx t) (pc_ypx u) b) (fe_cmove (pc_ymx t) (pc_ymx u) b) (fe_cmove (pc_xy2d t) (pc_xy2d u) b).

(** ecc/edwards25519/edwards25519.go:819-823: the loop over base[pos], i from 0 *)
Fixpoint select_loop (t : precomp) (row : list precomp) (i babs : Z) : precomp :=
  match row with
  | [] => t
  | u :: rest => select_loop (pc_cmove t u (go_equal babs (i + 1))) rest (i + 1) babs
  end.
(** ecc/edwards25519/edwards25519.go:815-828 selectPoint; [row] is base[pos]. bAbs = b - (((-bNegative) & b) << 1). *)
Definition select_point (row : list precomp) (b : Z) : precomp :=
  let bneg := go_negative b in
  let babs := sub32 b (shl32 (Z.land (i32 (- bneg)) b) 1) in
  let t := select_loop pc_zero row 0 babs in
  pc_cmove t (mk_pc (pc_ymx t) (pc_ypx t) (fe_neg (pc_xy2d t))) bneg.

(** int8 arithmetic *)
Definition i8 (z : Z) : Z := (z + 128) mod 256 - 128.

(** ecc/edwards25519/edwards25519.go:839-842: the 64 nibbles of a *)
Fixpoint nibbles (l : bytes) : list Z :=
  match l with
  | [] => []
  | v :: r => zb v mod 16 :: (zb v / 16) mod 16 :: nibbles r
  end.
(** ecc/edwards25519/edwards25519.go:846-852: the carry loop over all digits but the last, and the last one *)
Fixpoint recode (carry : Z) (l : list Z) : list Z :=
  match l with
  | [] => []
  | [e] => [i8 (e + carry)]
  | e :: r => let e1 := i8 (e + carry) in
              let c := shr (i8 (e1 + 8)) 4 in
              i8 (e1 - i8 (c * 16)) :: recode c r
  end.

(** One iteration of the two addition loops, 858-862 and 875-879. *)
Definition add_step (h : ext) (row : list precomp) (e : Z) : ext := comp_to_ext (mixed_add h (select_point row e)).
(** digits at odd (even) positions i, used with base[i/2] *)
Fixpoint odds (l : list Z) : list Z := match l with _ :: b :: r => b :: odds r | _ => [] end.
Fixpoint evens (l : list Z) : list Z := match l with a :: _ :: r => a :: evens r | _ => [] end.
Fixpoint add_rows (h : ext) (rows : list (list precomp)) (es : list Z) : ext :=
  match rows, es with
  | row :: rows', e :: es' => add_rows (add_step h row e) rows' es'
  | _, _ => h
  end.

(** ecc/edwards25519/edwards25519.go:836-880 GeScalarMultBase *)
Definition scalar_mult_base (a : arr32) : ext :=
  let e := recode 0 (nibbles (abytes a)) in
  let h := add_rows ext_zero base_table (odds e) in
  let r := ext_double h in
  let r := proj_double (comp_to_proj r) in
  let r := proj_double (comp_to_proj r) in
  let r := proj_double (comp_to_proj r) in
  add_rows (comp_to_ext r) base_table (evens e).
