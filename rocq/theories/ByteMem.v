(** ByteMem.v: util/bytehelper/byte.go and util/errorhelper/error.go as Go runs them: a byte slice is its elements and the memory behind them up to its
    capacity, lengths are 64-bit integers that wrap around, and a slice expression, a make or an index out of range panics. Bytehelper.v models the same
    functions on values, for the lengths the library itself passes; PropertiesBytes.v says when the two agree. *)
From Verif Require Import Base.
From Coq Require Import List ZArith.
Import ListNotations.
Local Open Scope Z_scope.

(** A Go []byte: its elements, and the bytes of the same array between its length and its capacity. A nil slice is [None]. *)
Record gslice : Type := { sl_bytes : bytes; sl_spare : bytes }.
Definition whole (s : gslice) : bytes := sl_bytes s ++ sl_spare s.
Definition glen (s : gslice) : Z := Z.of_nat (length (sl_bytes s)).
Definition gcap (s : gslice) : Z := Z.of_nat (length (whole s)).
(** A nil slice has length and capacity zero (Go specification, "Slice types"). *)
Definition of_nil (o : option gslice) : gslice := match o with Some s => s | None => {| sl_bytes := []; sl_spare := [] |} end.

(** Addition of Go ints (64 bits, two's complement). *)
Definition wrap64 (z : Z) : Z := (z + 2 ^ 63) mod 2 ^ 64 - 2 ^ 63.
(** runtime: the largest slice of bytes that [make] can be asked for on amd64 (2^48); a machine with less memory is not modelled. *)
Definition max_alloc : Z := 2 ^ 48.

(** s[:n] (n up to the capacity) and s[n:] (n up to the length). *)
Definition upto (s : gslice) (n : Z) : res gslice :=
  if (n <? 0) || (gcap s <? n) then Panic else Ok {| sl_bytes := firstn (Z.to_nat n) (whole s); sl_spare := skipn (Z.to_nat n) (whole s) |}.
Definition from (s : gslice) (n : Z) : res gslice :=
  if (n <? 0) || (glen s <? n) then Panic else Ok {| sl_bytes := skipn (Z.to_nat n) (sl_bytes s); sl_spare := sl_spare s |}.
(** p := make([]byte, n); copy(p, src), where [src] is evaluated after the make. *)
Definition filled (n : Z) (src : res gslice) : res gslice :=
  if (n <? 0) || (max_alloc <? n) then Panic else s <- src ;; Ok {| sl_bytes := take_pad (Z.to_nat n) (sl_bytes s); sl_spare := [] |}.

(** util/bytehelper/byte.go:34-44 Split *)
Definition g_split (input : option gslice) (n1 n2 : Z) : res (gslice * gslice) :=
  let s := of_nil input in
  p0 <- filled n1 (upto s n1) ;;
  p1 <- filled n2 (from s n1) ;;
  Ok (p0, p1).

(** util/bytehelper/byte.go:50-69 SplitThree *)
Definition g_split_three (input : option gslice) (n1 n2 n3 : Z) : res (gslice * gslice * gslice) :=
  match input with
  | None => Err EInputTooSmall
  | Some s =>
      if (n1 <? 0) || (n2 <? 0) || (n3 <? 0) || (glen s <? wrap64 (wrap64 (n1 + n2) + n3)) then Err EInputTooSmall
      else
        p0 <- filled n1 (upto s n1) ;;
        p1 <- filled n2 (t <- from s n1 ;; upto t n2) ;;
        p2 <- filled n3 (from s (wrap64 (n1 + n2))) ;;
        Ok (p0, p1, p2)
  end.

(** util/bytehelper/byte.go:72-77 Trim *)
Definition g_trim (input : option gslice) (n : Z) : res gslice := filled n (upto (of_nil input) n).

(** util/bytehelper/byte.go:80-89 Bytes5ToInt64: five indexed reads, the first four shifted. (b & 0xff is b.) *)
Definition g_index (s : gslice) (i : Z) : res Z :=
  if (i <? 0) || (glen s <=? i) then Panic else Ok (Z.of_N (b2n (nth (Z.to_nat i) (sl_bytes s) x00))).
Definition g_bytes5 (input : option gslice) (offset : Z) : res Z :=
  let s := of_nil input in
  b0 <- g_index s offset ;;
  b1 <- g_index s (wrap64 (offset + 1)) ;;
  b2 <- g_index s (wrap64 (offset + 2)) ;;
  b3 <- g_index s (wrap64 (offset + 3)) ;;
  b4 <- g_index s (wrap64 (offset + 4)) ;;
  Ok (Z.lor (Z.lor (Z.lor (Z.lor (Z.shiftl b0 32) (Z.shiftl b1 24)) (Z.shiftl b2 16)) (Z.shiftl b3 8)) b4).

(** util/bytehelper/byte.go:92-97 CopySlice *)
Definition g_copy (input : option gslice) : res gslice := let s := of_nil input in filled (glen s) (Ok s).

(** util/bytehelper/byte.go:8-12, 15-19 SliceToArray, SliceToArray64 *)
Definition g_to_array (n : nat) (input : option gslice) : arr n := to_arr n (sl_bytes (of_nil input)).

(** util/errorhelper/error.go:4-44: a MultiError is the list of its errors; an error is its text, nil is [None].
    NewMultiError (4-8), Add (17-21), HasErrors (25-31), Error (34-40). *)
Definition new_multi : list bytes := [].
Definition m_add (m : list bytes) (e : option bytes) : list bytes := match e with Some t => m ++ [t] | None => m end.
Definition m_has_errors (m : list bytes) : bool := (0 <? length m)%nat.
Definition m_error (m : list bytes) : bytes := if negb (m_has_errors m) then [] else nth 0 m [].
