(** JsonSpec.v: the JSON grammar of RFC 8259 and the base64 encoding of RFC 4648, stated without reference to the scanner
    and the encoder of Json.v (only its type [json] of parsed texts is used). *)
From Verif Require Import Base Json.
From Coq Require Import String.
Open Scope list_scope.
Local Open Scope N_scope.

(** * RFC 8259 *)
(** ws = *( %x20 / %x09 / %x0A / %x0D ) *)
Definition ws (s : bytes) : Prop := Forall (fun c => In c [x20; x09; x0a; x0d]) s.
Definition digit (c : byte) : Prop := 48 <= b2n c <= 57.
Definition hexdig (c : byte) : Prop := digit c \/ 65 <= b2n c <= 70 \/ 97 <= b2n c <= 102.

(** number = [ minus ] int [ frac ] [ exp ] *)
Inductive opt_minus : bytes -> Prop := Minus0 : opt_minus [] | Minus1 : opt_minus [x2d].
Inductive int_part : bytes -> Prop :=
| IntZero : int_part [x30]
| IntDigits d l : 49 <= b2n d <= 57 -> Forall digit l -> int_part (d :: l).
Inductive opt_frac : bytes -> Prop :=
| Frac0 : opt_frac []
| Frac1 l : l <> [] -> Forall digit l -> opt_frac (x2e :: l).
Inductive opt_sign : bytes -> Prop := Sign0 : opt_sign [] | SignPlus : opt_sign [x2b] | SignMinus : opt_sign [x2d].
Inductive opt_exp : bytes -> Prop :=
| Exp0 : opt_exp []
| Exp1 e g l : In e [x65; x45] -> opt_sign g -> l <> [] -> Forall digit l -> opt_exp (e :: g ++ l).
Definition number (s : bytes) : Prop := exists m i f e, opt_minus m /\ int_part i /\ opt_frac f /\ opt_exp e /\ s = m ++ i ++ f ++ e.

(** char = unescaped / escape (quote / backslash / slash / b / f / n / r / t / u 4HEXDIG).
    RFC 8259 gives the unescaped characters as Unicode code points; here they are the bytes of their encoding (any byte
    of 0x80 or more is allowed). *)
Inductive chars : bytes -> Prop :=
| CharsNil : chars []
| CharsPlain c s : 32 <= b2n c -> c <> x22 -> c <> x5c -> chars s -> chars (c :: s)
| CharsEsc e s : In e [x22; x5c; x2f; x62; x66; x6e; x72; x74] -> chars s -> chars (x5c :: e :: s)
| CharsHex a b c d s : hexdig a -> hexdig b -> hexdig c -> hexdig d -> chars s -> chars (x5c :: x75 :: a :: b :: c :: d :: s).

(** [value j s]: the bytes s are a value, namely j. *)
Inductive value : json -> bytes -> Prop :=
| VNull : value JNull (bs "null")
| VTrue : value (JBool true) (bs "true")
| VFalse : value (JBool false) (bs "false")
| VNum s : number s -> value (JNum s) s
| VStr s : chars s -> value (JStr s) (x22 :: s ++ [x22])
| VArr0 w : ws w -> value (JArr []) (x5b :: w ++ [x5d])
| VArr l s : elements l s -> value (JArr l) (x5b :: s ++ [x5d])
| VObj0 w : ws w -> value (JObj []) (x7b :: w ++ [x7d])
| VObj l s : members l s -> value (JObj l) (x7b :: s ++ [x7d])
with elements : list json -> bytes -> Prop :=
| El1 w1 v s w2 : ws w1 -> value v s -> ws w2 -> elements [v] (w1 ++ s ++ w2)
| ElCons w1 v s w2 l r : ws w1 -> value v s -> ws w2 -> elements l r -> elements (v :: l) (w1 ++ s ++ w2 ++ x2c :: r)
with members : list (bytes * json) -> bytes -> Prop :=
| Mem1 w1 k w2 w3 v s w4 : ws w1 -> chars k -> ws w2 -> ws w3 -> value v s -> ws w4 ->
    members [(k, v)] (w1 ++ x22 :: k ++ x22 :: w2 ++ x3a :: w3 ++ s ++ w4)
| MemCons w1 k w2 w3 v s w4 l r : ws w1 -> chars k -> ws w2 -> ws w3 -> value v s -> ws w4 -> members l r ->
    members ((k, v) :: l) (w1 ++ x22 :: k ++ x22 :: w2 ++ x3a :: w3 ++ s ++ w4 ++ x2c :: r).
(** JSON-text = ws value ws *)
Definition json_text (j : json) (s : bytes) : Prop := exists w1 t w2, ws w1 /\ value j t /\ ws w2 /\ s = w1 ++ t ++ w2.

(** * RFC 4648, section 4: read as numbers in base 256 and base 64 *)
Definition alphabet : bytes := bs "ABCDEFGHIJKLMNOPQRSTUVWXYZabcdefghijklmnopqrstuvwxyz0123456789+/".
Definition be256 (l : bytes) : N := fold_left (fun a b => a * 256 + b2n b) l 0.
Definition be64 (l : list N) : N := fold_left (fun a d => a * 64 + d) l 0.
(** [base64 l s]: the digits ds, looked up in the alphabet and padded with = to a multiple of four, are s; there are as
    many as are needed for the bits of l, and read as one number they are the bits of l followed by zeros. *)
Definition base64 (l s : bytes) : Prop := exists (ds : list N) (pad : nat),
  Forall (fun d => d < 64) ds /\ s = map (fun d => nth (N.to_nat d) alphabet x00) ds ++ repeat x3d pad /\
  (pad < 3)%nat /\ (3 * List.length s = 4 * (List.length l + pad))%nat /\ be64 ds * 64 ^ N.of_nat pad = be256 l * 256 ^ N.of_nat pad.
