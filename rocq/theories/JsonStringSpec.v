(** JsonStringSpec.v: what a JSON string, a base64 text and a member name mean to the reader, stated without the functions
    of Json.v (only its string literals [bs] are used; C60). *)
From Coq Require Import String.
From Verif Require Import Base Json JsonSpec.
Open Scope list_scope.
Local Open Scope N_scope.

(** * UTF-8 (RFC 3629, section 3)

    [utf8 r u]: u is the encoding of the character number r, in the shortest form, surrogates excluded. *)
Inductive utf8 : N -> bytes -> Prop :=
| Utf8_1 r : r < 128 -> utf8 r [n2b r]
| Utf8_2 h l : 128 <= h * 64 + l < 2048 -> l < 64 -> utf8 (h * 64 + l) [n2b (192 + h); n2b (128 + l)]
| Utf8_3 h m l : 2048 <= (h * 64 + m) * 64 + l < 65536 -> m < 64 -> l < 64 -> ~ (55296 <= (h * 64 + m) * 64 + l <= 57343) ->
    utf8 ((h * 64 + m) * 64 + l) [n2b (224 + h); n2b (128 + m); n2b (128 + l)]
| Utf8_4 h m k l : 65536 <= ((h * 64 + m) * 64 + k) * 64 + l <= 1114111 -> m < 64 -> k < 64 -> l < 64 ->
    utf8 (((h * 64 + m) * 64 + k) * 64 + l) [n2b (240 + h); n2b (128 + m); n2b (128 + k); n2b (128 + l)].
(** A UTF-8 text. *)
Inductive utf8_text : bytes -> Prop :=
| Text_nil : utf8_text []
| Text_cons r u s : utf8 r u -> utf8_text s -> utf8_text (u ++ s).
(** U+FFFD, the replacement character. *)
Definition fffd : bytes := [xef; xbf; xbd].

(** * Strings

    [hex c v]: the character c is the hexadecimal digit v. *)
Definition hex (c : byte) (v : N) : Prop :=
  v < 16 /\ (c = nth (N.to_nat v) (bs "0123456789abcdef") x00 \/ c = nth (N.to_nat v) (bs "0123456789ABCDEF") x00).
(** [code h x]: the four hexadecimal digits h are the number x. *)
Inductive code : bytes -> N -> Prop :=
| Code a b c d x y z w : hex a x -> hex b y -> hex c z -> hex d w -> code [a; b; c; d] (x * 4096 + y * 256 + z * 16 + w).
Definition surrogate (x : N) : Prop := 55296 <= x <= 57343.
Definition high (x : N) : Prop := 55296 <= x <= 56319.
Definition low (x : N) : Prop := 56320 <= x <= 57343.
(** The two-character escapes. *)
Definition escapes : list (byte * byte) :=
  [(x22, x22); (x5c, x5c); (x2f, x2f); (x62, x08); (x66, x0c); (x6e, x0a); (x72, x0d); (x74, x09)].

(** [reads raw out]: the text raw between the quotes means out. Bytes that are not UTF-8 and unpaired surrogates become
    the replacement character. *)
Inductive reads : bytes -> bytes -> Prop :=
| Reads_nil : reads [] []
| Reads_char r u s o : utf8 r u -> r <> 92 -> reads s o -> reads (u ++ s) (u ++ o)
| Reads_bad c s o : c <> x5c -> (forall r u t, utf8 r u -> c :: s <> u ++ t) -> reads s o -> reads (c :: s) (fffd ++ o)
| Reads_esc e v s o : In (e, v) escapes -> reads s o -> reads (x5c :: e :: s) (v :: o)
| Reads_code h x u s o : code h x -> ~ surrogate x -> utf8 x u -> reads s o -> reads (x5c :: x75 :: h ++ s) (u ++ o)
| Reads_pair h x h' y u s o : code h x -> high x -> code h' y -> low y -> utf8 (65536 + (x - 55296) * 1024 + (y - 56320)) u ->
    reads s o -> reads (x5c :: x75 :: h ++ x5c :: x75 :: h' ++ s) (u ++ o)
| Reads_lone h x s o : code h x -> surrogate x -> (high x -> forall h' y t, code h' y -> low y -> s <> x5c :: x75 :: h' ++ t) ->
    reads s o -> reads (x5c :: x75 :: h ++ s) (fffd ++ o).

(** * Base64 as it is read

    Line breaks are skipped; otherwise as [base64] of JsonSpec.v, but the bits beyond the last byte may be anything. *)
Definition without_breaks (s : bytes) : bytes := filter (fun c => negb (existsb (Byte.eqb c) [x0a; x0d])) s.
Definition base64_read (l s : bytes) : Prop := exists (ds : list N) (pad : nat),
  Forall (fun d => d < 64) ds /\ without_breaks s = map (fun d => nth (N.to_nat d) alphabet x00) ds ++ repeat x3d pad /\
  (pad < 3)%nat /\ (3 * (List.length ds + pad) = 4 * (List.length l + pad))%nat /\
  be64 ds * 64 ^ N.of_nat pad / 256 ^ N.of_nat pad = be256 l.

(** * Member names

    [same_letter a k]: the character k (as UTF-8) is the ASCII character a up to case; U+017F is a small s, U+212A a
    capital K. *)
Inductive same_letter (a : byte) : bytes -> Prop :=
| Same_exact : same_letter a [a]
| Same_case b : (exists n, 65 <= n <= 90 /\ ((b2n a = n /\ b2n b = n + 32) \/ (b2n a = n + 32 /\ b2n b = n))) -> same_letter a [b]
| Same_s : In a [x53; x73] -> same_letter a [xc5; xbf]
| Same_k : In a [x4b; x6b] -> same_letter a [xe2; x84; xaa].
Inductive same_name : bytes -> bytes -> Prop :=
| Same_nil : same_name [] []
| Same_cons a k name key : same_letter a k -> same_name name key -> same_name (a :: name) (k ++ key).
(** Field i is the first whose name satisfies P. *)
Definition first_field (P : bytes -> Prop) (names : list bytes) (i : nat) : Prop :=
  (exists n, nth_error names i = Some n /\ P n) /\ forall j n, (j < i)%nat -> nth_error names j = Some n -> ~ P n.
(** The field a member name stands for: the one of that name, or else the first one of that name up to case. *)
Definition member_field (key : bytes) (names : list bytes) (i : nat) : Prop :=
  first_field (fun n => n = key) names i \/
  ((forall n, In n names -> n <> key) /\ first_field (fun n => same_name n key) names i).
