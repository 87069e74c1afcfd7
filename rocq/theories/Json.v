(** Json.v: the part of Go's encoding/base64 and encoding/json that serialize/json.go uses.

    Every serializer of serialize/json.go (lines 32-303) is [json.Marshal] of one structure and [json.Unmarshal] into one
    structure. The structures are built from uint32, int, int64, bool, []byte, pointers to structures and slices of
    those. They are described by values of type [ty] (the reflection data Marshal and Unmarshal work from).

    Modelled: the JSON scanner (all of RFC 8259 at the level of bytes, as Go accepts it: bytes of 0x80 and more are
    accepted in strings without a check), unquoting of strings (escapes, surrogates, replacement of bad UTF-8),
    member lookup (exact name first, then case folding), null, base64 (StdEncoding, line breaks ignored), []byte from
    an array of numbers, integer ranges, merging of repeated members into an existing pointer.
    Simplified: a repeated member that is a slice replaces the earlier one (Go reuses its elements); the nesting limit
    of 10000 of newer Go versions is not modelled; all errors are [EDecode]. *)
From Verif Require Import Base Itoa.
From Coq Require Import String Ascii.
Open Scope list_scope.
Local Open Scope N_scope.
Notation length := List.length.

(** The bytes of a Go string literal. *)
Definition bs (s : string) : bytes := list_byte_of_string s.

(** * encoding/base64, StdEncoding *)
(** The alphabet: A-Z a-z 0-9 + /. *)
Definition b64_char (n : N) : byte :=
  if n <? 26 then n2b (65 + n) else if n <? 52 then n2b (97 + (n - 26)) else if n <? 62 then n2b (48 + (n - 52)) else if n =? 62 then x2b else x2f.
Definition b64_index (c : byte) : option N :=
  let n := b2n c in
  if (65 <=? n) && (n <=? 90) then Some (n - 65) else if (97 <=? n) && (n <=? 122) then Some (n - 97 + 26)
  else if (48 <=? n) && (n <=? 57) then Some (n - 48 + 52) else if n =? 43 then Some 62 else if n =? 47 then Some 63 else None.
(** EncodeToString *)
Fixpoint b64_encode (l : bytes) : bytes :=
  match l with
  | [] => []
  | [a] => let v := b2n a * 65536 in [b64_char (v / 262144); b64_char (v / 4096 mod 64); x3d; x3d]
  | [a; b] => let v := b2n a * 65536 + b2n b * 256 in [b64_char (v / 262144); b64_char (v / 4096 mod 64); b64_char (v / 64 mod 64); x3d]
  | a :: b :: c :: r => let v := b2n a * 65536 + b2n b * 256 + b2n c in
      b64_char (v / 262144) :: b64_char (v / 4096 mod 64) :: b64_char (v / 64 mod 64) :: b64_char (v mod 64) :: b64_encode r
  end.
(** Decode, after the line breaks have been dropped. Not strict: unused low bits of the last character are ignored. *)
Fixpoint b64_quanta (s : bytes) : option bytes :=
  match s with
  | [] => Some []
  | a :: b :: c :: d :: r =>
      match b64_index a, b64_index b with
      | Some x, Some y =>
          match b64_index c with
          | None => if (b2n c =? 61) && (b2n d =? 61) && (match r with [] => true | _ => false end) then Some [n2b ((x * 64 + y) / 16)] else None
          | Some z =>
              match b64_index d with
              | None => if (b2n d =? 61) && (match r with [] => true | _ => false end) then Some [n2b (((x * 64 + y) * 64 + z) / 1024); n2b (((x * 64 + y) * 64 + z) / 4)] else None
              | Some w => let v := ((x * 64 + y) * 64 + z) * 64 + w in
                  match b64_quanta r with Some l => Some (n2b (v / 65536) :: n2b (v / 256) :: n2b v :: l) | None => None end
              end
          end
      | _, _ => None
      end
  | _ => None
  end.
Definition not_newline (c : byte) : bool := negb (b2n c =? 10) && negb (b2n c =? 13).
Definition b64_decode (s : bytes) : option bytes := b64_quanta (filter not_newline s).

(** * JSON texts *)
(** A parsed text. Numbers and strings keep their source bytes (strings without the quotes, escapes not yet replaced). *)
Inductive json : Type :=
| JNull
| JBool (b : bool)
| JNum (lit : bytes)
| JStr (raw : bytes)
| JArr (l : list json)
| JObj (l : list (bytes * json)).

(** scanner.go: space characters *)
Definition is_ws (c : byte) : bool := (b2n c =? 32) || (b2n c =? 9) || (b2n c =? 10) || (b2n c =? 13).
Fixpoint skip_ws (s : bytes) : bytes := match s with c :: r => if is_ws c then skip_ws r else s | [] => [] end.
Definition is_hex (c : byte) : bool :=
  let n := b2n c in is_digit c || ((97 <=? n) && (n <=? 102)) || ((65 <=? n) && (n <=? 70)).
(** the characters allowed after a backslash, apart from u: b f n r t backslash slash quote *)
Definition is_escape (c : byte) : bool := existsb (fun d => b2n c =? b2n d) (bs "bfnrt\/""").
(** the rest of a string after its opening quote *)
Fixpoint scan_str (s : bytes) : option (bytes * bytes) :=
  match s with
  | [] => None
  | c :: r =>
      if b2n c =? 34 then Some ([], r)
      else if b2n c =? 92 then
        match r with
        | e :: r2 =>
            if is_escape e then match scan_str r2 with Some (t, q) => Some (c :: e :: t, q) | None => None end
            else if b2n e =? 117 then
              match r2 with
              | h1 :: h2 :: h3 :: h4 :: r3 =>
                  if is_hex h1 && is_hex h2 && is_hex h3 && is_hex h4
                  then match scan_str r3 with Some (t, q) => Some (c :: e :: h1 :: h2 :: h3 :: h4 :: t, q) | None => None end
                  else None
              | _ => None
              end
            else None
        | [] => None
        end
      else if b2n c <? 32 then None
      else match scan_str r with Some (t, q) => Some (c :: t, q) | None => None end
  end.
(** the longest run of digits *)
Fixpoint scan_digits (s : bytes) : bytes * bytes :=
  match s with c :: r => if is_digit c then let (d, q) := scan_digits r in (c :: d, q) else ([], s) | [] => ([], []) end.
(** at least one digit *)
Definition scan_digits1 (s : bytes) : option (bytes * bytes) := match scan_digits s with ([], _) => None | p => Some p end.
(** 0, or digits not beginning with 0 *)
Definition scan_int (s : bytes) : option (bytes * bytes) :=
  match s with
  | c :: r => if b2n c =? 48 then Some ([c], r) else if is_digit c then Some (scan_digits s) else None
  | [] => None
  end.
Definition scan_frac (s : bytes) : option (bytes * bytes) :=
  match s with
  | c :: r => if b2n c =? 46 then match scan_digits1 r with Some (d, q) => Some (c :: d, q) | None => None end else Some ([], s)
  | [] => Some ([], [])
  end.
Definition is_sign (c : byte) : bool := (b2n c =? 43) || (b2n c =? 45).
Definition is_exp (c : byte) : bool := (b2n c =? 101) || (b2n c =? 69).
Definition scan_exp (s : bytes) : option (bytes * bytes) :=
  match s with
  | c :: r =>
      if is_exp c then
        match r with
        | g :: r2 => if is_sign g then match scan_digits1 r2 with Some (d, q) => Some (c :: g :: d, q) | None => None end
                     else match scan_digits1 r with Some (d, q) => Some (c :: d, q) | None => None end
        | [] => None
        end
      else Some ([], s)
  | [] => Some ([], [])
  end.
Definition scan_num (s : bytes) : option (bytes * bytes) :=
  let (m, s1) := match s with c :: r => if b2n c =? 45 then ([c], r) else ([], s) | [] => ([], []) end in
  match scan_int s1 with
  | None => None
  | Some (i, s2) =>
      match scan_frac s2 with
      | None => None
      | Some (f, s3) =>
          match scan_exp s3 with
          | None => None
          | Some (e, s4) => Some (m ++ i ++ f ++ e, s4)
          end
      end
  end.
(** [s] without the prefix [p] *)
Fixpoint strip (p s : bytes) : option bytes :=
  match p, s with
  | [], _ => Some s
  | a :: p, b :: s => if b2n a =? b2n b then strip p s else None
  | _ :: _, [] => None
  end.

(** One value, the elements of an array up to its bracket, the members of an object up to its brace. The first
    argument bounds the number of calls; 2 length + 1 is enough (JsonProofs). *)
Fixpoint scan_value (n : nat) (s : bytes) : option (json * bytes) :=
  match n with
  | O => None
  | S n =>
      match s with
      | [] => None
      | c :: r =>
          if b2n c =? 123 then
            match skip_ws r with
            | d :: q => if b2n d =? 125 then Some (JObj [], q) else match scan_members n (d :: q) with Some (l, q) => Some (JObj l, q) | None => None end
            | [] => None
            end
          else if b2n c =? 91 then
            match skip_ws r with
            | d :: q => if b2n d =? 93 then Some (JArr [], q) else match scan_elements n (d :: q) with Some (l, q) => Some (JArr l, q) | None => None end
            | [] => None
            end
          else if b2n c =? 34 then match scan_str r with Some (t, q) => Some (JStr t, q) | None => None end
          else if b2n c =? 110 then match strip (bs "ull") r with Some q => Some (JNull, q) | None => None end
          else if b2n c =? 116 then match strip (bs "rue") r with Some q => Some (JBool true, q) | None => None end
          else if b2n c =? 102 then match strip (bs "alse") r with Some q => Some (JBool false, q) | None => None end
          else match scan_num s with Some (t, q) => Some (JNum t, q) | None => None end
      end
  end
with scan_elements (n : nat) (s : bytes) : option (list json * bytes) :=
  match n with
  | O => None
  | S n =>
      match scan_value n (skip_ws s) with
      | None => None
      | Some (v, q) =>
          match skip_ws q with
          | c :: r => if b2n c =? 44 then match scan_elements n r with Some (l, q) => Some (v :: l, q) | None => None end
                      else if b2n c =? 93 then Some ([v], r) else None
          | [] => None
          end
      end
  end
with scan_members (n : nat) (s : bytes) : option (list (bytes * json) * bytes) :=
  match n with
  | O => None
  | S n =>
      match skip_ws s with
      | c :: r =>
          if b2n c =? 34 then
            match scan_str r with
            | None => None
            | Some (k, q) =>
                match skip_ws q with
                | d :: r =>
                    if b2n d =? 58 then
                      match scan_value n (skip_ws r) with
                      | None => None
                      | Some (v, q) =>
                          match skip_ws q with
                          | e :: r => if b2n e =? 44 then match scan_members n r with Some (l, q) => Some ((k, v) :: l, q) | None => None end
                                      else if b2n e =? 125 then Some ([(k, v)], r) else None
                          | [] => None
                          end
                      end
                    else None
                | [] => None
                end
            end
          else None
      | [] => None
      end
  end.
(** A whole text: one value, nothing but space around it (checkValid). *)
Definition json_parse (s : bytes) : option json :=
  match scan_value (2 * length s + 1) (skip_ws s) with
  | Some (v, q) => match skip_ws q with [] => Some v | _ => None end
  | None => None
  end.

(** * Strings: decode.go unquote *)
Definition hex_val (c : byte) : N :=
  let n := b2n c in if is_digit c then n - 48 else if 97 <=? n then n - 87 else n - 55.
Definition hex4 (a b c d : byte) : N := ((hex_val a * 16 + hex_val b) * 16 + hex_val c) * 16 + hex_val d.
(** utf8.EncodeRune *)
Definition utf8_encode (r : N) : bytes :=
  if r <? 128 then [n2b r]
  else if r <? 2048 then [n2b (192 + r / 64); n2b (128 + r mod 64)]
  else if r <? 65536 then [n2b (224 + r / 4096); n2b (128 + r / 64 mod 64); n2b (128 + r mod 64)]
  else [n2b (240 + r / 262144); n2b (128 + r / 4096 mod 64); n2b (128 + r / 64 mod 64); n2b (128 + r mod 64)].
Definition replacement : bytes := [xef; xbf; xbd].
Definition in_range (lo hi n : N) : bool := (lo <=? n) && (n <=? hi).
Definition cont (c : byte) : bool := in_range 128 191 (b2n c).
(** The number of bytes of a well-formed UTF-8 sequence at the head (0 if there is none); utf8.DecodeRune's table. *)
Definition utf8_len (s : bytes) : nat :=
  match s with
  | a :: r =>
      let n := b2n a in
      if n <? 128 then 1%nat
      else match r with
           | b :: r2 =>
               let m := b2n b in
               if in_range 194 223 n && cont b then 2%nat
               else match r2 with
                    | c :: r3 =>
                        if ((n =? 224) && in_range 160 191 m || in_range 225 236 n && cont b || (n =? 237) && in_range 128 159 m || in_range 238 239 n && cont b) && cont c then 3%nat
                        else match r3 with
                             | d :: _ => if ((n =? 240) && in_range 144 191 m || in_range 241 243 n && cont b || (n =? 244) && in_range 128 143 m) && cont c && cont d then 4%nat else 0%nat
                             | [] => 0%nat
                             end
                    | [] => 0%nat
                    end
           | [] => 0%nat
           end
  | [] => 0%nat
  end.
Definition escape_val (c : byte) : byte :=
  if b2n c =? 98 then x08 else if b2n c =? 102 then x0c else if b2n c =? 110 then x0a else if b2n c =? 114 then x0d else if b2n c =? 116 then x09 else c.
(** [skip] counts bytes already written as part of a multi-byte sequence or a surrogate pair. *)
Fixpoint unquote_from (skip : nat) (s : bytes) : bytes :=
  match s with
  | [] => []
  | c :: r =>
      match skip with
      | S k => unquote_from k r
      | O =>
          if b2n c =? 92 then
            match r with
            | e :: h1 :: h2 :: h3 :: h4 :: r3 =>
                if b2n e =? 117 then
                  let x := hex4 h1 h2 h3 h4 in
                  if in_range 55296 57343 x then
                    match r3 with
                    | c2 :: e2 :: g1 :: g2 :: g3 :: g4 :: _ =>
                        let y := hex4 g1 g2 g3 g4 in
                        if (b2n c2 =? 92) && (b2n e2 =? 117) && (x <? 56320) && in_range 56320 57343 y
                        then utf8_encode ((x - 55296) * 1024 + (y - 56320) + 65536) ++ unquote_from 11 r
                        else replacement ++ unquote_from 5 r
                    | _ => replacement ++ unquote_from 5 r
                    end
                  else utf8_encode x ++ unquote_from 5 r
                else escape_val e :: unquote_from 1 r
            | e :: _ => escape_val e :: unquote_from 1 r
            | [] => []
            end
          else match utf8_len s with
               | O => replacement ++ unquote_from 0 r
               | S k => firstn (S k) s ++ unquote_from k r
               end
      end
  end.
Definition unquote (raw : bytes) : bytes := unquote_from 0 raw.

(** * Structures *)
(** The types of the fields; a structure is always behind a pointer, except the outermost. *)
Inductive ty : Type :=
| TU32 | TInt | TBool | TBytes
| TPtr (fields : list (bytes * ty))
| TSlice (t : ty).
(** Go values of these types; None is nil. [VInt] is int or int64 (64 bits both). *)
Inductive gval : Type :=
| VU32 (n : N)
| VInt (z : Z)
| VBool (b : bool)
| VBytes (b : option bytes)
| VPtr (fs : option (list gval))
| VSlice (l : option (list gval)).
Definition zero_of (t : ty) : gval :=
  match t with TU32 => VU32 0 | TInt => VInt 0 | TBool => VBool false | TBytes => VBytes None | TPtr _ => VPtr None | TSlice _ => VSlice None end.
Definition fields := list (bytes * ty).
Definition zeros (fs : fields) : list gval := map (fun f => zero_of (snd f)) fs.

(** ** Marshal *)
Fixpoint enc (v : gval) (t : ty) : json :=
  match v, t with
  | VU32 n, _ => JNum (dec_n n)
  | VInt z, _ => JNum (itoa z)
  | VBool b, _ => JBool b
  | VBytes None, _ => JNull
  | VBytes (Some b), _ => JStr (b64_encode b)
  | VPtr (Some vs), TPtr fs =>
      JObj ((fix go (vs : list gval) (fs : fields) : list (bytes * json) :=
               match vs, fs with v :: vs, (k, t) :: fs => (k, enc v t) :: go vs fs | _, _ => [] end) vs fs)
  | VSlice (Some l), TSlice t => JArr (map (fun v => enc v t) l)
  | _, _ => JNull
  end.
Fixpoint join (l : list bytes) : bytes := match l with [] => [] | [a] => a | a :: r => a ++ x2c :: join r end.
Fixpoint print (j : json) : bytes :=
  match j with
  | JNull => bs "null"
  | JBool true => bs "true"
  | JBool false => bs "false"
  | JNum l => l
  | JStr r => x22 :: r ++ [x22]
  | JArr l => x5b :: join (map print l) ++ [x5d]
  | JObj l => x7b :: join (map (fun m : bytes * json => let (k, v) := m in x22 :: k ++ x22 :: x3a :: print v) l) ++ [x7d]
  end.
Definition marshal (fs : fields) (vs : list gval) : bytes := print (enc (VPtr (Some vs)) (TPtr fs)).

(** ** Unmarshal *)
(** strconv.ParseUint base 10 on a JSON number; the caller checks the range. *)
Fixpoint digits_val (acc : N) (s : bytes) : option N :=
  match s with [] => Some acc | c :: r => if is_digit c then digits_val (acc * 10 + (b2n c - 48)) r else None end.
Definition parse_uint (s : bytes) : option N := match s with [] => None | _ => digits_val 0 s end.
(** strconv.ParseInt *)
Definition parse_int (s : bytes) : option Z :=
  match s with
  | c :: r => if b2n c =? 45 then match parse_uint r with Some n => Some (- Z.of_N n)%Z | None => None end
              else match parse_uint s with Some n => Some (Z.of_N n) | None => None end
  | [] => None
  end.
Definition int64_ok (z : Z) : bool := ((- 9223372036854775808 <=? z) && (z <=? 9223372036854775807))%Z.
(** foldFunc: ASCII letters in either case, U+017F for s, U+212A for k *)
Definition lower (c : byte) : N := let n := b2n c in if (65 <=? n) && (n <=? 90) then n + 32 else n.
Fixpoint fold_eq (name key : bytes) : bool :=
  match name with
  | [] => match key with [] => true | _ => false end
  | a :: name =>
      match key with
      | [] => false
      | b :: r =>
          if lower a =? lower b then fold_eq name r
          else match r with
               | c :: r2 =>
                   if (lower a =? 115) && (b2n b =? 197) && (b2n c =? 191) then fold_eq name r2
                   else match r2 with
                        | d :: r3 => if (lower a =? 107) && (b2n b =? 226) && (b2n c =? 132) && (b2n d =? 170) then fold_eq name r3 else false
                        | [] => false
                        end
               | [] => false
               end
      end
  end.
(** Position of the first field satisfying a test. *)
Fixpoint find_by (p : bytes -> bool) (fs : fields) : option (nat * ty) :=
  match fs with
  | [] => None
  | (k, t) :: fs => if p k then Some (O, t) else match find_by p fs with Some (i, t) => Some (S i, t) | None => None end
  end.
(** decode.go object: the field for a member name *)
Definition find_field (key : bytes) (fs : fields) : option (nat * ty) :=
  match find_by (fun k => bytes_eqb k key) fs with Some f => Some f | None => find_by (fun k => fold_eq k key) fs end.
Fixpoint set_nth (i : nat) (v : gval) (l : list gval) : list gval :=
  match l, i with [], _ => [] | _ :: r, O => v :: r | a :: r, S i => a :: set_nth i v r end.
(** an element of a []byte given as an array: uint8 or null *)
Definition dec_u8 (j : json) : res byte :=
  match j with
  | JNull => Ok x00
  | JNum l => match parse_uint l with Some n => if n <? 256 then Ok (n2b n) else Err EDecode | None => Err EDecode end
  | _ => Err EDecode
  end.
Fixpoint dec_u8s (l : list json) : res bytes :=
  match l with [] => Ok [] | j :: l => b <- dec_u8 j ;; r <- dec_u8s l ;; Ok (b :: r) end.
(** decode.go value, array, object, literalStore; [old] is the value being overwritten. *)
Fixpoint dec (j : json) (t : ty) (old : gval) : res gval :=
  match t with
  | TU32 => match j with
            | JNull => Ok old
            | JNum l => match parse_uint l with Some n => if n <? 4294967296 then Ok (VU32 n) else Err EDecode | None => Err EDecode end
            | _ => Err EDecode
            end
  | TInt => match j with
            | JNull => Ok old
            | JNum l => match parse_int l with Some z => if int64_ok z then Ok (VInt z) else Err EDecode | None => Err EDecode end
            | _ => Err EDecode
            end
  | TBool => match j with JNull => Ok old | JBool b => Ok (VBool b) | _ => Err EDecode end
  | TBytes => match j with
              | JNull => Ok (VBytes None)
              | JStr raw => match b64_decode (unquote raw) with Some b => Ok (VBytes (Some b)) | None => Err EDecode end
              | JArr l => b <- dec_u8s l ;; Ok (VBytes (Some b))
              | _ => Err EDecode
              end
  | TPtr fs =>
      match j with
      | JNull => Ok (VPtr None)
      | JObj ms =>
          vs <- (fix go (ms : list (bytes * json)) (acc : list gval) : res (list gval) :=
                   match ms with
                   | [] => Ok acc
                   | (k, m) :: ms =>
                       match find_field (unquote k) fs with
                       | None => go ms acc
                       | Some (i, t) => v <- dec m t (nth i acc (zero_of t)) ;; go ms (set_nth i v acc)
                       end
                   end) ms (match old with VPtr (Some vs) => vs | _ => zeros fs end) ;;
          Ok (VPtr (Some vs))
      | _ => Err EDecode
      end
  | TSlice t =>
      match j with
      | JNull => Ok (VSlice None)
      | JArr l =>
          vs <- (fix go (l : list json) : res (list gval) :=
                   match l with [] => Ok [] | e :: l => v <- dec e t (zero_of t) ;; vs <- go l ;; Ok (v :: vs) end) l ;;
          Ok (VSlice (Some vs))
      | _ => Err EDecode
      end
  end.
(** json.Unmarshal into a zero structure; null leaves it as it is. *)
Definition unmarshal (fs : fields) (s : bytes) : res (list gval) :=
  match json_parse s with
  | None => Err EDecode
  | Some JNull => Ok (zeros fs)
  | Some j => match dec j (TPtr fs) (VPtr None) with Ok (VPtr (Some vs)) => Ok vs | Ok _ => Err EDecode | Err e => Err e | Panic => Panic end
  end.
