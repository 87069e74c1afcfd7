(** Base.v: byte strings, fixed-size arrays, Go outcomes.

    Conventions used by every model file:
    - Go [byte] is [Byte.byte]; Go [[]byte] is [list byte] ([bytes]); where the code
      distinguishes a nil slice from an empty one the type is [option bytes].
    - Go [[n]byte] is [arr n], a list of exactly [n] bytes.
    - Go [uint32] is [N]; every arithmetic step that can leave the range is written with
      an explicit [mod 2^32] ([u32]).
    - Go [int] is [Z].
    - A Go call either returns a value, returns an error, or panics ([res]). *)
From Coq Require Export List NArith ZArith Lia Bool Arith.
From Coq Require Import Eqdep_dec.
From Coq Require Export Strings.Byte.
From Coq Require Import ZifyBool ZifyN ZifyNat.
Export ListNotations.
Open Scope list_scope.

Notation byte := Coq.Init.Byte.byte.
Definition bytes := list byte.

(** [b2n], [n2b]: Go's conversions byte -> int and int -> byte (the latter truncates). *)
Definition b2n (b : byte) : N := Byte.to_N b.
Definition n2b (n : N) : byte :=
  match Byte.of_N (n mod 256) with Some b => b | None => x00 end.

Lemma b2n_lt : forall b, (b2n b < 256)%N.
Proof. intros b. unfold b2n. pose proof (Byte.to_N_bounded b). lia. Qed.

Lemma n2b_b2n : forall b, n2b (b2n b) = b.
Proof.
  intros b. unfold n2b. rewrite N.mod_small by apply b2n_lt.
  unfold b2n. rewrite Byte.of_to_N. reflexivity.
Qed.

Lemma b2n_n2b : forall n, b2n (n2b n) = (n mod 256)%N.
Proof.
  intros n. unfold n2b.
  destruct (Byte.of_N (n mod 256)) as [b|] eqn:E.
  - unfold b2n. apply Byte.to_of_N in E. exact E.
  - exfalso. apply Byte.of_N_None_iff in E.
    pose proof (N.mod_lt n 256). lia.
Qed.

Lemma b2n_inj : forall a b, b2n a = b2n b -> a = b.
Proof. intros a b H. rewrite <- (n2b_b2n a), <- (n2b_b2n b), H. reflexivity. Qed.

Definition byte_eq_dec : forall a b : byte, {a = b} + {a <> b} := Byte.byte_eq_dec.

Definition bytes_eqb (a b : bytes) : bool :=
  if list_eq_dec byte_eq_dec a b then true else false.

Lemma bytes_eqb_eq : forall a b, bytes_eqb a b = true <-> a = b.
Proof. intros a b. unfold bytes_eqb. destruct (list_eq_dec byte_eq_dec a b); split; congruence. Qed.

Lemma bytes_eqb_refl : forall a, bytes_eqb a a = true.
Proof. intros a. apply bytes_eqb_eq. reflexivity. Qed.

Lemma bytes_eqb_neq : forall a b, bytes_eqb a b = false <-> a <> b.
Proof. intros a b. unfold bytes_eqb. destruct (list_eq_dec byte_eq_dec a b); split; congruence. Qed.

(** Go arrays [[n]byte]. *)
Record arr (n : nat) : Type := Arr { abytes : bytes; alen : (length abytes =? n)%nat = true }.
Arguments Arr {n} _ _.
Arguments abytes {n} _.
Arguments alen {n} _.

Notation arr32 := (arr 32).
Notation arr64 := (arr 64).

Lemma arr_eq : forall n (a b : arr n), abytes a = abytes b -> a = b.
Proof.
  intros n [a Ha] [b Hb]; simpl; intros E; subst b.
  f_equal. apply UIP_dec. apply bool_dec.
Qed.

Lemma arr_length : forall n (a : arr n), length (abytes a) = n.
Proof. intros n a. apply Nat.eqb_eq. apply alen. Qed.

Definition arr_eqb {n} (a b : arr n) : bool := bytes_eqb (abytes a) (abytes b).

Lemma arr_eqb_eq : forall n (a b : arr n), arr_eqb a b = true <-> a = b.
Proof.
  intros n a b. unfold arr_eqb. rewrite bytes_eqb_eq. split.
  - apply arr_eq.
  - congruence.
Qed.

Lemma arr_eqb_refl : forall n (a : arr n), arr_eqb a a = true.
Proof. intros n a. apply arr_eqb_eq. reflexivity. Qed.

Lemma arr_eqb_neq : forall n (a b : arr n), arr_eqb a b = false <-> a <> b.
Proof.
  intros n a b. rewrite <- arr_eqb_eq. destruct (arr_eqb a b); split; congruence.
Qed.

Definition arr_eq_dec {n} (a b : arr n) : {a = b} + {a <> b}.
Proof.
  destruct (arr_eqb a b) eqn:E.
  - left. apply arr_eqb_eq. exact E.
  - right. apply arr_eqb_neq. exact E.
Defined.

(** Go's [copy(dst[:], src)] into a fresh zeroed array: truncates or zero-extends.
    util/bytehelper/byte.go:8-12 (SliceToArray), 15-19 (SliceToArray64). *)
Definition take_pad (n : nat) (l : bytes) : bytes := firstn n (l ++ repeat x00 n).

Lemma take_pad_length : forall n l, length (take_pad n l) = n.
Proof.
  intros n l. unfold take_pad. rewrite firstn_length, app_length, repeat_length. lia.
Qed.

(** Makes the proof component compute to [eq_refl] on concrete data (proof engineering only). *)
Definition canon (b : bool) : b = true -> b = true :=
  match b return b = true -> b = true with true => fun _ => eq_refl | false => fun H => H end.

(** util/bytehelper/byte.go:8-19 SliceToArray, SliceToArray64: copy into a zeroed array. *)
Definition to_arr (n : nat) (l : bytes) : arr n :=
  Arr (take_pad n l) (canon _ (proj2 (Nat.eqb_eq _ _) (take_pad_length n l))).

Lemma to_arr_abytes : forall n (a : arr n), to_arr n (abytes a) = a.
Proof.
  intros n a. apply arr_eq. simpl. unfold take_pad.
  rewrite <- (arr_length n a) at 1.
  rewrite firstn_app, Nat.sub_diag, firstn_all. simpl. apply app_nil_r.
Qed.

Lemma to_arr_app : forall n (a : arr n) l, to_arr n (abytes a ++ l) = a.
Proof.
  intros n a l. apply arr_eq. simpl. unfold take_pad.
  pose proof (arr_length n a) as HL.
  rewrite <- app_assoc.
  rewrite <- HL at 1. rewrite firstn_app, Nat.sub_diag, firstn_all. simpl. apply app_nil_r.
Qed.

Lemma to_arr_exact : forall n l, length l = n -> abytes (to_arr n l) = l.
Proof.
  intros n l H. simpl. unfold take_pad. rewrite <- H at 1.
  rewrite firstn_app, Nat.sub_diag, firstn_all. simpl. apply app_nil_r.
Qed.

Definition zero_arr (n : nat) : arr n := to_arr n [].

(** Errors: one constructor per distinct error value the modelled code can return. *)
Inductive err : Type :=
  (* ecc/curve.go:29 *)                     | EBadKeyType
  (* crypto/rand failure, ecc/curve.go:63 *)| ERand
  (* aes.NewCipher: bad key size *)         | EAesKeySize
  (* cipher/cbc.go:37 *)                    | ECipherTooShort
  (* cipher/cbc.go:97 *)                    | EPadTooLong
  (* cipher/cipher.go:55,58,61 *)           | EInvalidBlockSize | EInvalidPkcs7Data | EInvalidPkcs7Padding
  (* util/bytehelper/byte.go:54 *)               | EInputTooSmall
  (* proto.Unmarshal errors *)              | EProto
  (* "Legacy message: " *)                  | ELegacy
  (* "Unknown version: " *)                 | EUnknownVersion
  (* "Incomplete message." *)               | EIncomplete
  (* protocol/signal_message.go:188 *)               | EBadMac
  (* session/cipher.go:142 *)               | ENoSession
  (* session/cipher.go:226 *)               | ENoValidSessions
  (* session/cipher.go:239 *)               | EUninitialized
  (* session/cipher.go:245 *)               | EWrongVersion
  (* session/cipher.go:291 *)               | EOldCounter
  (* session/cipher.go:296 *)               | ETooFarFuture
  (* session/session.go:20-23 *)            | EUntrusted | ENoSignedPreKey | EInvalidSignature | ENilOneTimePreKey
  (* groups/cipher.go:77 *)                 | ENoSenderKey
  (* groups/.../sender_key.go:85,97 *)      | ENoSenderKeys | ENoSenderKeyForId
  (* groups/cipher.go:89 *)                 | EVerification
  (* groups/cipher.go:125,129 *)            | EGroupOldCounter | EOver2000
  (* hkdf: entropy limit reached *)         | EHkdfLimit
  (* base64/json decoding *)                | EDecode
  (* provision/cipher.go:73 *)              | EProvisionMac.

Inductive res (A : Type) : Type :=
| Ok (a : A)
| Err (e : err)
| Panic.
Arguments Ok {A} _.
Arguments Err {A} _.
Arguments Panic {A}.

Definition bind {A B} (r : res A) (f : A -> res B) : res B :=
  match r with Ok a => f a | Err e => Err e | Panic => Panic end.
Notation "x <- e1 ;; e2" := (bind e1 (fun x => e2)) (at level 61, e1 at next level, right associativity).

(** uint32 truncation. *)
Definition u32_modulus : N := 4294967296.
Definition u32 (n : N) : N := (n mod u32_modulus)%N.
(** uint32 addition and subtraction. *)
Definition u32_add (a b : N) : N := u32 (a + b).
Definition u32_sub (a b : N) : N := u32 (a + u32_modulus - b mod u32_modulus).

Lemma u32_small : forall n, (n < u32_modulus)%N -> u32 n = n.
Proof. intros n H. unfold u32. apply N.mod_small. exact H. Qed.

Lemma u32_lt : forall n, (u32 n < u32_modulus)%N.
Proof. intros n. unfold u32. apply N.mod_lt. discriminate. Qed.

Lemma u32_sub_small : forall a b, (b <= a)%N -> (a < u32_modulus)%N -> u32_sub a b = (a - b)%N.
Proof.
  intros a b H1 H2. unfold u32_sub. rewrite (N.mod_small b) by lia.
  replace (a + u32_modulus - b)%N with ((a - b) + 1 * u32_modulus)%N by lia.
  unfold u32. rewrite N.mod_add by discriminate. apply N.mod_small. lia.
Qed.

Lemma u32_add_small : forall a b, (a + b < u32_modulus)%N -> u32_add a b = (a + b)%N.
Proof. intros a b H. unfold u32_add. apply u32_small. exact H. Qed.

(** ASCII string literals as byte strings. *)
From Coq Require Import String Ascii.
Definition str (s : string) : bytes := list_byte_of_string s.
