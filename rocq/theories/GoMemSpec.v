(** GoMemSpec.v: vocabulary for what a call does to the caller's memory (C87). *)
From Verif Require Import Base Crypto Address SessionCipher World GoMem.
From Coq Require Import List.
Import ListNotations.

(** One byte of memory. *)
Definition byte_at (h : heap) (a i : nat) : option byte := nth_error (nth a h []) i.

(** A slice that Go can have: within its array. *)
Definition valid (h : heap) (s : slice) : Prop :=
  (sl_arr s < length h /\ sl_len s <= sl_cap s /\ sl_off s + sl_cap s <= length (nth (sl_arr s) h []))%nat.

(** The bytes of a slice. *)
Definition inside (s : slice) (a i : nat) : Prop := (a = sl_arr s /\ sl_off s <= i < sl_off s + sl_len s)%nat.

(** To fill the last block of 16, 1 to 16 bytes. *)
Definition padding (n : nat) : nat := (16 - n mod 16)%nat.
(** The bytes after the slice, when its capacity has room for the padding. *)
Definition after (s : slice) (a i : nat) : Prop :=
  (a = sl_arr s /\ sl_len s + padding (sl_len s) <= sl_cap s /\ sl_off s + sl_len s <= i < sl_off s + sl_len s + padding (sl_len s))%nat.

(** From [h] to [h'], of the memory that existed, only bytes in [P] may have changed; what was a slice still is one. *)
Definition only (P : nat -> nat -> Prop) (h h' : heap) : Prop :=
  (length h <= length h')%nat /\ (forall s, valid h s -> valid h' s) /\
  forall a i, (a < length h)%nat -> ~ P a i -> byte_at h' a i = byte_at h a i.
Definition nothing (a i : nat) : Prop := False.

(** The slice lies in memory that did not exist before, and is all of its array. *)
Definition new_in (h h' : heap) (s : slice) : Prop :=
  (length h <= sl_arr s /\ sl_off s = 0 /\ sl_cap s = sl_len s)%nat /\ valid h' s /\ length (nth (sl_arr s) h' []) = sl_len s.

(** The answer, with the slices read. *)
Definition answer_now (h : heap) (o : res slice) : res bytes :=
  match o with Ok s => Ok (read h s) | Err e => Err e | Panic => Panic end.

(** Two slices that share no byte. *)
Definition disjoint (s t : slice) : Prop := forall a i, inside s a i -> ~ inside t a i.
(** No later slice meets the bytes after an earlier one. *)
Inductive spaced : list slice -> Prop :=
| spaced_nil : spaced []
| spaced_cons : forall s l, (forall t a i, In t l -> inside t a i -> ~ after s a i) -> spaced l -> spaced (s :: l).

(** Encrypt calls on plain values, one after the other. *)
Fixpoint encrypts (C : crypto) (a : address) (l : list bytes) (w : world) : list (res ct_msg) * world :=
  match l with
  | [] => ([], w)
  | pt :: l' => let '(o, w1) := w_encrypt C a pt w in let '(os, w2) := encrypts C a l' w1 in (o :: os, w2)
  end.
