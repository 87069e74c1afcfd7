(** Fingerprint.v: fingerprint/display.go. *)
From Verif Require Import Base Bytehelper Itoa.

(** fmt.Sprintf("%05d", n) for a non-negative n: left-padded with '0' to width 5. *)
Definition pad5 (n : N) : bytes :=
  let d := dec_n n in repeat x30 (5 - length d) ++ d.

(** fingerprint/display.go:43-46 encodedChunk *)
Definition encoded_chunk (hash : bytes) (offset : nat) : res bytes :=
  c <- bytes5_to_int64 hash offset ;; Ok (pad5 (Z.to_N (c mod 100000))).

(** fingerprint/display.go:33-40 displayStringFor *)
Definition display_string (f : bytes) : res bytes :=
  a <- encoded_chunk f 0 ;; b <- encoded_chunk f 5 ;; c <- encoded_chunk f 10 ;;
  d <- encoded_chunk f 15 ;; e <- encoded_chunk f 20 ;; g <- encoded_chunk f 25 ;;
  Ok (a ++ b ++ c ++ d ++ e ++ g).

(** Go's < on strings: lexicographic by bytes. *)
Fixpoint str_lt (a b : bytes) : bool :=
  match a, b with
  | _, [] => false
  | [], _ :: _ => true
  | x :: a', y :: b' => if (b2n x <? b2n y)%N then true
                        else if (b2n y <? b2n x)%N then false else str_lt a' b'
  end.

(** fingerprint/display.go:18-21, 10-15, 24-29 Display, NewDisplay, DisplayText *)
Record display : Type := { d_local : bytes; d_remote : bytes }.
Definition new_display (local remote : bytes) : res display :=
  l <- display_string local ;; r <- display_string remote ;; Ok {| d_local := l; d_remote := r |}.
Definition display_text (d : display) : bytes :=
  if str_lt (d_local d) (d_remote d) then d_local d ++ d_remote d else d_remote d ++ d_local d.
