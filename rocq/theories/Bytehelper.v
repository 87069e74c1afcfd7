(** Bytehelper.v: util/bytehelper/byte.go. *)
From Verif Require Import Base.

(** util/bytehelper/byte.go:8-12 SliceToArray and 15-19 SliceToArray64 are [to_arr 32] and [to_arr 64] of Base.v;
    util/bytehelper/byte.go:22-29 ArrayToSlice(64) is [abytes]; util/bytehelper/byte.go:92-97 CopySlice is the identity on values. *)

(** util/bytehelper/byte.go:34-44 Split: panics when the slice expression input[:firstLength] is out of range;
    the second part has exactly secondLength bytes, truncated or zero-extended. *)
Definition split_two (input : bytes) (n1 n2 : nat) : res (bytes * bytes) :=
  if (length input <? n1)%nat then Panic
  else Ok (firstn n1 input, take_pad n2 (skipn n1 input)).

(** util/bytehelper/byte.go:50-69 SplitThree; lengths are Go ints and may be negative. *)
Definition split_three (input : option bytes) (n1 n2 n3 : Z) : res (bytes * bytes * bytes) :=
  match input with
  | None => Err EInputTooSmall
  | Some l =>
      if (n1 <? 0)%Z || (n2 <? 0)%Z || (n3 <? 0)%Z || (Z.of_nat (length l) <? n1 + n2 + n3)%Z
      then Err EInputTooSmall
      else
        let a := Z.to_nat n1 in let b := Z.to_nat n2 in let c := Z.to_nat n3 in
        Ok (firstn a l, firstn b (skipn a l), firstn c (skipn (a + b) l))
  end.

(** util/bytehelper/byte.go:72-77 Trim: panics if input is shorter than length (of a slice without spare capacity; ByteMem.v models the
    memory behind a slice, and lengths that overflow). *)
Definition trim (input : bytes) (n : nat) : res bytes :=
  if (length input <? n)%nat then Panic else Ok (firstn n input).

(** util/bytehelper/byte.go:80-89 Bytes5ToInt64: five bytes, big endian; an index out of range panics. *)
Definition bytes5_to_int64 (b : bytes) (offset : nat) : res Z :=
  match firstn 5 (skipn offset b) with
  | [b0; b1; b2; b3; b4] =>
      Ok (Z.of_N (N.lor (N.shiftl (b2n b0) 32)
           (N.lor (N.shiftl (b2n b1) 24)
           (N.lor (N.shiftl (b2n b2) 16)
           (N.lor (N.shiftl (b2n b3) 8) (b2n b4))))))
  | _ => Panic
  end.
