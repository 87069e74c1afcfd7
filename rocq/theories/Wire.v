(** Wire.v: the protobuf wire format as used by serialize/proto.go and
    serialize/protocol_whisper_text.pb.go with golang/protobuf v1.3.1 (proto2, optional fields).

    A message is handled as the list of its (known) fields in wire order. *)
From Verif Require Import Base.

(** Varint encoding of a uint64 (at most 10 bytes; [fuel] 10). *)
Fixpoint enc_varint_fuel (fuel : nat) (n : N) : bytes :=
  match fuel with
  | O => []
  | S f => if (n <? 128)%N then [n2b n]
           else n2b (128 + n mod 128) :: enc_varint_fuel f (n / 128)
  end.
Definition enc_varint (n : N) : bytes := enc_varint_fuel 10 n.

(** decodeVarint (table_unmarshal.go): at most 10 bytes, the tenth must be below 2;
    [None] is its failure value (0, 0) (truncated or overlong input). [k] is the number of bytes already read. *)
Fixpoint dec_varint_fuel (fuel : nat) (l : bytes) : option (N * bytes) :=
  match fuel, l with
  | O, _ => None
  | _, [] => None
  | S f, b :: r =>
      let v := b2n b in
      if (f =? 0)%nat then (if (v <? 2)%N then Some (v, r) else None)
      else if (v <? 128)%N then Some (v, r)
      else match dec_varint_fuel f r with
           | Some (hi, r') => Some ((v - 128) + 128 * hi, r')%N
           | None => None
           end
  end.
Definition dec_varint (l : bytes) : option (N * bytes) := dec_varint_fuel 10 l.

Inductive fkind := KUint32 | KBytes.
Inductive fval := FUint (n : N) | FBytes (b : bytes).

(** Wire types. *)
Definition wt_varint : N := 0.
Definition wt_fixed64 : N := 1.
Definition wt_bytes : N := 2.
Definition wt_start_group : N := 3.
Definition wt_end_group : N := 4.
Definition wt_fixed32 : N := 5.

(** Marshalling of one field: tag varint, then varint value or length-prefixed bytes. *)
Definition enc_field (f : N * fval) : bytes :=
  match f with
  | (t, FUint n) => enc_varint (t * 8 + wt_varint) ++ enc_varint n
  | (t, FBytes b) => enc_varint (t * 8 + wt_bytes) ++ enc_varint (N.of_nat (length b)) ++ b
  end.

(** proto.Marshal: the fields present, in field-number order (the callers list them in that order). *)
Definition marshal (fs : list (N * fval)) : bytes := flat_map enc_field fs.

(** drop [m] bytes ([m] a uint64): fails when fewer remain. *)
Definition drop_n (m : N) (l : bytes) : option bytes :=
  if (N.of_nat (length l) <? m)%N then None else Some (skipn (N.to_nat m) l).

(** findEndGroup (table_unmarshal.go): scan fields until the matching end-group marker.
    Every iteration consumes at least one byte, so [fuel] = length + 1 suffices. *)
Fixpoint find_end_group (fuel : nat) (depth : nat) (l : bytes) : option bytes :=
  match fuel with
  | O => None
  | S f =>
      match dec_varint l with
      | None => None
      | Some (x, r) =>
          let w := (x mod 8)%N in
          if (w =? wt_varint)%N then
            match dec_varint r with Some (_, r') => find_end_group f depth r' | None => None end
          else if (w =? wt_fixed32)%N then
            match drop_n 4 r with Some r' => find_end_group f depth r' | None => None end
          else if (w =? wt_fixed64)%N then
            match drop_n 8 r with Some r' => find_end_group f depth r' | None => None end
          else if (w =? wt_bytes)%N then
            match dec_varint r with
            | Some (m, r') => match drop_n m r' with Some r'' => find_end_group f depth r'' | None => None end
            | None => None
            end
          else if (w =? wt_start_group)%N then find_end_group f (S depth) r
          else if (w =? wt_end_group)%N then
            match depth with
            | S (S d) => find_end_group f (S d) r
            | _ => Some r
            end
          else None
      end
  end.

(** skipField (table_unmarshal.go). *)
Definition skip_field (w : N) (l : bytes) : option bytes :=
  if (w =? wt_varint)%N then
    match dec_varint l with Some (_, r) => Some r | None => None end
  else if (w =? wt_fixed32)%N then drop_n 4 l
  else if (w =? wt_fixed64)%N then drop_n 8 l
  else if (w =? wt_bytes)%N then
    match dec_varint l with Some (m, r) => drop_n m r | None => None end
  else if (w =? wt_start_group)%N then find_end_group (S (length l)) 1 l
  else None.

(** unmarshalUint32Ptr / unmarshalBytesValue: [inr tt] is errInternalBadWireType (then the field is
    treated as unknown), [inl None] another error, [inl (Some ..)] the value and the remaining input. *)
Definition dec_known (k : fkind) (w : N) (l : bytes) : option (fval * bytes) + unit :=
  match k with
  | KUint32 =>
      if (w =? wt_varint)%N then
        inl (match dec_varint l with Some (x, r) => Some (FUint (u32 x), r) | None => None end)
      else inr tt
  | KBytes =>
      if (w =? wt_bytes)%N then
        inl (match dec_varint l with
             | Some (m, r) =>
                 if (N.of_nat (length r) <? m)%N then None
                 else Some (FBytes (firstn (N.to_nat m) r), skipn (N.to_nat m) r)
             | None => None
             end)
      else inr tt
  end.

(** The unmarshal loop (table_unmarshal.go): while input remains, read a tag varint; tag 0 is an error;
    known fields are decoded, unknown ones (and known ones with the wrong wire type) skipped. Every
    iteration consumes at least one byte, so [fuel] = length suffices; [None] is an error return. *)
Fixpoint unmarshal_loop (kinds : N -> option fkind) (fuel : nat) (l : bytes) : option (list (N * fval)) :=
  match l with
  | [] => Some []
  | _ =>
      match fuel with
      | O => None
      | S f =>
          match dec_varint l with
          | None => None
          | Some (x, r) =>
              let tag := (x / 8)%N in
              let w := (x mod 8)%N in
              if (tag =? 0)%N then None
              else
                let skip := match skip_field w r with
                            | Some r' => unmarshal_loop kinds f r'
                            | None => None
                            end in
                match kinds tag with
                | None => skip
                | Some k =>
                    match dec_known k w r with
                    | inr _ => skip
                    | inl None => None
                    | inl (Some (v, r')) =>
                        match unmarshal_loop kinds f r' with
                        | Some fs => Some ((tag, v) :: fs)
                        | None => None
                        end
                    end
                end
          end
      end
  end.

(** proto.Unmarshal. *)
Definition unmarshal (kinds : N -> option fkind) (l : bytes) : res (list (N * fval)) :=
  match unmarshal_loop kinds (length l) l with Some fs => Ok fs | None => Err EProto end.

(** The getters of the generated code return the last occurrence of a field; nil for an absent bytes
    field and 0 for an absent uint32 field. *)
Fixpoint last_uint (t : N) (fs : list (N * fval)) (acc : N) : N :=
  match fs with
  | [] => acc
  | (t', FUint n) :: r => last_uint t r (if (t' =? t)%N then n else acc)
  | _ :: r => last_uint t r acc
  end.
Fixpoint last_bytes (t : N) (fs : list (N * fval)) (acc : option bytes) : option bytes :=
  match fs with
  | [] => acc
  | (t', FBytes b) :: r => last_bytes t r (if (t' =? t)%N then Some b else acc)
  | _ :: r => last_bytes t r acc
  end.
Definition get_uint (t : N) (fs : list (N * fval)) : N := last_uint t fs 0.
Definition get_bytes (t : N) (fs : list (N * fval)) : option bytes := last_bytes t fs None.

(** An optional bytes field: omitted when nil, emitted (possibly with length 0) otherwise. *)
Definition opt_bytes_field (t : N) (b : option bytes) : list (N * fval) :=
  match b with Some l => [(t, FBytes l)] | None => [] end.
