(** GroupSpec.v: one group member's sender key store, histories of group operations and the reference
    behaviour of a receiver, used to state the properties of PropertiesGroup.v. *)
From Verif Require Import Base Labels Crypto Bytehelper Ecc Cbc Messages SessionState Group.

(** * A serializing sender key store, for one sender key name

    groups/state/store/sender_key.go:8-11: StoreSenderKey writes Serialize(), LoadSenderKey deserializes; [None] is
    a missing entry, for which LoadSenderKey returns nil. An operation works on its own copy. *)
Definition greload (r : grecord) : grecord :=
  match grecord_from_structure (grecord_structure r) with Ok r' => r' | _ => r end.
Definition gcommit (es : list geffect) (st : option grecord) : option grecord :=
  fold_left (fun _ e => match e with StoreSenderKey r => Some (greload r) end) es st.

Section Run.
Context (C : crypto).
Definition gw_encrypt (pt : bytes) (g : rng) (st : option grecord) : res skm * option grecord :=
  let '(o, _, es, _) := group_encrypt C st pt g in (o, gcommit es st).
Definition gw_decrypt (m : skm) (st : option grecord) : res bytes * option grecord :=
  let '(o, _, _, es) := group_decrypt C st m in (o, gcommit es st).
Definition gw_process (d : skd) (st : option grecord) : option grecord :=
  let '(_, es) := group_process st d in gcommit es st.
Definition gw_create (g : rng) (st : option grecord) : res skd * option grecord :=
  let '(o, _, es, _) := group_create C st g in (o, gcommit es st).
End Run.

(** * Histories of one sender key record *)

(** Iterations below 2^32-1, the value after which the uint32 iteration wraps around. *)
Definition g_no_wrap (n : N) : Prop := (n < 4294967295)%N.

Section History.
Context (C : crypto).

(** One operation on a record object, with any result; the object as it is afterwards (a serializing store keeps
    it only on success). Messages satisfy [Q]; distribution messages hold a uint32 iteration. Storing a
    distribution message in a record with 2000 states drops the first state and is not included here. *)
Inductive gstep (Q : N -> Prop) (r : grecord) : grecord -> Prop :=
| GS_encrypt : forall pt g o r' es g', (forall s, hd_error r = Some s -> Q (gc_iter (gs_chain s))) ->
    group_encrypt C (Some r) pt g = (o, Some r', es, g') -> gstep Q r r'
| GS_decrypt : forall m o m' r' es, Q (km_iter m) -> group_decrypt C (Some r) m = (o, m', Some r', es) -> gstep Q r r'
| GS_process : forall d r' es, (dm_iter d < 4294967296)%N -> (N.of_nat (length r) < 2000)%N ->
    group_process (Some r) d = (r', es) -> gstep Q r r'
| GS_reload : gstep Q r (greload r).

(** Every record object that can come about. *)
Inductive greachable (Q : N -> Prop) : grecord -> Prop :=
| GR_empty : greachable Q []
| GR_create : forall load g o r es g', g_is_empty load = true -> group_create C load g = (o, Some r, es, g') -> greachable Q r
| GR_step : forall r r', greachable Q r -> gstep Q r r' -> greachable Q r'
| GR_evict : forall r d r' es, greachable Q r -> (dm_iter d < 4294967296)%N -> group_process (Some r) d = (r', es) -> greachable Q r'.

(** Any number of operations, no state being dropped. *)
Inductive gsteps (Q : N -> Prop) : grecord -> grecord -> Prop :=
| GH_none : forall r, gsteps Q r r
| GH_step : forall r r1 r2, gstep Q r r1 -> gsteps Q r1 r2 -> gsteps Q r r2.

(** The store of a member who created a sender key and has since encrypted with it any number of times. *)
Inductive own_store : option grecord -> Prop :=
| Own_create : forall st g d st', g_is_empty st = true -> gw_create C g st = (Ok d, st') -> own_store st'
| Own_encrypt : forall st pt g m st', own_store st -> gw_encrypt C pt g st = (Ok m, st') -> own_store st'.
End History.

(** * Reference behaviour of a receiver

    What a receiver remembers: the next iteration it expects and the iterations it skipped and can still
    read, oldest first, at most the 2000 latest. *)
Record gview : Type := { gv_next : N; gv_kept : list N }.

Definition last_n {A} (n : nat) (l : list A) : list A := skipn (length l - n) l.

(** [a, a+1, ..., a+k-1] *)
Definition n_range (a : N) (k : nat) : list N := map (fun i => (a + N.of_nat i)%N) (seq 0 k).

(** Delivery of iteration [n]: what is remembered afterwards if it is accepted. *)
Definition gaccept (v : gview) (n : N) : option gview :=
  if (n <? gv_next v)%N then
    if existsb (N.eqb n) (gv_kept v)
    then Some {| gv_next := gv_next v; gv_kept := filter (fun k => negb (k =? n)%N) (gv_kept v) |}
    else None
  else if (2000 <? n - gv_next v)%N then None
  else Some {| gv_next := n + 1; gv_kept := last_n (N.to_nat 2000) (gv_kept v ++ n_range (gv_next v) (N.to_nat (n - gv_next v))) |}.

(** A schedule: the sender encrypts and sends a plaintext (with some randomness for the signature), or the
    network delivers a copy of the [i]-th sent message. *)
Inductive gevent : Type := GSend (pt : bytes) (g : rng) | GDeliver (i : nat).

(** What the deliveries must return: [Some pt] for success with that plaintext, [None] for an error. A message
    not yet sent cannot be delivered (no effect). *)
Fixpoint gspec (base : N) (sent : list bytes) (v : gview) (evs : list gevent) : list (option bytes) :=
  match evs with
  | [] => []
  | GSend pt _ :: rest => gspec base (sent ++ [pt]) v rest
  | GDeliver i :: rest =>
      match nth_error sent i with
      | None => gspec base sent v rest
      | Some pt => match gaccept v (base + N.of_nat i) with
                   | Some v' => Some pt :: gspec base sent v' rest
                   | None => None :: gspec base sent v rest
                   end
      end
  end.

Section Schedule.
Context (C : crypto).

(** What the code does: messages travel as bytes. *)
Fixpoint grun (snd_st rcv_st : option grecord) (wire : list bytes) (evs : list gevent) : list (res bytes) :=
  match evs with
  | [] => []
  | GSend pt g :: rest =>
      match gw_encrypt C pt g snd_st with
      | (Ok m, st') => grun st' rcv_st (wire ++ [skm_signed m]) rest
      | (_, _) => [Panic]
      end
  | GDeliver i :: rest =>
      match nth_error wire i with
      | None => grun snd_st rcv_st wire rest
      | Some b =>
          match skm_from_bytes b with
          | Ok m => let '(o, st') := gw_decrypt C m rcv_st in o :: grun snd_st st' wire rest
          | Err e => Err e :: grun snd_st rcv_st wire rest
          | Panic => [Panic]
          end
      end
  end.
End Schedule.

Definition sends (evs : list gevent) : nat :=
  length (filter (fun e => match e with GSend _ _ => true | GDeliver _ => false end) evs).

(** The observed result agrees with the prescribed one. *)
Definition agrees (o : res bytes) (x : option bytes) : Prop :=
  match x with Some pt => o = Ok pt | None => exists e, o = Err e end.
