(** GroupConvSpec.v: any number of members talking in any number of groups (C66).

    A sender key is stored under a name: a group id and the address of the sender (protocol/sender_key_name.go:4-25).
    Every member has its own store. A channel is what one member sends in one group. *)
From Verif Require Import Base Labels Crypto Bytehelper Ecc Cbc Messages SessionState Group Address GroupSpec.

Definition skname : Type := bytes * address.
Definition skname_eqb (a b : skname) : bool := bytes_eqb (fst a) (fst b) && address_eqb (snd a) (snd b).

(** A member is a number; a channel is a group id and the sending member. *)
Definition channel : Type := bytes * nat.
Definition channel_eqb (a b : channel) : bool := bytes_eqb (fst a) (fst b) && (snd a =? snd b)%nat.

Inductive mevent : Type :=
| MCreate (c : channel) (g : rng)            (* the sender calls Create and puts the distribution message on the wire *)
| MJoin (c : channel) (j : nat) (k : nat)    (* the [k]-th distribution message of the channel reaches member [j], who processes it *)
| MSend (c : channel) (pt : bytes) (g : rng) (* the sender encrypts and puts the message on the wire *)
| MDeliver (c : channel) (j : nat) (k : nat) (* the [k]-th message of the channel reaches member [j], who decrypts it *)
| MInject (c : channel) (j : nat) (b : bytes). (* anyone hands member [j] any bytes as a message of the channel *)

(** * What the code does *)

Definition put {K V} (eqb : K -> K -> bool) (k : K) (v : V) (f : K -> V) : K -> V := fun x => if eqb k x then v else f x.

Record network : Type := {
  n_store : nat -> skname -> option grecord; (* member, name *)
  n_wire : channel -> list bytes;
  n_dist : channel -> list bytes }.

Section Run.
Context (C : crypto) (addr : nat -> address).

Definition name_of (c : channel) : skname := (fst c, addr (snd c)).

Definition write (j : nat) (c : channel) (v : option grecord) (n : network) : network :=
  {| n_store := put Nat.eqb j (put skname_eqb (name_of c) v (n_store n j)) (n_store n); n_wire := n_wire n; n_dist := n_dist n |}.
Definition post (c : channel) (b : bytes) (n : network) : network :=
  {| n_store := n_store n; n_wire := put channel_eqb c (n_wire n c ++ [b]) (n_wire n); n_dist := n_dist n |}.
Definition hand_out (c : channel) (b : bytes) (n : network) : network :=
  {| n_store := n_store n; n_wire := n_wire n; n_dist := put channel_eqb c (n_dist n c ++ [b]) (n_dist n) |}.

(** Parse and Decrypt. *)
Definition mdecrypt (c : channel) (j : nat) (b : bytes) (n : network) : res bytes * network :=
  match skm_from_bytes b with
  | Ok m => let '(o, st) := gw_decrypt C m (n_store n j (name_of c)) in (o, write j c st n)
  | Err e => (Err e, n)
  | Panic => (Panic, n)
  end.

(** The outcomes of the calls: of a Create that fails, of a Send that fails, of every Deliver and Inject. *)
Definition mstep (e : mevent) (n : network) : list (res bytes) * network :=
  match e with
  | MCreate c g =>
      match gw_create C g (n_store n (snd c) (name_of c)) with
      | (Ok d, st) => ([], hand_out c (skd_bytes d) (write (snd c) c st n))
      | (Err e, st) => ([Err e], write (snd c) c st n)
      | (Panic, st) => ([Panic], write (snd c) c st n)
      end
  | MJoin c j k =>
      match nth_error (n_dist n c) k with
      | None => ([], n)
      | Some b => match skd_from_bytes b with
                  | Ok d => ([], write j c (gw_process d (n_store n j (name_of c))) n)
                  | Err e => ([Err e], n)
                  | Panic => ([Panic], n)
                  end
      end
  | MSend c pt g =>
      match gw_encrypt C pt g (n_store n (snd c) (name_of c)) with
      | (Ok m, st) => ([], post c (skm_signed m) (write (snd c) c st n))
      | (Err e, st) => ([Err e], write (snd c) c st n)
      | (Panic, st) => ([Panic], write (snd c) c st n)
      end
  | MDeliver c j k =>
      match nth_error (n_wire n c) k with
      | None => ([], n)
      | Some b => let '(o, n') := mdecrypt c j b n in ([o], n')
      end
  | MInject c j b => let '(o, n') := mdecrypt c j b n in ([o], n')
  end.

Fixpoint mrun (evs : list mevent) (n : network) : list (res bytes) :=
  match evs with
  | [] => []
  | e :: rest => let '(o, n') := mstep e n in o ++ mrun rest n'
  end.

(** All stores empty, nothing sent. *)
Definition quiet : network := {| n_store := fun _ _ => None; n_wire := fun _ => []; n_dist := fun _ => [] |}.
End Run.

(** * What it must do *)

(** Of a channel: its plaintexts so far; for each distribution message the number of messages sent before it; and for each
    member what it remembers (GroupSpec.gview), [None] before it processed a distribution message. *)
Record chan_view : Type := { cv_sent : list bytes; cv_dist : list N; cv_view : nat -> option gview }.
Definition fresh_chan : chan_view := {| cv_sent := []; cv_dist := []; cv_view := fun _ => None |}.

Inductive expected : Type := EPlain (pt : bytes) | ERefused | ECrash | EInjected.

Definition set_view (j : nat) (v : gview) (x : chan_view) : chan_view :=
  {| cv_sent := cv_sent x; cv_dist := cv_dist x; cv_view := put Nat.eqb j (Some v) (cv_view x) |}.

(** The sender of a channel knows its own next number and keeps no keys: it cannot read its own messages. *)
Definition sender_at (n : nat) : gview := {| gv_next := N.of_nat n; gv_kept := [] |}.

Definition rstep (e : mevent) (m : channel -> chan_view) : list expected * (channel -> chan_view) :=
  match e with
  | MCreate c _ =>
      let x := m c in
      ([], put channel_eqb c
             (set_view (snd c) (sender_at (length (cv_sent x)))
                {| cv_sent := cv_sent x; cv_dist := cv_dist x ++ [N.of_nat (length (cv_sent x))]; cv_view := cv_view x |}) m)
  | MJoin c j k =>
      let x := m c in
      match nth_error (cv_dist x) k with
      | None => ([], m)
      | Some n => match cv_view x j with
                  | Some _ => ([], m)  (* a later distribution message changes nothing *)
                  | None => ([], put channel_eqb c (set_view j {| gv_next := n; gv_kept := [] |} x) m)
                  end
      end
  | MSend c pt _ =>
      let x := m c in
      match cv_view x (snd c) with
      | None => ([ECrash], m)
      | Some _ => ([], put channel_eqb c
                         (set_view (snd c) (sender_at (S (length (cv_sent x))))
                            {| cv_sent := cv_sent x ++ [pt]; cv_dist := cv_dist x; cv_view := cv_view x |}) m)
      end
  | MDeliver c j k =>
      let x := m c in
      match nth_error (cv_sent x) k with
      | None => ([], m)
      | Some pt => match cv_view x j with
                   | None => ([ECrash], m)
                   | Some v => match gaccept v (N.of_nat k) with
                               | None => ([ERefused], m)
                               | Some v' => ([EPlain pt], put channel_eqb c (set_view j v' x) m)
                               end
                   end
      end
  | MInject _ _ _ => ([EInjected], m)
  end.

Fixpoint rspec (evs : list mevent) (m : channel -> chan_view) : list expected :=
  match evs with
  | [] => []
  | e :: rest => let '(o, m') := rstep e m in o ++ rspec rest m'
  end.

Definition meets (o : res bytes) (x : expected) : Prop :=
  match x with
  | EPlain pt => o = Ok pt
  | ERefused => exists e, o = Err e
  | ECrash => o = Panic
  | EInjected => forall pt, o <> Ok pt
  end.

(** Outcome by outcome as prescribed, up to the first injected message that is accepted (it has the sender's valid
    signature, C34), if there is one. *)
Inductive as_prescribed : list (res bytes) -> list expected -> Prop :=
| AP_nil : as_prescribed [] []
| AP_cons : forall o x os xs, meets o x -> as_prescribed os xs -> as_prescribed (o :: os) (x :: xs)
| AP_forged : forall pt os xs, as_prescribed (Ok pt :: os) (EInjected :: xs).

(** * Well-behaved schedules *)

Definition sends_in (evs : list mevent) : nat := length (filter (fun e => match e with MSend _ _ _ => true | _ => false end) evs).
Definition joins_in (evs : list mevent) : nat := length (filter (fun e => match e with MJoin _ _ _ => true | _ => false end) evs).

(** Create finds randomness for the signing key; plaintexts fit in memory. *)
Definition proper (C : crypto) (e : mevent) : Prop :=
  match e with
  | MCreate _ g => exists p g', generate_key_pair C g = (Ok p, g')
  | MSend _ pt _ => (N.of_nat (length pt) + 16 < 9223372036854775808)%N
  | _ => True
  end.
