(** GroupCutSpec.v: members of groups talking as in GroupConvSpec.v, with the process dying in the middle of calls (C82). Nothing here models code; it says
    what is run and what must come out. *)
From Verif Require Import Base Labels Crypto Bytehelper Ecc Cbc Messages SessionState Group Address GroupSpec GroupStoreSpec GroupConvSpec GroupThreadSpec.

(** * What is run

    An event of GroupConvSpec.v takes place as usual, or its call dies after its first [n] store writes: nothing is returned, so a message being encrypted or
    a distribution message being created does not reach the wire, and a plaintext being decrypted is not seen. *)
Inductive gxevent : Type := GDo (e : mevent) | GCut (e : mevent) (n : nat).
Definition gevent_of (x : gxevent) : mevent := match x with GDo e => e | GCut e _ => e end.

(** What is seen: the outcomes of GroupConvSpec.v, or that the process died in a Decrypt, before or after the record was stored. *)
Inductive moutcome : Type := MReturned (o : res bytes) | MDied (stored : bool).

Section Run.
Context (C : crypto) (addr : nat -> address).

(** Member [j] makes a call on the sender key of the channel and dies after [k] writes: whether anything was written, and the stores. *)
Definition cut_at (j : nat) (c : channel) (f : gcall) (k : nat) (n : network) : bool * network :=
  let st := n_store n j (name_of addr c) in
  let es := firstn k (snd (greact C f st)) in
  (match es with [] => false | _ => true end, write addr j c (gcommit es st) n).
Definition cut_decrypt (c : channel) (j : nat) (b : bytes) (k : nat) (n : network) : list moutcome * network :=
  match skm_from_bytes b with
  | Ok m => let '(stored, n') := cut_at j c (CDecrypt m) k n in ([MDied stored], n')
  | _ => ([MDied false], n)
  end.

Definition gxstep (x : gxevent) (n : network) : list moutcome * network :=
  match x with
  | GDo e => let '(o, n') := mstep C addr e n in (map MReturned o, n')
  | GCut (MCreate c g) k => ([], snd (cut_at (snd c) c (CCreate g) k n))
  | GCut (MJoin c j i) k =>
      match nth_error (n_dist n c) i with
      | None => ([], n)
      | Some b => match skd_from_bytes b with Ok d => ([], snd (cut_at j c (CProcess d) k n)) | _ => ([], n) end
      end
  | GCut (MSend c pt g) k => ([], snd (cut_at (snd c) c (CEncrypt pt g) k n))
  | GCut (MDeliver c j i) k => match nth_error (n_wire n c) i with None => ([], n) | Some b => cut_decrypt c j b k n end
  | GCut (MInject c j b) k => cut_decrypt c j b k n
  end.

Fixpoint gxrun (evs : list gxevent) (n : network) : list moutcome :=
  match evs with
  | [] => []
  | x :: rest => let '(o, n') := gxstep x n in o ++ gxrun rest n'
  end.
End Run.

(** * What must come out

    The only write of Encrypt, Decrypt, Process and Create is the record. A call that dies before it might as well not have been made. After it, everything is
    as if the call had returned, but its message or distribution message is lost on the way, and its plaintext was not seen. *)

(** The channels as GroupConvSpec.v sees them, counting lost messages, and which of the messages and distribution messages are on the wire. *)
Record gxview : Type := { gx_chan : channel -> chan_view; gx_sent : channel -> list nat; gx_handed : channel -> list nat }.
Definition gx_start : gxview := {| gx_chan := fun _ => fresh_chan; gx_sent := fun _ => []; gx_handed := fun _ => [] |}.

Inductive gxexpected : Type := XE (x : expected) | XDied (stored : bool) | XInjected.

Definition gx_move (e : mevent) (m : gxview) : gxview := {| gx_chan := snd (rstep e (gx_chan m)); gx_sent := gx_sent m; gx_handed := gx_handed m |}.
Definition gx_post (c : channel) (i : nat) (m : gxview) : gxview :=
  {| gx_chan := gx_chan m; gx_sent := put channel_eqb c (gx_sent m c ++ [i]) (gx_sent m); gx_handed := gx_handed m |}.
Definition gx_hand (c : channel) (i : nat) (m : gxview) : gxview :=
  {| gx_chan := gx_chan m; gx_sent := gx_sent m; gx_handed := put channel_eqb c (gx_handed m c ++ [i]) (gx_handed m) |}.
Definition gone (x : expected) : gxexpected := match x with EPlain _ => XDied true | _ => XDied false end.

Definition gxrstep (x : gxevent) (m : gxview) : list gxexpected * gxview :=
  match x with
  | GDo (MCreate c g) => ([], gx_hand c (length (cv_dist (gx_chan m c))) (gx_move (MCreate c g) m))
  | GDo (MJoin c j k) => match nth_error (gx_handed m c) k with None => ([], m) | Some i => ([], gx_move (MJoin c j i) m) end
  | GDo (MSend c pt g) =>
      match cv_view (gx_chan m c) (snd c) with
      | None => ([XE ECrash], m)
      | Some _ => ([], gx_post c (length (cv_sent (gx_chan m c))) (gx_move (MSend c pt g) m))
      end
  | GDo (MDeliver c j k) =>
      match nth_error (gx_sent m c) k with
      | None => ([], m)
      | Some i => (map XE (fst (rstep (MDeliver c j i) (gx_chan m))), gx_move (MDeliver c j i) m)
      end
  | GDo (MInject _ _ _) => ([XE EInjected], m)
  | GCut (MDeliver c j k) n =>
      match nth_error (gx_sent m c) k with
      | None => ([], m)
      | Some i => match n with
                  | O => ([XDied false], m)
                  | S _ => (map gone (fst (rstep (MDeliver c j i) (gx_chan m))), gx_move (MDeliver c j i) m)
                  end
      end
  | GCut (MInject _ _ _) _ => ([XInjected], m)
  | GCut _ O => ([], m)
  | GCut (MCreate c g) (S _) => ([], gx_move (MCreate c g) m)
  | GCut (MJoin c j k) (S _) => match nth_error (gx_handed m c) k with None => ([], m) | Some i => ([], gx_move (MJoin c j i) m) end
  | GCut (MSend c pt g) (S _) => ([], gx_move (MSend c pt g) m)
  end.

Fixpoint gxspec (evs : list gxevent) (m : gxview) : list gxexpected :=
  match evs with
  | [] => []
  | x :: rest => let '(o, m') := gxrstep x m in o ++ gxspec rest m'
  end.

Definition gxmeets (o : moutcome) (x : gxexpected) : Prop :=
  match x, o with
  | XE e, MReturned r => meets r e
  | XDied b, MDied b' => b' = b
  | XInjected, MDied b => b = false
  | _, _ => False
  end.

(** Outcome by outcome as prescribed, up to the first injected message that is accepted, if there is one. *)
Inductive gxprescribed : list moutcome -> list gxexpected -> Prop :=
| GXP_nil : gxprescribed [] []
| GXP_cons : forall o x os xs, gxmeets o x -> gxprescribed os xs -> gxprescribed (o :: os) (x :: xs)
| GXP_forged : forall pt os xs, gxprescribed (MReturned (Ok pt) :: os) (XE EInjected :: xs)
| GXP_forged_unseen : forall os xs, gxprescribed (MDied true :: os) (XInjected :: xs).

(** Calls that die before they write anything, left out. *)
Definition gx_early (x : gxevent) : bool := match x with GCut _ O => true | _ => false end.
(** What completed calls returned. *)
Definition gx_returned (o : list moutcome) : list (res bytes) := flat_map (fun y => match y with MReturned r => [r] | MDied _ => [] end) o.

(** No injected message was accepted. *)
Definition no_forgery (os : list moutcome) (xs : list gxexpected) : Prop :=
  Forall2 (fun o x => (x = XE EInjected -> forall pt, o <> MReturned (Ok pt)) /\ (x = XInjected -> o <> MDied true)) os xs.

(** The deliveries that used up their message: a plaintext was returned, or the process died after storing the record. *)
Section Used.
Context (C : crypto) (addr : nat -> address).
Fixpoint gx_used (evs : list gxevent) (n : network) : list (channel * nat * nat) :=
  match evs with
  | [] => []
  | x :: rest =>
      let '(o, n') := gxstep C addr x n in
      match gevent_of x, o with
      | MDeliver c j k, [MReturned (Ok _)] | MDeliver c j k, [MDied true] => (c, j, k) :: gx_used rest n'
      | _, _ => gx_used rest n'
      end
  end.
End Used.
