(** ReopenSpec.v: a party that already has sessions with another one starts a new one, and the network may also
    inject packets of its own. Nothing here models code; it says what is run and what must come out (C62, C63). *)
From Verif Require Import Base Labels Crypto Ecc Keys X3dh Messages SessionState SessionRecord SessionBuilder
  SessionCipher Address World SessionSpec ConvSpec.

(** * Schedules

    Besides the events of ConvSpec.v, the network hands party [p] any packet [k] of its own making. *)
Inductive revent : Type :=
| RSend (p : party) (pt : bytes)
| RDeliver (p : party) (i : nat) (g : rng)
| RInject (p : party) (k : packet) (g : rng).

(** The events of the two parties. *)
Definition genuine (evs : list revent) : list cevent :=
  flat_map (fun e => match e with RSend p pt => [Send p pt] | RDeliver p i g => [Deliver p i g] | RInject _ _ _ => [] end) evs.

(** * What the code does *)

(** The result of delivering message [i] to [p], and of handing an injected packet to [p]. *)
Inductive rout : Type :=
| Got (p : party) (i : nat) (o : res bytes)
| Other (p : party) (o : res bytes).

Section Run.
Context (C : crypto).

(** Alice has started the new session; Bob sends in it once he has received a message of it ([opened]). *)
Definition may_send (p : party) (opened : bool) : bool := match p with Alice => true | Bob => opened end.
Definition opens (p : party) (o : res bytes) : bool := match p, o with Bob, Ok _ => true | _, _ => false end.

Fixpoint rrun (addr : party -> address) (w : party -> world) (opened : bool) (wire : party -> list packet) (evs : list revent)
    : list rout :=
  match evs with
  | [] => []
  | RSend p pt :: rest =>
      if may_send p opened then
        match w_encrypt C (addr (other p)) pt (w p) with
        | (Ok ct, w') => match pack ct with
                         | Ok k => rrun addr (upd_party w p w') opened (upd_party wire p (wire p ++ [k])) rest
                         | _ => [Got p O Panic]
                         end
        | _ => [Got p O Panic]
        end
      else rrun addr w opened wire rest
  | RDeliver p i g :: rest =>
      match nth_error (wire (other p)) i with
      | None => rrun addr w opened wire rest
      | Some k => let '(o, w') := receive C (addr (other p)) k g (w p) in
                  Got p i o :: rrun addr (upd_party w p w') (opened || opens p o) wire rest
      end
  | RInject p k g :: rest =>
      let '(o, w') := receive C (addr (other p)) k g (w p) in
      Other p o :: rrun addr (upd_party w p w') opened wire rest
  end.
End Run.

(** * What must come out

    The deliveries agree with the reference [cspec] of ConvSpec.v, which knows nothing of older sessions and of
    injected packets. Nothing is claimed from the point on where an injected packet is accepted (or crashes the
    receiver), or where a message the reference refuses is accepted: by an older session still in the record, or
    because of a collision of the 8-byte MAC. *)
Inductive agrees : list rout -> list (party * nat * verdict) -> Prop :=
| Agr_nil : agrees [] []
| Agr_plain : forall p i pt o x, agrees o x -> agrees (Got p i (Ok pt) :: o) ((p, i, Plain pt) :: x)
| Agr_refused : forall p i e o x, agrees o x -> agrees (Got p i (Err e) :: o) ((p, i, Refused) :: x)
| Agr_forgotten : forall p i e o x, agrees o x -> agrees (Got p i (Err e) :: o) ((p, i, Forgotten) :: x)
| Agr_injected : forall p e o x, agrees o x -> agrees (Other p (Err e) :: o) x
| Agr_surprise : forall p i pt v o x, (forall q, v <> Plain q) -> agrees (Got p i (Ok pt) :: o) ((p, i, v) :: x)
| Agr_intruder : forall p r o x, (forall e, r <> Err e) -> agrees (Other p r :: o) x.

(** The results of the parties' own deliveries. *)
Definition results (o : list rout) : list (party * nat * res bytes) :=
  flat_map (fun y => match y with Got p i r => [(p, i, r)] | Other _ _ => [] end) o.
(** Every injected packet is refused with an error. *)
Definition injections_refused (o : list rout) : Prop := forall p r, In (Other p r) o -> exists e, r = Err e.

(** * The parties before the new session *)

(** As [strangers] of ConvSpec.v, but each may hold any record a history of operations left in its store. *)
Record acquainted (C : crypto) (addr : party -> address) (wa wb : world) (b : bundle) (i sid : N) (signed otk : arr32) : Prop := {
  aq_alice : ip_pub (w_self wa) = x_base C (ip_priv (w_self wa));
  aq_bob : ip_pub (w_self wb) = x_base C (ip_priv (w_self wb));
  aq_old_alice : forall r, w_sessions wa (addr Bob) = Some r -> stored C u32_msg r;
  aq_old_bob : forall r, w_sessions wb (addr Alice) = Some r -> stored C u32_msg r;
  aq_trust : forall saved, w_policy wb saved (addr Alice) (ip_pub (w_self wa)) = true;
  aq_reg : (w_reg wa < 2 ^ 32)%N;
  aq_i : (i < 2 ^ 32)%N;
  aq_i_max : i <> 16777215%N;
  aq_sid : (sid < 2 ^ 32)%N;
  aq_prekey : w_prekeys wb i = Some (pair_of C otk);
  aq_signed : w_signed wb sid = Some (pair_of C signed);
  aq_b_id : b_prekey_id b = Some (ou_some i);
  aq_b_prekey : b_prekey b = Some (x_base C otk);
  aq_b_sid : b_signed_id b = sid;
  aq_b_signed : b_signed b = Some (x_base C signed);
  aq_b_identity : b_identity b = ip_pub (w_self wb) }.

(** No session of the record was started with this base key. *)
Definition unused_base (w : world) (a : address) (base : arr32) : Prop :=
  forall r s, w_sessions w a = Some r -> In s (states r) -> s_base s <> Some base.

(** The record stored for address [a]; its former sessions. *)
Definition old_states (w : world) (a : address) : list state :=
  match w_sessions w a with Some r => if r_fresh r then [] else states r | None => [] end.
