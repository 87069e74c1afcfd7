(** GroupFsSpec.v: the keys of a sender key in the symbolic reading (C68). Nothing here models code. *)
From Coq Require Import String List.
From Verif Require Import Base Labels Crypto Ecc Messages SessionState Group GroupSpec.
Import ListNotations.
Local Open Scope list_scope.

(** A key is a term: the chain key a member got or made, the next chain key, the message key of a chain key. *)
Inductive gterm : Type := Seed | Next (t : gterm) | Key (t : gterm).

(** What a thief can compute: derivations run forwards only. *)
Inductive gderivable (K : list gterm) : gterm -> Prop :=
| GD_held : forall t, In t K -> gderivable K t
| GD_next : forall t, gderivable K t -> gderivable K (Next t)
| GD_key : forall t, gderivable K t -> gderivable K (Key t).

(** The chain key after [n] messages. *)
Fixpoint nexts (n : nat) : gterm := match n with O => Seed | S k => Next (nexts k) end.

(** The bytes: HMAC-SHA256 with 0x02 for the next chain key; 48 bytes of HKDF of the HMAC with 0x01, information "WhisperGroup", for a
    message key (16 bytes IV, 32 bytes cipher key). *)
Fixpoint gvalue (C : crypto) (seed : bytes) (t : gterm) : bytes :=
  match t with
  | Seed => seed
  | Next t => hmac C (gvalue C seed t) [x02]
  | Key t => hkdf_bytes C (hmac C (gvalue C seed t) [x01]) None (str "WhisperGroup"%string) 48
  end.

(** [ts] are the derivations of all keys a stored state holds: the chain key, then the kept message keys. A kept key also holds the
    seed it was made from (the HMAC with 0x01), which is worth as much as the message key. *)
Definition greads (C : crypto) (seed : bytes) (s : gstate) (ts : list gterm) : Prop :=
  exists c ks, ts = c :: ks /\ gc_key (gs_chain s) = gvalue C seed c /\
    Forall2 (fun t k => gm_iv k ++ gm_cipher k = gvalue C seed t /\ exists t', t = Key t' /\ gm_seed k = hmac C (gvalue C seed t') [x01]) ks (gs_keys s).

(** The first state with an id: the one the calls use. *)
Definition holds (r : grecord) (id : N) (s : gstate) : Prop :=
  exists a b, r = a ++ s :: b /\ gs_id s = id /\ forall t, In t a -> gs_id t <> id.
