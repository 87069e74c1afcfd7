(** AttackSpec.v: two parties talking as in CutSpec.v while somebody else feeds them packets of his own (C83). Nothing here models code; it says what is run
    and what must come out. *)
From Verif Require Import Base Labels Crypto Ecc Keys X3dh Messages SessionState SessionRecord SessionBuilder
  SessionCipher Address World GroupSpec ConvSpec ThreadSpec WireGrammarSpec CutSpec.

(** * What is run

    An event of CutSpec.v takes place, or party [p] is handed a packet of the attacker's choice as if it came from the other party. The attacker sees and
    makes up any bytes: changed copies of what is on the wire, packets of other conversations, garbage. *)
Inductive aevent : Type := Real (x : xevent) | Inject (p : party) (k : packet) (g : rng).
Definition real_of (a : aevent) : list xevent := match a with Real x => [x] | Inject _ _ _ => [] end.
Definition reals (evs : list aevent) : list xevent := flat_map real_of evs.

(** What is seen: the result of a delivery of CutSpec.v, or that of an injected packet and whether a session was stored for it. *)
Inductive aresult : Type := Genuine (y : party * nat * xresult) | Injected (p : party) (o : res bytes) (stored : bool).

Section Run.
Context (C : crypto).

(** One event: the parties' stores and the wires before and after, and what is seen. [None]: a send did not give a packet (CutSpec.xrun stops there too). *)
Definition arun_real (addr : party -> address) (w : party -> world) (wire : party -> list packet) (x : xevent)
    : option ((party -> world) * (party -> list packet) * list (party * nat * xresult)) :=
  match x with
  | Do (Send p pt) =>
      if has_session (addr (other p)) (w p) then
        match w_encrypt C (addr (other p)) pt (w p) with
        | (Ok ct, w') => match pack ct with Ok k => Some (upd_party w p w', upd_party wire p (wire p ++ [k]), []) | _ => None end
        | _ => None
        end
      else Some (w, wire, [])
  | Do (Deliver p i g) =>
      match nth_error (wire (other p)) i with
      | None => Some (w, wire, [])
      | Some k => let '(o, w') := receive C (addr (other p)) k g (w p) in Some (upd_party w p w', wire, [(p, i, Returned o)])
      end
  | Cut (Send p pt) n =>
      if has_session (addr (other p)) (w p) then Some (upd_party w p (cut_call C (addr (other p)) (DoEncrypt pt) n (w p)), wire, []) else Some (w, wire, [])
  | Cut (Deliver p i g) n =>
      match nth_error (wire (other p)) i with
      | None => Some (w, wire, [])
      | Some k => Some (upd_party w p (cut_call C (addr (other p)) (DoReceive k g) n (w p)), wire,
                        [(p, i, Died (existsb is_store (first_writes C (addr (other p)) (DoReceive k g) n (w p))))])
      end
  end.

(** Is a session stored when [k] is handed to the party with stores [w]? *)
Definition takes (a : address) (k : packet) (g : rng) (w : world) : bool := existsb is_store (snd (run_call C (view_of w a) (DoReceive k g))).

Fixpoint arun (addr : party -> address) (w : party -> world) (wire : party -> list packet) (evs : list aevent) : list aresult :=
  match evs with
  | [] => []
  | Real x :: rest =>
      match arun_real addr w wire x with
      | Some (w', wire', out) => map Genuine out ++ arun addr w' wire' rest
      | None => [Genuine (Alice, O, Returned Panic)]
      end
  | Inject p k g :: rest =>
      let '(o, w') := receive C (addr (other p)) k g (w p) in
      Injected p o (takes (addr (other p)) k g (w p)) :: arun addr (upd_party w p w') wire rest
  end.
End Run.

(** * What must come out *)

(** The genuine deliveries among the results. *)
Definition genuine (l : list aresult) : list (party * nat * xresult) := flat_map (fun y => match y with Genuine z => [z] | Injected _ _ _ => [] end) l.
(** No injected packet made a party store a session. *)
Definition none_taken (l : list aresult) : Prop := Forall (fun y => match y with Injected _ _ stored => stored = false | Genuine _ => True end) l.
(** No injected packet gave a plaintext. *)
Definition none_read (l : list aresult) : Prop := Forall (fun y => match y with Injected _ (Ok _) _ => False | _ => True end) l.

(** The message a packet carries. *)
Definition carries (k : packet) (m : sig_msg) : Prop :=
  match k with
  | PSignal b => signal_fate b (Ok m)
  | PPreKey b => exists pm, prekey_fate b (Ok pm) /\ pm_message pm = m
  end.
