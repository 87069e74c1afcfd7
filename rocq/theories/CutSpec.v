(** CutSpec.v: two parties talking through the wire as in ConvSpec.v, with the process dying in the middle of calls (C81). Nothing here models code; it says
    what is run and what must come out. *)
From Verif Require Import Base Labels Crypto Ecc Keys X3dh Messages SessionState SessionRecord SessionBuilder
  SessionCipher Address World GroupSpec ConvSpec ThreadSpec.

(** * What is run

    An event of ConvSpec.v takes place as usual, or its call dies after its first [n] store writes: nothing is returned, so a message being encrypted
    does not reach the wire and a plaintext being decrypted is not seen. *)
Inductive xevent : Type := Do (e : cevent) | Cut (e : cevent) (n : nat).
Definition event_of (x : xevent) : cevent := match x with Do e => e | Cut e _ => e end.

(** What is seen of a delivery: its result, or that the process died, before or after a session was stored. *)
Inductive xresult : Type := Returned (o : res bytes) | Died (stored : bool).
Definition is_store (e : effect) : bool := match e with StoreSession _ => true | _ => false end.

Section Run.
Context (C : crypto).
(** The first [n] writes of a call, and the stores after them. *)
Definition first_writes (a : address) (c : call) (n : nat) (w : world) : list effect := firstn n (snd (run_call C (view_of w a) c)).
Definition cut_call (a : address) (c : call) (n : nat) (w : world) : world := fst (commit a (first_writes a c n w) w).

Fixpoint xrun (addr : party -> address) (w : party -> world) (wire : party -> list packet) (evs : list xevent) : list (party * nat * xresult) :=
  match evs with
  | [] => []
  | Do (Send p pt) :: rest =>
      if has_session (addr (other p)) (w p) then
        match w_encrypt C (addr (other p)) pt (w p) with
        | (Ok ct, w') => match pack ct with
                         | Ok k => xrun addr (upd_party w p w') (upd_party wire p (wire p ++ [k])) rest
                         | _ => [(p, O, Returned Panic)]
                         end
        | _ => [(p, O, Returned Panic)]
        end
      else xrun addr w wire rest
  | Do (Deliver p i g) :: rest =>
      match nth_error (wire (other p)) i with
      | None => xrun addr w wire rest
      | Some k => let '(o, w') := receive C (addr (other p)) k g (w p) in (p, i, Returned o) :: xrun addr (upd_party w p w') wire rest
      end
  | Cut (Send p pt) n :: rest =>
      if has_session (addr (other p)) (w p) then xrun addr (upd_party w p (cut_call (addr (other p)) (DoEncrypt pt) n (w p))) wire rest
      else xrun addr w wire rest
  | Cut (Deliver p i g) n :: rest =>
      match nth_error (wire (other p)) i with
      | None => xrun addr w wire rest
      | Some k =>
          (p, i, Died (existsb is_store (first_writes (addr (other p)) (DoReceive k g) n (w p)))) ::
          xrun addr (upd_party w p (cut_call (addr (other p)) (DoReceive k g) n (w p))) wire rest
      end
  end.
End Run.

(** * What must come out

    The second write of Encrypt, Decrypt and DecryptMessage is the session. A call that dies before it might as well not have been made. One that dies after
    it has used up the message number: of a message that was not sent, or that was not seen. *)
Inductive xverdict : Type := Seen (x : verdict) | Gone | Nothing | Strange.

Fixpoint xspec (v : party -> pview) (sent : party -> list (nat * N * bytes)) (evs : list xevent) : list (party * nat * xverdict) :=
  match evs with
  | [] => []
  | Do (Send p pt) :: rest =>
      match pv_epoch (v p) with
      | O => xspec v sent rest
      | S _ => xspec (upd_party v p {| pv_epoch := pv_epoch (v p); pv_count := pv_count (v p) + 1; pv_chains := pv_chains (v p) |})
                     (upd_party sent p (sent p ++ [(pv_epoch (v p), pv_count (v p), pt)])) rest
      end
  | Do (Deliver p i _) :: rest =>
      match nth_error (sent (other p)) i with
      | None => xspec v sent rest
      | Some (e, n, pt) => let '(x, v') := cdeliver (v p) e n pt in (p, i, Seen x) :: xspec (upd_party v p v') sent rest
      end
  | Cut (Send p _) n :: rest =>
      match pv_epoch (v p), n with
      | S _, S (S _) => xspec (upd_party v p {| pv_epoch := pv_epoch (v p); pv_count := pv_count (v p) + 1; pv_chains := pv_chains (v p) |}) sent rest
      | _, _ => xspec v sent rest
      end
  | Cut (Deliver p i _) n :: rest =>
      match nth_error (sent (other p)) i with
      | None => xspec v sent rest
      | Some (e, c, pt) =>
          match cdeliver (v p) e c pt, n with
          | (Plain _, v'), S (S _) => (p, i, Gone) :: xspec (upd_party v p v') sent rest
          | (Forgotten, _), S (S _) => (p, i, Strange) :: xspec v sent rest
          | _, _ => (p, i, Nothing) :: xspec v sent rest
          end
      end
  end.

(** The observed results agree with the reference, up to a message of a forgotten chain being accepted; nothing is claimed from there on. *)
Inductive xconforms : list (party * nat * xresult) -> list (party * nat * xverdict) -> Prop :=
| XC_nil : xconforms [] []
| XC_plain : forall p i pt o x, xconforms o x -> xconforms ((p, i, Returned (Ok pt)) :: o) ((p, i, Seen (Plain pt)) :: x)
| XC_refused : forall p i e o x, xconforms o x -> xconforms ((p, i, Returned (Err e)) :: o) ((p, i, Seen Refused) :: x)
| XC_forgotten : forall p i e o x, xconforms o x -> xconforms ((p, i, Returned (Err e)) :: o) ((p, i, Seen Forgotten) :: x)
| XC_gone : forall p i o x, xconforms o x -> xconforms ((p, i, Died true) :: o) ((p, i, Gone) :: x)
| XC_nothing : forall p i o x, xconforms o x -> xconforms ((p, i, Died false) :: o) ((p, i, Nothing) :: x)
| XC_strange : forall p i o x, xconforms o x -> xconforms ((p, i, Died false) :: o) ((p, i, Strange) :: x)
| XC_collision : forall p i pt o x, xconforms ((p, i, Returned (Ok pt)) :: o) ((p, i, Seen Forgotten) :: x)
| XC_collision_unseen : forall p i o x, xconforms ((p, i, Died true) :: o) ((p, i, Strange) :: x).

(** The deliveries that used up their message: a plaintext was returned, or the process died after storing the session. *)
Definition used_up (o : list (party * nat * xresult)) : list (party * nat) :=
  flat_map (fun y => match y with (p, i, Returned (Ok _)) | (p, i, Died true) => [(p, i)] | _ => [] end) o.
(** The plaintexts (or not) that completed deliveries returned. *)
Definition returned (o : list (party * nat * xresult)) : list (party * nat * option bytes) :=
  flat_map (fun y => match y with (p, i, Returned (Ok pt)) => [(p, i, Some pt)] | (p, i, Returned _) => [(p, i, None)] | _ => [] end) o.

(** Calls that die with at most one write made, left out. *)
Definition early (x : xevent) : bool := match x with Cut _ n => Nat.leb n 1 | Do _ => false end.
Definition without_early (evs : list xevent) : list xevent := filter (fun x => negb (early x)) evs.

(** No message of a forgotten chain is delivered. *)
Definition tame (x : list (party * nat * xverdict)) : Prop := forall p i, ~ In (p, i, Seen Forgotten) x /\ ~ In (p, i, Strange) x.

(** Messages encrypted but never sent: the number of Encrypt calls that died after storing the session. *)
Definition lost_sends (evs : list xevent) : nat :=
  length (filter (fun x => match x with Cut (Send _ _) (S (S _)) => true | _ => false end) evs).

(** An observed result in the words of the reference. *)
Definition seen (y : party * nat * xresult) : party * nat * xverdict :=
  match y with
  | (p, j, Returned (Ok pt)) => (p, j, Seen (Plain pt))
  | (p, j, Returned _) => (p, j, Seen Refused)
  | (p, j, Died true) => (p, j, Gone)
  | (p, j, Died false) => (p, j, Nothing)
  end.
