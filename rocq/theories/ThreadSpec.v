(** ThreadSpec.v: calls running at the same time on the same stores (C65).

    The code has no locks. A thread runs public calls for one remote address, one after the other; a call first makes
    its reads of the stores, each at its own moment and in any order, then computes, then makes its writes one at
    a time. Between any two such accesses other threads may run. (In the code the reads of Encrypt,
    Decrypt, DecryptMessage and ProcessBundle whose answers matter all precede their writes: session/cipher.go:65-184,
    session/session.go:83-275; the order of the reads is left open here.) *)
From Verif Require Import Base Labels Crypto Ecc Keys X3dh Messages SessionState SessionRecord SessionBuilder
  SessionCipher Address World ConvSpec.

(** A public call: Encrypt, parse and Decrypt/DecryptMessage of a packet, ProcessBundle. *)
Inductive call : Type :=
| DoEncrypt (pt : bytes)
| DoReceive (k : packet) (g : rng)
| DoBundle (b : bundle) (g : rng).

Inductive answer : Type := ACipher (ct : ct_msg) | APlain (pt : bytes) | ADone.

Definition map_res {A B} (f : A -> B) (o : res A) : res B := match o with Ok x => Ok (f x) | Err e => Err e | Panic => Panic end.

Section Run.
Context (C : crypto).

(** * One call after the other: what the calls do when nothing else runs *)
Definition call_alone (a : address) (c : call) (w : world) : res answer * world :=
  match c with
  | DoEncrypt pt => let '(o, w') := w_encrypt C a pt w in (map_res ACipher o, w')
  | DoReceive k g => let '(o, w') := receive C a k g w in (map_res APlain o, w')
  | DoBundle b g => let '(o, w', _) := w_process_bundle C a b g w in (map_res (fun _ => ADone) o, w')
  end.

Fixpoint alone (a : address) (l : list call) (w : world) : list (res answer) * world :=
  match l with
  | [] => ([], w)
  | c :: rest => let '(o, w1) := call_alone a c w in let '(os, w2) := alone a rest w1 in (o :: os, w2)
  end.

(** * Interleaved *)

(** The result and the writes of a call whose reads answered [v] (the functions of SessionCipher.v and
    SessionBuilder.v). *)
Definition run_call (v : view) (c : call) : res answer * list effect :=
  match c with
  | DoEncrypt pt => let '(o, _, es) := encrypt C v pt in (map_res ACipher o, es)
  | DoReceive (PSignal b) g =>
      match sig_from_bytes b with
      | Ok m => let '(o, _, es, _) := decrypt_and_get_key C v m g in (map_res APlain (plain o), es)
      | Err e => (Err e, [])
      | Panic => (Panic, [])
      end
  | DoReceive (PPreKey b) g =>
      match pk_from_bytes b with
      | Ok m => let '(o, _, es, _) := decrypt_message C v m g in (map_res APlain (plain o), es)
      | Err e => (Err e, [])
      | Panic => (Panic, [])
      end
  | DoBundle b g => let '(o, _, es, _) := process_bundle C v b g in (map_res (fun _ => ADone) o, es)
  end.

(** What a call has read so far: LoadSession, ContainsSession, IsTrustedIdentity, LoadSignedPreKey, LoadPreKey. *)
Record captured : Type := {
  c_session : option record;
  c_contains : option bool;
  c_trust : option (arr32 -> bool);
  c_signed : option (N -> option ec_pair);
  c_prekey : option (N -> option ec_pair) }.
Definition nothing : captured := {| c_session := None; c_contains := None; c_trust := None; c_signed := None; c_prekey := None |}.

Inductive phase : Type :=
| Idle
| Reading (c : call) (k : captured)
| Writing (o : res answer) (es : list effect).

Record thread : Type := { th_addr : address; th_todo : list call; th_phase : phase; th_outs : list (res answer) }.

Inductive field : Type := FSession | FContains | FTrust | FSigned | FPrekey.

Definition first {A} (x : option A) (y : A) : option A := match x with Some _ => x | None => Some y end.

(** One read. *)
Definition capture (a : address) (f : field) (w : world) (k : captured) : captured :=
  let v := view_of w a in
  {| c_session := match f with FSession => first (c_session k) (v_load v) | _ => c_session k end;
     c_contains := match f with FContains => first (c_contains k) (v_contains v) | _ => c_contains k end;
     c_trust := match f with FTrust => first (c_trust k) (v_trusted v) | _ => c_trust k end;
     c_signed := match f with FSigned => first (c_signed k) (v_signed v) | _ => c_signed k end;
     c_prekey := match f with FPrekey => first (c_prekey k) (v_prekey v) | _ => c_prekey k end |}.

(** One access of a thread: start the next call, read a store, compute when everything has been read, make the next
    write (a panic while serializing ends the call), or return. *)
Definition advance (f : field) (w : world) (t : thread) : world * thread :=
  let with_phase p := {| th_addr := th_addr t; th_todo := th_todo t; th_phase := p; th_outs := th_outs t |} in
  match th_phase t with
  | Idle =>
      match th_todo t with
      | [] => (w, t)
      | c :: rest => (w, {| th_addr := th_addr t; th_todo := rest; th_phase := Reading c nothing; th_outs := th_outs t |})
      end
  | Reading c k =>
      match c_session k, c_contains k, c_trust k, c_signed k, c_prekey k with
      | Some r, Some b, Some tr, Some sg, Some pk =>
          let '(o, es) := run_call {| v_load := r; v_contains := b; v_trusted := tr; v_identity := w_self w; v_reg := w_reg w;
                                      v_prekey := pk; v_signed := sg |} c in
          (w, with_phase (Writing o es))
      | _, _, _, _, _ => (w, with_phase (Reading c (capture (th_addr t) f w k)))
      end
  | Writing o [] => (w, {| th_addr := th_addr t; th_todo := th_todo t; th_phase := Idle; th_outs := th_outs t ++ [o] |})
  | Writing o (e :: es) =>
      match apply_effect (th_addr t) e w with
      | Some w' => (w', with_phase (Writing o es))
      | None => (w, with_phase (Writing Panic []))
      end
  end.

Fixpoint replace {A} (i : nat) (x : A) (l : list A) : list A :=
  match l, i with
  | [], _ => []
  | _ :: r, O => x :: r
  | y :: r, S j => y :: replace j x r
  end.

(** A schedule: which thread makes the next access (and, when it is a read, of which store). *)
Fixpoint interleave (sched : list (nat * field)) (w : world) (ts : list thread) : world * list thread :=
  match sched with
  | [] => (w, ts)
  | (i, f) :: rest =>
      match nth_error ts i with
      | None => interleave rest w ts
      | Some t => let '(w', t') := advance f w t in interleave rest w' (replace i t' ts)
      end
  end.

Definition launch (p : address * list call) : thread := {| th_addr := fst p; th_todo := snd p; th_phase := Idle; th_outs := [] |}.
Definition finished (t : thread) : Prop := th_todo t = [] /\ th_phase t = Idle.

(** The one-time prekey named by the packet of a call. *)
Definition names (c : call) (n : N) : Prop :=
  exists b g m o, c = DoReceive (PPreKey b) g /\ pk_from_bytes b = Ok m /\ pk_prekey_id (pm_struct m) = Some o /\ ou_value o = n.
End Run.

(** The trust decision about an address depends only on what is saved for it. *)
Definition local_trust (w : world) : Prop := forall a s s' k, s a = s' a -> w_policy w s a k = w_policy w s' a k.

(** The one-time prekeys named in a program. *)
Definition uses (prog : list call) (n : N) : Prop := exists c, In c prog /\ names c n.

(** The threads work for different addresses, and no two of them receive messages naming the same one-time prekey. *)
Definition apart (ps : list (address * list call)) : Prop :=
  forall i j p q, i <> j -> nth_error ps i = Some p -> nth_error ps j = Some q ->
  fst p <> fst q /\ forall c d n, In c (snd p) -> In d (snd q) -> names c n -> ~ names d n.
