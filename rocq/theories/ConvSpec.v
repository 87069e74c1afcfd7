(** ConvSpec.v: two parties talking through the wire, any schedule, and the reference behaviour of their
    deliveries. Nothing here models code; it says what is run and what must come out (C05, C06). *)
From Verif Require Import Base Labels Crypto Ecc Keys X3dh Messages SessionState SessionRecord SessionBuilder
  SessionCipher Address World GroupSpec.

Inductive party : Type := Alice | Bob.
Definition other (p : party) : party := match p with Alice => Bob | Bob => Alice end.
Definition party_eqb (p q : party) : bool := match p, q with Alice, Alice | Bob, Bob => true | _, _ => false end.
Definition upd_party {A} (f : party -> A) (p : party) (x : A) : party -> A := fun q => if party_eqb p q then x else f q.

(** * Schedules

    A party encrypts a plaintext for the other one, or the network delivers to party [p] a copy of the [i]-th
    message the other one sent ([g] is the randomness available to that Decrypt). Losing a message is not
    delivering it; duplication and reordering are other choices of [i]. *)
Inductive cevent : Type :=
| Send (p : party) (pt : bytes)
| Deliver (p : party) (i : nat) (g : rng).

(** * What the code does *)

(** A packet: the message type (CiphertextMessage.Type) and the serialized bytes. *)
Inductive packet : Type := PSignal (b : bytes) | PPreKey (b : bytes).
Definition pack (ct : ct_msg) : res packet :=
  match ct with
  | CSignal m => Ok (PSignal (sig_msg_bytes m))
  | CPreKey m => b <- pk_msg_bytes m ;; Ok (PPreKey b)
  end.

Definition plain {A B} (o : res (A * B)) : res A :=
  match o with Ok (x, _) => Ok x | Err e => Err e | Panic => Panic end.

Section Run.
Context (C : crypto).

(** Parse the packet and hand it to Decrypt or DecryptMessage of the session cipher for address [a]. *)
Definition receive (a : address) (k : packet) (g : rng) (w : world) : res bytes * world :=
  match k with
  | PSignal b => match sig_from_bytes b with
                 | Ok m => let '(o, w', _) := w_decrypt C a m g w in (plain o, w')
                 | Err e => (Err e, w)
                 | Panic => (Panic, w)
                 end
  | PPreKey b => match pk_from_bytes b with
                 | Ok m => let '(o, w', _) := w_decrypt_message C a m g w in (plain o, w')
                 | Err e => (Err e, w)
                 | Panic => (Panic, w)
                 end
  end.

Definition has_session (a : address) (w : world) : bool := match w_sessions w a with Some _ => true | None => false end.

(** The results of the deliveries, each with the receiving party and the index of the message. [addr p] is the
    address under which the other party knows [p]. Bob sends nothing before he has a session (ContainsSession).
    A failing Encrypt would end the run with a [Panic] that no reference output matches. *)
Fixpoint crun (addr : party -> address) (w : party -> world) (wire : party -> list packet) (evs : list cevent)
    : list (party * nat * res bytes) :=
  match evs with
  | [] => []
  | Send p pt :: rest =>
      if has_session (addr (other p)) (w p) then
        match w_encrypt C (addr (other p)) pt (w p) with
        | (Ok ct, w') => match pack ct with
                         | Ok k => crun addr (upd_party w p w') (upd_party wire p (wire p ++ [k])) rest
                         | _ => [(p, O, Panic)]
                         end
        | _ => [(p, O, Panic)]
        end
      else crun addr w wire rest
  | Deliver p i g :: rest =>
      match nth_error (wire (other p)) i with
      | None => crun addr w wire rest
      | Some k => let '(o, w') := receive (addr (other p)) k g (w p) in (p, i, o) :: crun addr (upd_party w p w') wire rest
      end
  end.
End Run.

(** * What must come out

    Sending chains are numbered by epoch: Alice sends in odd epochs, Bob in even ones. Epoch 0 is Bob's signed
    prekey, epoch 1 the first chain of Alice. A party that accepts a message of the next epoch of the other one
    starts its own next epoch. *)

(** One receiving chain: the next expected counter and the skipped counters still readable, oldest first. *)
Record cview : Type := { cv_epoch : nat; cv_next : N; cv_kept : list N }.
(** One party: its sending epoch, the counter of its next message, the chains it can receive on, oldest first. *)
Record pview : Type := { pv_epoch : nat; pv_count : N; pv_chains : list cview }.

(** A counter is accepted when it was skipped and is kept, or when it is new and at most 5000 ahead; the latest
    2000 skipped counters are kept. *)
Definition caccept (c : cview) (n : N) : option cview :=
  if (n <? cv_next c)%N then
    if existsb (N.eqb n) (cv_kept c)
    then Some {| cv_epoch := cv_epoch c; cv_next := cv_next c; cv_kept := filter (fun k => negb (k =? n)%N) (cv_kept c) |}
    else None
  else if (5000 <? n - cv_next c)%N then None
  else Some {| cv_epoch := cv_epoch c; cv_next := n + 1;
               cv_kept := last_n (N.to_nat 2000) (cv_kept c ++ n_range (cv_next c) (N.to_nat (n - cv_next c))) |}.

Definition cfind (e : nat) (l : list cview) : option cview := find (fun c => Nat.eqb (cv_epoch c) e) l.
Definition creplace (c' : cview) (l : list cview) : list cview :=
  map (fun c => if Nat.eqb (cv_epoch c) (cv_epoch c') then c' else c) l.

(** [Plain pt]: decrypts to [pt]; [Refused]: an error; [Forgotten]: the message belongs to a chain that is no
    longer among the last five. The code then derives unrelated keys for it, so only a collision of the 8-byte
    MAC could make it accept. *)
Inductive verdict : Type := Plain (pt : bytes) | Refused | Forgotten.

Definition cdeliver (v : pview) (e : nat) (n : N) (pt : bytes) : verdict * pview :=
  match cfind e (pv_chains v) with
  | Some c => match caccept c n with
              | Some c' => (Plain pt, {| pv_epoch := pv_epoch v; pv_count := pv_count v; pv_chains := creplace c' (pv_chains v) |})
              | None => (Refused, v)
              end
  | None =>
      if Nat.eqb e (S (pv_epoch v)) then
        match caccept {| cv_epoch := e; cv_next := 0; cv_kept := [] |} n with
        | Some c' => (Plain pt, {| pv_epoch := S e; pv_count := 0; pv_chains := last_n 5 (pv_chains v ++ [c']) |})
        | None => (Refused, v)
        end
      else (Forgotten, v)
  end.

(** A sent message: epoch, counter, plaintext. Epoch 0 of Bob stands for having no session. *)
Fixpoint cspec (v : party -> pview) (sent : party -> list (nat * N * bytes)) (evs : list cevent)
    : list (party * nat * verdict) :=
  match evs with
  | [] => []
  | Send p pt :: rest =>
      match pv_epoch (v p) with
      | O => cspec v sent rest
      | S _ => cspec (upd_party v p {| pv_epoch := pv_epoch (v p); pv_count := pv_count (v p) + 1; pv_chains := pv_chains (v p) |})
                     (upd_party sent p (sent p ++ [(pv_epoch (v p), pv_count (v p), pt)])) rest
      end
  | Deliver p i _ :: rest =>
      match nth_error (sent (other p)) i with
      | None => cspec v sent rest
      | Some (e, n, pt) => let '(x, v') := cdeliver (v p) e n pt in (p, i, x) :: cspec (upd_party v p v') sent rest
      end
  end.

(** After ProcessBundle: Alice sends in epoch 1 and could receive on Bob's signed prekey. *)
Definition start_view (p : party) : pview :=
  match p with
  | Alice => {| pv_epoch := 1; pv_count := 0; pv_chains := [{| cv_epoch := 0; cv_next := 0; cv_kept := [] |}] |}
  | Bob => {| pv_epoch := 0; pv_count := 0; pv_chains := [] |}
  end.

(** The observed results agree with the reference, up to a message of a forgotten chain being accepted; nothing
    is claimed from there on. *)
Inductive conforms : list (party * nat * res bytes) -> list (party * nat * verdict) -> Prop :=
| Conf_nil : conforms [] []
| Conf_plain : forall p i pt o x, conforms o x -> conforms ((p, i, Ok pt) :: o) ((p, i, Plain pt) :: x)
| Conf_refused : forall p i e o x, conforms o x -> conforms ((p, i, Err e) :: o) ((p, i, Refused) :: x)
| Conf_forgotten : forall p i e o x, conforms o x -> conforms ((p, i, Err e) :: o) ((p, i, Forgotten) :: x)
| Conf_collision : forall p i pt o x, conforms ((p, i, Ok pt) :: o) ((p, i, Forgotten) :: x).

(** The deliveries that returned a plaintext. *)
Definition accepted (o : list (party * nat * res bytes)) : list (party * nat) :=
  flat_map (fun y => match y with (p, i, Ok _) => [(p, i)] | _ => [] end) o.

(** The indices delivered to [p], in order. *)
Definition delivered {A} (p : party) (o : list (party * nat * A)) : list nat :=
  flat_map (fun y => match y with (q, i, _) => if party_eqb p q then [i] else [] end) o.

(** * Hypotheses on a schedule *)

(** The ratchet key pair a Decrypt with randomness [g] would generate. *)
Definition new_pub (C : crypto) (g : rng) : option arr32 :=
  match fst (generate_key_pair C g) with Ok p => Some (kp_pub p) | _ => None end.
Definition delivery_rngs (evs : list cevent) : list rng :=
  flat_map (fun e => match e with Deliver _ _ g => [g] | Send _ _ => [] end) evs.
Definition plaintexts (evs : list cevent) : list bytes :=
  flat_map (fun e => match e with Send _ pt => [pt] | Deliver _ _ _ => [] end) evs.

(** * The parties before the first message *)

(** Neither has a session; Bob keeps one-time prekey [i] and signed prekey [sid] whose public halves are in the
    bundle, and trusts Alice's identity key; identity public keys belong to the private ones. *)
Record strangers (C : crypto) (addr : party -> address) (wa wb : world) (b : bundle) (i sid : N) (signed otk : arr32) : Prop := {
  st_alice : ip_pub (w_self wa) = x_base C (ip_priv (w_self wa));
  st_bob : ip_pub (w_self wb) = x_base C (ip_priv (w_self wb));
  st_no_alice : w_sessions wa (addr Bob) = None;
  st_no_bob : w_sessions wb (addr Alice) = None;
  st_trust : forall saved, w_policy wb saved (addr Alice) (ip_pub (w_self wa)) = true;
  st_reg : (w_reg wa < 2 ^ 32)%N;
  st_i : (i < 2 ^ 32)%N;
  st_i_max : i <> 16777215%N;
  st_sid : (sid < 2 ^ 32)%N;
  st_prekey : w_prekeys wb i = Some (pair_of C otk);
  st_signed : w_signed wb sid = Some (pair_of C signed);
  st_b_id : b_prekey_id b = Some (ou_some i);
  st_b_prekey : b_prekey b = Some (x_base C otk);
  st_b_sid : b_signed_id b = sid;
  st_b_signed : b_signed b = Some (x_base C signed);
  st_b_identity : b_identity b = ip_pub (w_self wb) }.

(** Every delivery has a working source of randomness, all ratchet keys are different, and no counter or length
    comes near its machine bound. [ratchet] is the second key pair ProcessBundle generated. *)
Definition fair (C : crypto) (signed : arr32) (ratchet : ec_pair) (evs : list cevent) : Prop :=
  NoDup (Some (x_base C signed) :: Some (kp_pub ratchet) :: map (new_pub C) (delivery_rngs evs)) /\
  (forall g, In g (delivery_rngs evs) -> new_pub C g <> None) /\
  (N.of_nat (length (plaintexts evs)) < 4294967295)%N /\
  (forall pt, In pt (plaintexts evs) -> (N.of_nat (length pt) + 200 < 9223372036854775808)%N).

Definition both (wa wb : world) (p : party) : world := match p with Alice => wa | Bob => wb end.

(** * Matching sessions

    Each party's session names the other's identity key, both carry the same base key, Bob can receive on the
    chain Alice sends on and holds the same chain key for it, and when Alice ratchets on Bob's current ratchet
    key she derives Bob's root key and the chain key of Bob's sending chain. *)
Definition matching (C : crypto) (sa sb : state) : Prop :=
  s_local_id sa = s_remote_id sb /\ s_remote_id sa = s_local_id sb /\ s_base sa = s_base sb /\
  exists ca cb ra rb rc, s_sender sa = Some ca /\ s_root sa = Some ra /\ s_sender sb = Some cb /\ s_root sb = Some rb /\
    receiver_chain (kp_pub (ch_pair ca)) sb = Some rc /\ ch_key rc = ch_key ca /\
    create_chain C ra (kp_pub (ch_pair cb)) (ch_pair ca) = Ok {| sk_root := rb; sk_chain := ch_key cb |}.
