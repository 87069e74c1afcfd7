(** ManySpec.v: any number of parties, any number of pairwise conversations among them, interleaved at will, each party with one set of stores (C84). Nothing
    here models code; it says what is run and what must come out. *)
From Verif Require Import Base Labels Crypto Ecc Keys X3dh Messages SessionState SessionRecord SessionBuilder
  SessionCipher Address World GroupSpec ConvSpec.

Definition upd_nat {A} (f : nat -> A) (n : nat) (x : A) : nat -> A := fun m => if Nat.eqb n m then x else f m.

(** Who takes part: in conversation [c], party [who c Alice] starts with a bundle of party [who c Bob]; [name n] is the address of party [n]. The bundle
    has the one-time prekey [pid c] with private key [otkey c] and the signed prekey [sid c] with private key [skey c]. *)
Record cast : Type := {
  who : nat -> party -> nat;
  name : nat -> address;
  kit : nat -> bundle;
  pid : nat -> N;
  sid : nat -> N;
  skey : nat -> arr32;
  otkey : nat -> arr32 }.
Definition address_in (T : cast) (c : nat) (p : party) : address := name T (who T c p).

(** * What is run *)

(** The initiator of a conversation processes its bundle; or something happens in it as in ConvSpec.v. *)
Inductive nevent : Type := Begin (c : nat) (g : rng) | Talk (c : nat) (e : cevent).
Inductive nresult : Type := Began (c : nat) (o : res unit) | Got (c : nat) (p : party) (i : nat) (o : res bytes).

Section Run.
Context (C : crypto) (T : cast).
Fixpoint nrun (w : nat -> world) (wire : nat -> party -> list packet) (evs : list nevent) : list nresult :=
  match evs with
  | [] => []
  | Begin c g :: rest =>
      let '(o, w', _) := w_process_bundle C (address_in T c Bob) (kit T c) g (w (who T c Alice)) in
      Began c o :: nrun (upd_nat w (who T c Alice) w') wire rest
  | Talk c (Send p pt) :: rest =>
      if has_session (address_in T c (other p)) (w (who T c p)) then
        match w_encrypt C (address_in T c (other p)) pt (w (who T c p)) with
        | (Ok ct, w') => match pack ct with
                         | Ok k => nrun (upd_nat w (who T c p) w') (upd_nat wire c (upd_party (wire c) p (wire c p ++ [k]))) rest
                         | _ => [Got c p O Panic]
                         end
        | _ => [Got c p O Panic]
        end
      else nrun w wire rest
  | Talk c (Deliver p i g) :: rest =>
      match nth_error (wire c (other p)) i with
      | None => nrun w wire rest
      | Some k =>
          let '(o, w') := receive C (address_in T c (other p)) k g (w (who T c p)) in
          Got c p i o :: nrun (upd_nat w (who T c p) w') wire rest
      end
  end.
End Run.

(** * What must come out

    Each conversation on its own, as ConvSpec.v says; nothing before its bundle is processed. *)
Inductive nverdict : Type := Begins (c : nat) | Gets (c : nat) (p : party) (i : nat) (x : verdict).
Definition cstate : Type := (party -> pview) * (party -> list (nat * N * bytes)).

Fixpoint nspec (st : nat -> option cstate) (evs : list nevent) : list nverdict :=
  match evs with
  | [] => []
  | Begin c _ :: rest => Begins c :: nspec (upd_nat st c (Some (start_view, fun _ => []))) rest
  | Talk c (Send p pt) :: rest =>
      match st c with
      | None => nspec st rest
      | Some (v, sent) =>
          match pv_epoch (v p) with
          | O => nspec st rest
          | S _ => nspec (upd_nat st c (Some
              (upd_party v p {| pv_epoch := pv_epoch (v p); pv_count := pv_count (v p) + 1; pv_chains := pv_chains (v p) |},
               upd_party sent p (sent p ++ [(pv_epoch (v p), pv_count (v p), pt)])))) rest
          end
      end
  | Talk c (Deliver p i _) :: rest =>
      match st c with
      | None => nspec st rest
      | Some (v, sent) =>
          match nth_error (sent (other p)) i with
          | None => nspec st rest
          | Some (e, n, pt) => let '(x, v') := cdeliver (v p) e n pt in Gets c p i x :: nspec (upd_nat st c (Some (upd_party v p v', sent))) rest
          end
      end
  end.

(** As prescribed, up to a message of a forgotten chain being accepted somewhere (a collision of MACs, as in ConvSpec.v). *)
Inductive nconforms : list nresult -> list nverdict -> Prop :=
| NC_nil : nconforms [] []
| NC_begins : forall c o x, nconforms o x -> nconforms (Began c (Ok tt) :: o) (Begins c :: x)
| NC_plain : forall c p i pt o x, nconforms o x -> nconforms (Got c p i (Ok pt) :: o) (Gets c p i (Plain pt) :: x)
| NC_refused : forall c p i e o x, nconforms o x -> nconforms (Got c p i (Err e) :: o) (Gets c p i Refused :: x)
| NC_forgotten : forall c p i e o x, nconforms o x -> nconforms (Got c p i (Err e) :: o) (Gets c p i Forgotten :: x)
| NC_collision : forall c p i pt o x, nconforms (Got c p i (Ok pt) :: o) (Gets c p i Forgotten :: x).

(** * Hypotheses *)

Definition begun (evs : list nevent) : list nat := flat_map (fun e => match e with Begin c _ => [c] | Talk _ _ => [] end) evs.
(** What happens in conversation [c]. *)
Definition talk_of (c : nat) (evs : list nevent) : list cevent := flat_map (fun e => match e with Talk d x => if Nat.eqb c d then [x] else [] | Begin _ _ => [] end) evs.
(** From its beginning on. *)
Fixpoint after_begin (c : nat) (evs : list nevent) : list nevent :=
  match evs with
  | [] => []
  | Begin d g :: rest => if Nat.eqb c d then rest else after_begin c rest
  | Talk _ _ :: rest => after_begin c rest
  end.
Definition conversation_of (e : nevent) : nat := match e with Begin c _ => c | Talk c _ => c end.

(** [n] conversations: different parties have different addresses; nobody talks to himself; between two parties there is one conversation only; the bundles
    of one party have different one-time prekeys. In each conversation the two are strangers (ConvSpec.v), the initiator trusts the identity key in the
    bundle and its signature is valid. *)
Record well_cast (C : crypto) (T : cast) (n : nat) (w : nat -> world) : Prop := {
  wc_name : forall i j, name T i = name T j -> i = j;
  wc_two : forall c, (c < n)%nat -> who T c Alice <> who T c Bob;
  wc_pair : forall c d p q, (c < n)%nat -> (d < n)%nat -> who T c p = who T d q -> who T c (other p) = who T d (other q) -> c = d;
  wc_prekeys : forall c d, (c < n)%nat -> (d < n)%nat -> who T c Bob = who T d Bob -> pid T c = pid T d -> c = d;
  wc_strangers : forall c, (c < n)%nat -> strangers C (address_in T c) (w (who T c Alice)) (w (who T c Bob)) (kit T c) (pid T c) (sid T c) (skey T c) (otkey T c);
  wc_trust : forall c saved, (c < n)%nat -> w_policy (w (who T c Alice)) saved (address_in T c Bob) (b_identity (kit T c)) = true;
  wc_signature : forall c, (c < n)%nat -> verify_signature C (b_identity (kit T c)) (ser_pub (x_base C (skey T c))) (b_sig (kit T c)) = true }.

(** Each conversation begins at most once, with a working source of randomness, and is [fair] as in ConvSpec.v. *)
Definition fair_all (C : crypto) (T : cast) (n : nat) (evs : list nevent) : Prop :=
  NoDup (begun evs) /\ Forall (fun e => (conversation_of e < n)%nat) evs /\
  forall c g, In (Begin c g) evs -> exists eph g1 ratchet g2,
    generate_key_pair C g = (Ok eph, g1) /\ generate_key_pair C g1 = (Ok ratchet, g2) /\ fair C (skey T c) ratchet (talk_of c evs).

(** The results and verdicts of conversation [c]. *)
Definition results_of (c : nat) (o : list nresult) : list (party * nat * res bytes) :=
  flat_map (fun y => match y with Got d p i r => if Nat.eqb c d then [(p, i, r)] else [] | Began _ _ => [] end) o.
Definition verdicts_of (c : nat) (x : list nverdict) : list (party * nat * verdict) :=
  flat_map (fun y => match y with Gets d p i r => if Nat.eqb c d then [(p, i, r)] else [] | Begins _ => [] end) x.
(** No message of a forgotten chain is delivered. *)
Definition ntame (x : list nverdict) : Prop := forall c p i, ~ In (Gets c p i Forgotten) x.
(** The events of conversation [c] alone. *)
Definition only (c : nat) (evs : list nevent) : list nevent := filter (fun e => Nat.eqb c (conversation_of e)) evs.
(** What the deliveries of conversation [c] returned. *)
Definition read_in (c : nat) (o : list nresult) : list (party * nat * option bytes) :=
  map (fun y => match y with (p, i, Ok pt) => (p, i, Some pt) | (p, i, _) => (p, i, None) end) (results_of c o).
