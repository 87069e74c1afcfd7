(** JointSpec.v: groups set up over pairwise sessions (C86): the application sends the distribution messages of SenderKey groups as plaintexts in the pairwise
    conversations, next to ordinary text. Nothing here models code; it says what is run and what must come out. *)
From Verif Require Import Base Labels Crypto Bytehelper Ecc Keys X3dh Messages SessionState SessionRecord SessionBuilder
  SessionCipher Group Address World GroupSpec ConvSpec ManySpec GroupConvSpec.

(** What an application puts into a pairwise message: text, or a distribution message for a group. How it writes that as bytes is its affair. *)
Inductive content : Type := Text (t : bytes) | Invitation (gid : bytes) (d : bytes).
Record framing : Type := { wrap : content -> bytes; unwrap : bytes -> option content; unwrap_wrap : forall x, unwrap (wrap x) = Some x }.

Inductive jevent : Type :=
| JBegin (c : nat) (g : rng)                              (* conversation [c] begins, as in ManySpec.v *)
| JSay (c : nat) (p : party) (t : bytes)                  (* a text is sent in conversation [c] *)
| JInvite (c : nat) (p : party) (gid : bytes) (k : nat)   (* [p] sends the [k]-th distribution message it made for the group in conversation [c] *)
| JDeliver (c : nat) (p : party) (i : nat) (g : rng)      (* the other's [i]-th packet reaches [p]; an invitation is processed at once *)
| JGroup (e : mevent).                                    (* something happens in the groups, as in GroupConvSpec.v *)

(** What a delivery gives: the content read, [Ok None] if the plaintext is not of the application's making. *)
Inductive jresult : Type := JBegan (c : nat) (o : res unit) | JGot (c : nat) (p : party) (i : nat) (o : res (option content)) | JHeard (o : res bytes).

(** * What is run *)

Section Run.
Context (C : crypto) (F : framing) (T : cast).

(** [send_in]: Encrypt and put the packet on the wire; [None] if that fails. Nothing happens without a session, as in ConvSpec.v. *)
Definition send_in (c : nat) (p : party) (pt : bytes) (w : nat -> world) (wire : nat -> party -> list packet) : option ((nat -> world) * (nat -> party -> list packet)) :=
  if has_session (address_in T c (other p)) (w (who T c p)) then
    match w_encrypt C (address_in T c (other p)) pt (w (who T c p)) with
    | (Ok ct, w') => match pack ct with
                     | Ok k => Some (upd_nat w (who T c p) w', upd_nat wire c (upd_party (wire c) p (wire c p ++ [k])))
                     | _ => None
                     end
    | _ => None
    end
  else Some (w, wire).

(** The member [who c p] handles the plaintext [pt] it got from [who c (other p)]. *)
Definition handle (c : nat) (p : party) (pt : bytes) (n : network) : res (option content) * network :=
  match unwrap F pt with
  | None => (Ok None, n)
  | Some (Text t) => (Ok (Some (Text t)), n)
  | Some (Invitation gid b) =>
      let ch := (gid, who T c (other p)) in
      match skd_from_bytes b with
      | Ok d => (Ok (Some (Invitation gid b)), write (name T) (who T c p) ch (gw_process d (n_store n (who T c p) (name_of (name T) ch))) n)
      | Err _ => (Ok None, n)
      | Panic => (Panic, n)
      end
  end.

Fixpoint jrun (w : nat -> world) (wire : nat -> party -> list packet) (n : network) (evs : list jevent) : list jresult :=
  match evs with
  | [] => []
  | JBegin c g :: rest =>
      let '(o, w', _) := w_process_bundle C (address_in T c Bob) (kit T c) g (w (who T c Alice)) in
      JBegan c o :: jrun (upd_nat w (who T c Alice) w') wire n rest
  | JSay c p t :: rest =>
      match send_in c p (wrap F (Text t)) w wire with Some (w', wire') => jrun w' wire' n rest | None => [JGot c p O Panic] end
  | JInvite c p gid k :: rest =>
      match nth_error (n_dist n (gid, who T c p)) k with
      | None => jrun w wire n rest
      | Some b => match send_in c p (wrap F (Invitation gid b)) w wire with Some (w', wire') => jrun w' wire' n rest | None => [JGot c p O Panic] end
      end
  | JDeliver c p i g :: rest =>
      match nth_error (wire c (other p)) i with
      | None => jrun w wire n rest
      | Some k =>
          let '(o, w') := receive C (address_in T c (other p)) k g (w (who T c p)) in
          let '(r, n') := match o with Ok pt => handle c p pt n | Err e => (Err e, n) | Panic => (Panic, n) end in
          JGot c p i r :: jrun (upd_nat w (who T c p) w') wire n' rest
      end
  | JGroup e :: rest => let '(o, n') := mstep C (name T) e n in map JHeard o ++ jrun w wire n' rest
  end.
End Run.

(** * What must come out

    Each conversation as ConvSpec.v says, its messages being texts and references to distribution messages; the groups as GroupConvSpec.v says, where a member
    joins when it reads an invitation. *)
Inductive note : Type := NText (t : bytes) | NInvite (gid : bytes) (k : nat).
Inductive jverdict : Type :=
| JBegins (c : nat)
| JReads (c : nat) (p : party) (i : nat) (x : note)   (* the content of the message, whatever happened in between *)
| JRefuses (c : nat) (p : party) (i : nat)
| JForgets (c : nat) (p : party) (i : nat)            (* a message of a forgotten chain, as in ConvSpec.v *)
| JHears (x : expected).
Definition jcstate : Type := (party -> pview) * (party -> list (nat * N * note)).

Section Spec.
Context (T : cast).
Definition note_in (c : nat) (p : party) (x : note) (st : nat -> option jcstate) : nat -> option jcstate :=
  match st c with
  | None => st
  | Some (v, sent) =>
      match pv_epoch (v p) with
      | O => st
      | S _ => upd_nat st c (Some
          (upd_party v p {| pv_epoch := pv_epoch (v p); pv_count := pv_count (v p) + 1; pv_chains := pv_chains (v p) |},
           upd_party sent p (sent p ++ [(pv_epoch (v p), pv_count (v p), x)])))
      end
  end.

Fixpoint jspec (st : nat -> option jcstate) (m : channel -> chan_view) (evs : list jevent) : list jverdict :=
  match evs with
  | [] => []
  | JBegin c _ :: rest => JBegins c :: jspec (upd_nat st c (Some (start_view, fun _ => []))) m rest
  | JSay c p t :: rest => jspec (note_in c p (NText t) st) m rest
  | JInvite c p gid k :: rest =>
      match nth_error (cv_dist (m (gid, who T c p))) k with None => jspec st m rest | Some _ => jspec (note_in c p (NInvite gid k) st) m rest end
  | JDeliver c p i _ :: rest =>
      match st c with
      | None => jspec st m rest
      | Some (v, sent) =>
          match nth_error (sent (other p)) i with
          | None => jspec st m rest
          | Some (e, n, x) =>
              let '(y, v') := cdeliver (v p) e n [] in
              let st' := upd_nat st c (Some (upd_party v p v', sent)) in
              match y with
              | Refused => JRefuses c p i :: jspec st' m rest
              | Forgotten => JForgets c p i :: jspec st' m rest
              | Plain _ => JReads c p i x ::
                  jspec st' (match x with NText _ => m | NInvite gid k => snd (rstep (MJoin (gid, who T c (other p)) (who T c p) k) m) end) rest
              end
          end
      end
  | JGroup e :: rest => let '(o, m') := rstep e m in map JHears o ++ jspec st m' rest
  end.
End Spec.

(** As prescribed, up to a collision of MACs (ConvSpec.v) or an accepted injected group message (GroupConvSpec.v). *)
Inductive jconforms : list jresult -> list jverdict -> Prop :=
| JC_nil : jconforms [] []
| JC_begins : forall c o x, jconforms o x -> jconforms (JBegan c (Ok tt) :: o) (JBegins c :: x)
| JC_text : forall c p i t o x, jconforms o x -> jconforms (JGot c p i (Ok (Some (Text t))) :: o) (JReads c p i (NText t) :: x)
| JC_invited : forall c p i gid b k o x, jconforms o x -> jconforms (JGot c p i (Ok (Some (Invitation gid b))) :: o) (JReads c p i (NInvite gid k) :: x)
| JC_refused : forall c p i e o x, jconforms o x -> jconforms (JGot c p i (Err e) :: o) (JRefuses c p i :: x)
| JC_forgotten : forall c p i e o x, jconforms o x -> jconforms (JGot c p i (Err e) :: o) (JForgets c p i :: x)
| JC_collision : forall c p i r o x, (forall e, r <> Err e) -> jconforms (JGot c p i r :: o) (JForgets c p i :: x)
| JC_heard : forall r y o x, meets r y -> jconforms o x -> jconforms (JHeard r :: o) (JHears y :: x)
| JC_forged : forall pt o x, jconforms (JHeard (Ok pt) :: o) (JHears EInjected :: x).

(** * Hypotheses *)

Definition group_events (evs : list jevent) : list mevent := flat_map (fun e => match e with JGroup x => [x] | _ => [] end) evs.
(** What happens in the conversations, but for the bytes of the invitations. *)
Definition pair_events (F : framing) (evs : list jevent) : list nevent :=
  flat_map (fun e => match e with
                     | JBegin c g => [Begin c g]
                     | JSay c p t => [Talk c (Send p (wrap F (Text t)))]
                     | JInvite c p _ _ => [Talk c (Send p [])]
                     | JDeliver c p i g => [Talk c (Deliver p i g)]
                     | JGroup _ => []
                     end) evs.
(** Invitations read. *)
Definition invited (x : list jverdict) : nat := length (filter (fun y => match y with JReads _ _ _ (NInvite _ _) => true | _ => false end) x).

(** The conversations are fair as in ManySpec.v, the groups proper as in GroupConvSpec.v, and the invitations fit in memory (a distribution message has less
    than 100 bytes). *)
Definition jfair (C : crypto) (F : framing) (T : cast) (n : nat) (evs : list jevent) : Prop :=
  fair_all C T n (pair_events F evs) /\ Forall (proper C) (group_events evs) /\ (N.of_nat (sends_in (group_events evs)) < 4294967296)%N /\
  (joins_in (group_events evs) + invited (jspec T (fun _ => None) (fun _ => fresh_chan) evs) < 2000)%nat /\
  forall c p gid k b, In (JInvite c p gid k) evs -> (length b < 100)%nat -> (N.of_nat (length (wrap F (Invitation gid b))) + 200 < 9223372036854775808)%N.

(** The deliveries of conversation [c] that gave a content. *)
Definition contents_of (c : nat) (o : list jresult) : list (party * nat) :=
  flat_map (fun y => match y with JGot d p i (Ok _) => if Nat.eqb c d then [(p, i)] else [] | _ => [] end) o.
(** No message of a forgotten chain is delivered. *)
Definition jtame (x : list jverdict) : Prop := forall c p i, ~ In (JForgets c p i) x.
(** What the deliveries in the groups gave. *)
Definition heard (o : list jresult) : list (res bytes) := flat_map (fun y => match y with JHeard r => [r] | _ => [] end) o.
Definition hears (x : list jverdict) : list expected := flat_map (fun y => match y with JHears r => [r] | _ => [] end) x.
