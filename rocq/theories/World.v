(** World.v: one party's stores (state/store/*.go) and the execution of operations against them.

    Two store disciplines are modelled:
    - a serializing store: StoreSession writes [Serialize()], LoadSession deserializes; an operation
      works on its own copy and only its writes are visible ([commit]);
    - a reference store: LoadSession hands out the stored object, so the record the operation
      mutated is visible whatever its result ([run_ref_*] below). *)
From Verif Require Import Base Labels Crypto Ecc Keys X3dh Messages SessionState SessionRecord
  SessionBuilder SessionCipher Address.

(** Contents of the stores: sessions and saved identities by address, one-time and signed prekeys by id,
    own identity and registration id, and the trust policy (IsTrustedIdentity), an arbitrary function of the
    saved identities, the address and the key. *)
Record world : Type := {
  w_sessions : address -> option record;
  w_saved : address -> option arr32;
  w_prekeys : N -> option ec_pair;
  w_signed : N -> option ec_pair;
  w_self : id_pair;
  w_reg : N;
  w_policy : (address -> option arr32) -> address -> arr32 -> bool }.

Definition upd_addr {A} (f : address -> option A) (a : address) (x : option A) : address -> option A :=
  fun b => if address_eqb a b then x else f b.
Definition upd_id {A} (f : N -> option A) (i : N) (x : option A) : N -> option A :=
  fun j => if (i =? j)%N then x else f j.

(** What an operation for address [a] sees: LoadSession of an unknown address yields a new record. *)
Definition view_of (w : world) (a : address) : view :=
  {| v_load := match w_sessions w a with Some r => r | None => new_record end;
     v_contains := match w_sessions w a with Some _ => true | None => false end;
     v_trusted := w_policy w (w_saved w) a;
     v_identity := w_self w; v_reg := w_reg w;
     v_prekey := w_prekeys w; v_signed := w_signed w |}.

(** Serialize then deserialize a record (state/record/session.go:188-197, 46-74); the bytes in between are JSON,
    trusted to be lossless on the structures. *)
Definition persist (r : record) : res record :=
  t <- record_structure r ;; record_from_structure t.

(** One write to a serializing store; [None] when serializing panics. *)
Definition apply_effect (a : address) (e : effect) (w : world) : option world :=
  match e with
  | StoreSession r =>
      match persist r with
      | Ok r' => Some {| w_sessions := upd_addr (w_sessions w) a (Some r'); w_saved := w_saved w;
                         w_prekeys := w_prekeys w; w_signed := w_signed w; w_self := w_self w;
                         w_reg := w_reg w; w_policy := w_policy w |}
      | _ => None
      end
  | SaveIdentity k =>
      Some {| w_sessions := w_sessions w; w_saved := upd_addr (w_saved w) a (Some k);
              w_prekeys := w_prekeys w; w_signed := w_signed w; w_self := w_self w;
              w_reg := w_reg w; w_policy := w_policy w |}
  | RemovePreKey i =>
      Some {| w_sessions := w_sessions w; w_saved := w_saved w;
              w_prekeys := upd_id (w_prekeys w) i None; w_signed := w_signed w; w_self := w_self w;
              w_reg := w_reg w; w_policy := w_policy w |}
  end.

(** The writes of one operation, in order; stops at a serialization panic. *)
Fixpoint commit (a : address) (es : list effect) (w : world) : world * bool :=
  match es with
  | [] => (w, true)
  | e :: rest => match apply_effect a e w with
                 | Some w' => commit a rest w'
                 | None => (w, false)
                 end
  end.

(** A serialization panic inside a store write is a panic of the operation. *)
Definition seal {A} (ok : bool) (r : res A) : res A := if ok then r else Panic.

(** * Operations against a serializing store *)
Section Run.
Context (C : crypto).

Definition w_encrypt (a : address) (pt : bytes) (w : world) : res ct_msg * world :=
  let '(o, _, es) := encrypt C (view_of w a) pt in
  let '(w', ok) := commit a es w in (seal ok o, w').

Definition w_decrypt (a : address) (m : sig_msg) (g : rng) (w : world) : res (bytes * msg_keys) * world * rng :=
  let '(o, _, es, g') := decrypt_and_get_key C (view_of w a) m g in
  let '(w', ok) := commit a es w in (seal ok o, w', g').

Definition w_decrypt_message (a : address) (m : pk_msg) (g : rng) (w : world)
    : res (bytes * msg_keys) * world * rng :=
  let '(o, _, es, g') := decrypt_message C (view_of w a) m g in
  let '(w', ok) := commit a es w in (seal ok o, w', g').

Definition w_process_bundle (a : address) (b : bundle) (g : rng) (w : world) : res unit * world * rng :=
  let '(o, _, es, g') := process_bundle C (view_of w a) b g in
  let '(w', ok) := commit a es w in (seal ok o, w', g').
End Run.

(** * A reference store for one address

    The in-memory store of the test suite keeps the record object itself; a record created by LoadSession
    is kept too. So after the operation the store holds the live record whatever the result was. *)
Section RunRef.
Context (C : crypto).
Definition with_record (v : view) (r : record) : view :=
  {| v_load := r; v_contains := v_contains v; v_trusted := v_trusted v; v_identity := v_identity v;
     v_reg := v_reg v; v_prekey := v_prekey v; v_signed := v_signed v |}.

Definition run_ref_decrypt (v : view) (m : sig_msg) (g : rng) : res (bytes * msg_keys) * view * rng :=
  let '(o, r', _, g') := decrypt_and_get_key C v m g in (o, with_record v r', g').
Definition run_ref_encrypt (v : view) (pt : bytes) : res ct_msg * view :=
  let '(o, r', _) := encrypt C v pt in (o, with_record v r').
End RunRef.
