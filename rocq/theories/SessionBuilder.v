(** SessionBuilder.v: session/session.go, keys/prekey/bundle.go.

    An operation runs for one remote address. It reads a [view] of the stores and returns, besides its
    result, the live (mutated) session record it worked on and the ordered list of store writes it made.
    A store that hands out copies sees only the writes; a store that hands out the live object also sees
    the mutated record, whatever the result. *)
From Verif Require Import Base Labels Crypto Ecc Keys X3dh Messages SessionState SessionRecord.

(** What an operation can read from the stores (state/store/*.go), for its remote address. LoadSession is
    total: the store returns a new record when it has none (state/store/session_store.go). *)
Record view : Type := {
  v_load : record;
  v_contains : bool;
  v_trusted : arr32 -> bool;
  v_identity : id_pair;
  v_reg : N;
  v_prekey : N -> option ec_pair;
  v_signed : N -> option ec_pair }.

(** Store writes, in program order. *)
Inductive effect : Type :=
| StoreSession (r : record)
| SaveIdentity (k : arr32)
| RemovePreKey (id : N).

(** keys/prekey/bundle.go:33-42 Bundle (the device id is not used by the builder; a nil identity key is
    not modelled). *)
Record bundle : Type := {
  b_reg : N;
  b_prekey_id : option opt_u32;
  b_prekey : option arr32;
  b_signed_id : N;
  b_signed : option arr32;
  b_sig : arr64;
  b_identity : arr32 }.

(** util/medium/medium.go:4 *)
Definition medium_max : N := 16777215.

Section Builder.
Context (C : crypto).

(** session/session.go:107-173 processV3. Returns the id of the prekey to remove ([None] is a nil pointer). *)
Definition process_v3 (v : view) (r : record) (m : pk_msg) : res (option opt_u32) * record :=
  if has_session_state (pk_version (pm_struct m)) (ser_pub (pm_base m)) r then (Ok (Some ou_none), r)
  else
    match v_signed v (pk_signed_id (pm_struct m)) with
    | None => (Panic, r)
    | Some signed =>
        match (match pk_prekey_id (pm_struct m) with
               | None => Ok None
               | Some o => match v_prekey v (ou_value o) with
                           | None => Err ENilOneTimePreKey
                           | Some kp => Ok (Some kp)
                           end
               end) with
        | Err e => (Err e, r)
        | Panic => (Panic, r)
        | Ok otk =>
            let r1 := if r_fresh r then r else archive_current r in
            match calculate_receiver_session C
                    {| rp_our_identity := v_identity v; rp_our_signed := signed; rp_our_one_time := otk;
                       rp_our_ratchet := signed; rp_their_base := pm_base m;
                       rp_their_identity := pm_identity m |} with
            | Err e => (Err e, r1)
            | Panic => (Panic, r1)
            | Ok keys =>
                let s1 := set_base (pm_base m)
                           (set_remote_reg (pk_reg (pm_struct m))
                           (set_local_reg (v_reg v)
                           (set_root (sk_root keys)
                           (set_sender_chain signed (sk_chain keys)
                           (set_local_id (ip_pub (v_identity v))
                           (set_remote_id (pm_identity m)
                           (set_version current_version (r_cur r1)))))))) in
                (Ok (match pk_prekey_id (pm_struct m) with
                     | Some o => if (ou_value o =? medium_max)%N then None else Some o
                     | None => None
                     end), set_cur s1 r1)
            end
        end
    end.

(** session/session.go:83-102 Process *)
Definition process (v : view) (r : record) (m : pk_msg) : res (option opt_u32) * record * list effect :=
  if negb (v_trusted v (pm_identity m)) then (Err EUntrusted, r, [])
  else
    match process_v3 v r m with
    | (Ok id, r') => (Ok id, r', [SaveIdentity (pm_identity m)])
    | (Err e, r') => (Err e, r', [])
    | (Panic, r') => (Panic, r', [])
    end.

(** session/session.go:177-275 ProcessBundle *)
Definition process_bundle (v : view) (b : bundle) (g : rng) : res unit * record * list effect * rng :=
  let r := v_load v in
  if negb (v_trusted v (b_identity b)) then (Err EUntrusted, r, [], g)
  else
    match b_signed b with
    | None => (Err ENoSignedPreKey, r, [], g)
    | Some their_signed =>
        if negb (verify_signature C (b_identity b) (ser_pub their_signed) (b_sig b))
        then (Err EInvalidSignature, r, [], g)
        else
          match generate_key_pair C g with
          | (Err e, g1) => (Err e, r, [], g1)
          | (Panic, g1) => (Panic, r, [], g1)
          | (Ok our_base, g1) =>
              let r1 := if r_fresh r then r else archive_current r in
              match calculate_sender_session C
                      {| sp_our_identity := v_identity v; sp_our_base := our_base;
                         sp_their_identity := b_identity b; sp_their_signed := their_signed;
                         sp_their_ratchet := their_signed; sp_their_one_time := b_prekey b |} with
              | Err e => (Err e, r1, [], g1)
              | Panic => (Panic, r1, [], g1)
              | Ok derived =>
                  match generate_key_pair C g1 with
                  | (Err e, g2) => (Err e, r1, [], g2)
                  | (Panic, g2) => (Panic, r1, [], g2)
                  | (Ok ratchet, g2) =>
                      match create_chain C (sk_root derived) their_signed ratchet with
                      | Err e => (Err e, r1, [], g2)
                      | Panic => (Panic, r1, [], g2)
                      | Ok sending =>
                          let s1 := set_base (kp_pub our_base)
                                     (set_remote_reg (b_reg b)
                                     (set_local_reg (v_reg v)
                                     (set_pending (Some {| pp_id := b_prekey_id b; pp_signed := b_signed_id b;
                                                           pp_base := kp_pub our_base |})
                                     (set_root (sk_root sending)
                                     (set_sender_chain ratchet (sk_chain sending)
                                     (add_receiver_chain their_signed (sk_chain derived)
                                     (set_local_id (ip_pub (v_identity v))
                                     (set_remote_id (b_identity b)
                                     (set_version current_version (r_cur r1)))))))))) in
                          let r2 := set_cur s1 r1 in
                          (Ok tt, r2, [StoreSession r2; SaveIdentity (b_identity b)], g2)
                      end
                  end
              end
          end
    end.
End Builder.
