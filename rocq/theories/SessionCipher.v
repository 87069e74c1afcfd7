(** SessionCipher.v: session/cipher.go. *)
From Verif Require Import Base Labels Crypto Ecc Cbc Keys X3dh Messages SessionState SessionRecord SessionBuilder.

(** session/cipher.go:18 *)
Definition max_future : N := 5000.

(** protocol/ciphertext_message.go: what Encrypt returns *)
Inductive ct_msg : Type := CSignal (m : sig_msg) | CPreKey (m : pk_msg).

Section Cipher.
Context (C : crypto).

(** session/cipher.go:311-347 getOrCreateChainKey (with max, 364-369: the uint32 subtraction wraps before
    the comparison with 0). The caller has checked that a sender chain exists. *)
Definition get_or_create_chain_key (s : state) (their : arr32) (g : rng) : res chain_key * state * rng :=
  match receiver_chain their s with
  | Some c => (Ok (ch_key c), s, g)
  | None =>
      match s_root s, s_sender s with
      | Some root, Some sc =>
          match create_chain C root their (ch_pair sc) with
          | Err e => (Err e, s, g)
          | Panic => (Panic, s, g)
          | Ok recv =>
              match generate_key_pair C g with
              | (Err e, g1) => (Err e, s, g1)
              | (Panic, g1) => (Panic, s, g1)
              | (Ok ours, g1) =>
                  match create_chain C (sk_root recv) their ours with
                  | Err e => (Err e, s, g1)
                  | Panic => (Panic, s, g1)
                  | Ok send =>
                      let s1 := set_sender_chain ours (sk_chain send)
                                 (set_prev_counter (N.max (u32_sub (ck_index (ch_key sc)) 1) 0)
                                 (add_receiver_chain their (sk_chain recv)
                                 (set_root (sk_root send) s))) in
                      (Ok (sk_chain recv), s1, g1)
                  end
              end
          end
      | _, _ => (Panic, s, g)
      end
  end.

(** session/cipher.go:299-303: the loop storing skipped message keys. Each iteration increases the index
    by one and the loop stops when it reaches [counter]; [fuel] = counter - index iterations are made. *)
Fixpoint skip_keys (fuel : nat) (their : arr32) (counter : N) (ck : chain_key) (s : state) : chain_key * state :=
  match fuel with
  | O => (ck, s)
  | S f => if (ck_index ck <? counter)%N
           then skip_keys f their counter (next_key C ck) (upd_chain their (chain_add_key (message_keys C ck)) s)
           else (ck, s)
  end.

(** session/cipher.go:281-307 getOrCreateMessageKeys. The receiver chain exists (getOrCreateChainKey ran
    before); if it did not the code would panic. *)
Definition get_or_create_message_keys (s : state) (their : arr32) (ck : chain_key) (counter : N)
    : res msg_keys * state :=
  match receiver_chain their s with
  | None => (Panic, s)
  | Some c =>
      if (counter <? ck_index ck)%N then
        if has_message_keys c counter then
          match remove_message_keys c counter with
          | Some (mk, c') => (Ok mk, upd_chain their (fun _ => c') s)
          | None => (Panic, s)
          end
        else (Err EOldCounter, s)
      else if (max_future <? u32_sub counter (ck_index ck))%N then (Err ETooFarFuture, s)
      else
        let '(ck', s1) := skip_keys (N.to_nat (counter - ck_index ck)) their counter ck s in
        (Ok (message_keys C ck'), upd_chain their (chain_set_key (next_key C ck')) s1)
  end.

(** session/cipher.go:188-197 DecryptWithKey and 351-354 decrypt (the body is copied first). *)
Definition decrypt_with_key (m : sig_msg) (k : msg_keys) : res bytes :=
  decrypt_cbc C (Some (mk_iv k)) (mk_cipher k) (match sg_ct (sm_struct m) with Some b => b | None => [] end).

(** session/cipher.go:236-279 DecryptWithState. A nil identity key panics inside getMac (simplification:
    also for version 2, where it would not be dereferenced). *)
Definition decrypt_with_state (s : state) (m : sig_msg) (g : rng) : res (bytes * msg_keys) * state * rng :=
  match s_sender s with
  | None => (Err EUninitialized, s, g)
  | Some _ =>
      if negb (sg_version (sm_struct m) =? s_version s)%Z then (Err EWrongVersion, s, g)
      else
        match get_or_create_chain_key s (sm_ratchet m) g with
        | (Err e, s1, g1) => (Err e, s1, g1)
        | (Panic, s1, g1) => (Panic, s1, g1)
        | (Ok ck, s1, g1) =>
            match get_or_create_message_keys s1 (sm_ratchet m) ck (sg_counter (sm_struct m)) with
            | (Err e, s2) => (Err e, s2, g1)
            | (Panic, s2) => (Panic, s2, g1)
            | (Ok mk, s2) =>
                match s_remote_id s2, s_local_id s2 with
                | Some rid, Some lid =>
                    match verify_mac C m (sg_version (sm_struct m)) rid lid (mk_mac mk) with
                    | Err e => (Err e, s2, g1)
                    | Panic => (Panic, s2, g1)
                    | Ok _ =>
                        match decrypt_with_key m mk with
                        | Err e => (Err e, s2, g1)
                        | Panic => (Panic, s2, g1)
                        | Ok pt => (Ok (pt, mk), set_pending None s2, g1)
                        end
                    end
                | _, _ => (Panic, s2, g1)
                end
            end
        end
  end.

(** session/cipher.go:212-226: the archived states in order, each attempt mutating its state; the index of
    the successful one, or "No valid sessions." after the last. *)
Fixpoint try_prev (l : list state) (m : sig_msg) (g : rng)
    : res (nat * (bytes * msg_keys)) * list state * rng :=
  match l with
  | [] => (Err ENoValidSessions, [], g)
  | s :: rest =>
      match decrypt_with_state s m g with
      | (Ok x, s', g1) => (Ok (O, x), s' :: rest, g1)
      | (Panic, s', g1) => (Panic, s' :: rest, g1)
      | (Err _, s', g1) =>
          match try_prev rest m g1 with
          | (Ok (i, x), rest', g2) => (Ok (S i, x), s' :: rest', g2)
          | (Err e, rest', g2) => (Err e, s' :: rest', g2)
          | (Panic, rest', g2) => (Panic, s' :: rest', g2)
          end
      end
  end.

(** session/cipher.go:220: [append(previousStates[:i], previousStates[i+1:]...)] assigns only the local
    slice, but shifts the shared backing array: the record's own list keeps its length, loses element [i]
    and holds its last element twice (when [i] is the last index nothing moves). *)
Definition go_delete_shared (i : nat) (l : list state) : list state :=
  firstn i l ++ skipn (S i) l ++ match rev l with x :: _ => [x] | [] => [] end.

(** session/cipher.go:200-233 DecryptWithRecord *)
Definition decrypt_with_record (r : record) (m : sig_msg) (g : rng)
    : res (bytes * msg_keys) * record * rng :=
  match decrypt_with_state (r_cur r) m g with
  | (Ok x, s', g1) => (Ok x, set_cur s' r, g1)
  | (Panic, s', g1) => (Panic, set_cur s' r, g1)
  | (Err _, s', g1) =>
      let r1 := set_cur s' r in
      match try_prev (r_prev r) m g1 with
      | (Ok (i, x), l, g2) =>
          match nth_error l i with
          | Some st => (Ok x, promote_state st (set_prev (go_delete_shared i l) r1), g2)
          | None => (Panic, set_prev l r1, g2)
          end
      | (Err e, l, g2) => (Err e, set_prev l r1, g2)
      | (Panic, l, g2) => (Panic, set_prev l r1, g2)
      end
  end.

(** session/cipher.go:140-160 DecryptAndGetKey (Decrypt, 132-136, drops the keys). The trust check at 152
    has no consequence. *)
Definition decrypt_and_get_key (v : view) (m : sig_msg) (g : rng)
    : res (bytes * msg_keys) * record * list effect * rng :=
  if negb (v_contains v) then (Err ENoSession, v_load v, [], g)
  else
    match decrypt_with_record (v_load v) m g with
    | (Err e, r', g1) => (Err e, r', [], g1)
    | (Panic, r', g1) => (Panic, r', [], g1)
    | (Ok x, r', g1) =>
        match s_remote_id (r_cur r') with
        | Some rid => (Ok x, r', [SaveIdentity rid; StoreSession r'], g1)
        | None => (Panic, r', [], g1)
        end
    end.

(** session/cipher.go:167-184 DecryptMessageReturnKey (DecryptMessage, 162-165, drops the keys). A nil
    prekey id is dereferenced at 180, after the session has been stored. *)
Definition decrypt_message (v : view) (m : pk_msg) (g : rng)
    : res (bytes * msg_keys) * record * list effect * rng :=
  match process C v (v_load v) m with
  | (Err e, r', ef) => (Err e, r', ef, g)
  | (Panic, r', ef) => (Panic, r', ef, g)
  | (Ok id, r', ef) =>
      match decrypt_with_record r' (pm_message m) g with
      | (Err e, r2, g1) => (Err e, r2, ef, g1)
      | (Panic, r2, g1) => (Panic, r2, ef, g1)
      | (Ok x, r2, g1) =>
          match id with
          | None => (Panic, r2, ef ++ [StoreSession r2], g1)
          | Some o =>
              (Ok x, r2, ef ++ StoreSession r2 :: (if ou_empty o then [] else [RemovePreKey (ou_value o)]), g1)
          end
      end
  end.

(** session/cipher.go:65-128 Encrypt. The trust check at 122 has no consequence. A nil sender chain or
    identity panics. *)
Definition encrypt (v : view) (pt : bytes) : res ct_msg * record * list effect :=
  let r := v_load v in
  let s := r_cur r in
  match s_sender s with
  | None => (Panic, r, [])
  | Some sc =>
      let ck := ch_key sc in
      let mk := message_keys C ck in
      match encrypt_cbc C (mk_iv mk) (mk_cipher mk) pt with
      | Err e => (Err e, r, [])
      | Panic => (Panic, r, [])
      | Ok body =>
          match s_local_id s, s_remote_id s with
          | Some lid, Some rid =>
              match new_signal_message C (s_version s) (ck_index ck) (s_prev_counter s) (mk_mac mk)
                      (kp_pub (ch_pair sc)) body lid rid with
              | Err e => (Err e, r, [])
              | Panic => (Panic, r, [])
              | Ok sm =>
                  match (match s_pending s with
                         | None => Ok (CSignal sm)
                         | Some p =>
                             pm <- new_prekey_message (s_version s) (s_local_reg s) (pp_id p) (pp_signed p)
                                     (pp_base p) lid sm ;;
                             Ok (CPreKey pm)
                         end) with
                  | Err e => (Err e, r, [])
                  | Panic => (Panic, r, [])
                  | Ok ct =>
                      let r' := set_cur (set_sender_chain_key (next_key C ck) s) r in
                      (Ok ct, r', [SaveIdentity rid; StoreSession r'])
                  end
              end
          | _, _ => (Panic, r, [])
          end
      end
  end.
End Cipher.
