(** Group.v: groups/ratchet/*.go, groups/state/record/*.go, groups/cipher.go, groups/session_builder.go. *)
From Verif Require Import Base Labels Crypto Bytehelper Ecc Cbc Messages SessionState.

(** groups/ratchet/sender_chain_key.go:42-45 *)
Record gchain : Type := { gc_key : bytes; gc_iter : N }.

(** groups/ratchet/sender_message_key.go:64-69 *)
Record gmsg_key : Type := { gm_iter : N; gm_iv : bytes; gm_cipher : bytes; gm_seed : bytes }.

(** groups/state/record/state_sender_key.go:100-106 SenderKeyState *)
Record gstate : Type := {
  gs_keys : list gmsg_key; gs_id : N; gs_chain : gchain; gs_signing : ec_pair }.

(** groups/state/record/sender_key.go:75-79 SenderKey *)
Definition grecord := list gstate.

(** groups/state/record/state_sender_key.go:9 *)
Definition max_group_keys : nat := 2000.
(** groups/cipher.go:128 *)
Definition group_max_future : N := 2000.

Section Ratchet.
Context (C : crypto).

(** groups/ratchet/sender_chain_key.go:63-68 getDerivative *)
Definition g_derivative (seed key : bytes) : bytes := hmac C key seed.

(** groups/ratchet/sender_message_key.go:13-31 NewSenderMessageKey; 48 bytes never exceed the HKDF limit. *)
Definition new_gmsg_key (iter : N) (seed : bytes) : res gmsg_key :=
  d <- derive_secrets C seed None group_kdf_info 48 ;;
  parts <- split_two d 16 32 ;;
  Ok {| gm_iter := iter; gm_iv := fst parts; gm_cipher := snd parts; gm_seed := seed |}.

(** groups/ratchet/sender_chain_key.go:51-53 SenderMessageKey *)
Definition g_message_key (ck : gchain) : res gmsg_key :=
  new_gmsg_key (gc_iter ck) (g_derivative [x01] (gc_key ck)).

(** groups/ratchet/sender_chain_key.go:55-57 Next (the uint32 iteration wraps) *)
Definition g_next (ck : gchain) : gchain :=
  {| gc_key := g_derivative [x02] (gc_key ck); gc_iter := u32_add (gc_iter ck) 1 |}.
End Ratchet.

(** * Records *)

(** groups/state/record/state_sender_key.go:125-132 HasSenderMessageKey *)
Definition g_has_key (n : N) (s : gstate) : bool := existsb (fun k => (gm_iter k =? n)%N) (gs_keys s).

(** assignment to the keys field / SetSenderChainKey (groups/state/record/state_sender_key.go:144-146) *)
Definition gset_keys (l : list gmsg_key) (s : gstate) : gstate :=
  {| gs_keys := l; gs_id := gs_id s; gs_chain := gs_chain s; gs_signing := gs_signing s |}.
Definition gset_chain (c : gchain) (s : gstate) : gstate :=
  {| gs_keys := gs_keys s; gs_id := gs_id s; gs_chain := c; gs_signing := gs_signing s |}.

(** groups/state/record/state_sender_key.go:135-141 AddSenderMessageKey *)
Definition g_add_key (k : gmsg_key) (s : gstate) : gstate :=
  let l := gs_keys s ++ [k] in
  gset_keys (if (max_group_keys <? length l)%nat then tl l else l) s.

(** groups/state/record/state_sender_key.go:149-159 RemoveSenderMessageKey: the first key with that iteration *)
Fixpoint g_remove (n : N) (l : list gmsg_key) : option (gmsg_key * list gmsg_key) :=
  match l with
  | [] => None
  | k :: r => if (gm_iter k =? n)%N then Some (k, r)
              else match g_remove n r with Some (x, r') => Some (x, k :: r') | None => None end
  end.

(** groups/state/record/state_sender_key.go:32-42 / 45-57 NewSenderKeyState, NewSenderKeyStateFromPublicKey *)
Definition new_gstate (id iter : N) (chain : bytes) (p : ec_pair) : gstate :=
  {| gs_keys := []; gs_id := id; gs_chain := {| gc_key := chain; gc_iter := iter |}; gs_signing := p |}.

(** groups/state/record/sender_key.go:81-86 SenderKeyState: the first one *)
Definition g_first (r : grecord) : res gstate :=
  match r with s :: _ => Ok s | [] => Err ENoSenderKeys end.

(** groups/state/record/sender_key.go:90-98 GetSenderKeyStateByID: the first match *)
Definition g_by_id (id : N) (r : grecord) : res gstate :=
  match find (fun s => (gs_id s =? id)%N) r with Some s => Ok s | None => Err ENoSenderKeyForId end.

(** Mutation through the pointer returned by GetSenderKeyStateByID / SenderKeyState. *)
Fixpoint g_upd_id (id : N) (s' : gstate) (r : grecord) : grecord :=
  match r with
  | [] => []
  | s :: rest => if (gs_id s =? id)%N then s' :: rest else s :: g_upd_id id s' rest
  end.
Definition g_upd_first (s' : gstate) (r : grecord) : grecord :=
  match r with [] => [] | _ :: rest => s' :: rest end.

(** groups/state/record/sender_key.go:108-117 AddSenderKeyState: appended; the first one dropped when over 2000 *)
Definition g_add_state (id iter : N) (chain : bytes) (k : arr32) (r : grecord) : grecord :=
  let l := r ++ [new_gstate id iter chain {| kp_pub := k; kp_priv := None |}] in
  if (max_group_keys <? length l)%nat then tl l else l.

(** groups/state/record/sender_key.go:121-127 SetSenderKeyState: replaces all states *)
Definition g_set_state (id iter : N) (chain : bytes) (p : ec_pair) : grecord := [new_gstate id iter chain p].

(** * Cipher and builder *)

(** Store writes of the group operations (one kind). The store's LoadSenderKey may return nil. *)
Inductive geffect : Type := StoreSenderKey (r : grecord).

Section GroupCipher.
Context (C : crypto).

(** groups/cipher.go:132-139 the loop storing skipped keys; [fuel] = iteration difference. *)
Fixpoint g_skip (fuel : nat) (n : N) (ck : gchain) (s : gstate) : res gchain * gstate :=
  match fuel with
  | O => (Ok ck, s)
  | S f => if (gc_iter ck <? n)%N then
             match g_message_key C ck with
             | Ok k => g_skip f n (g_next C ck) (g_add_key k s)
             | Err e => (Err e, s)
             | Panic => (Panic, s)
             end
           else (Ok ck, s)
  end.

(** groups/cipher.go:117-143 getSenderKey *)
Definition g_get_key (s : gstate) (n : N) : res gmsg_key * gstate :=
  let ck := gs_chain s in
  if (n <? gc_iter ck)%N then
    if g_has_key n s then
      match g_remove n (gs_keys s) with
      | Some (k, l) => (Ok k, gset_keys l s)
      | None => (Panic, s)
      end
    else (Err EGroupOldCounter, s)
  else if (group_max_future <? u32_sub n (gc_iter ck))%N then (Err EOver2000, s)
  else
    match g_skip (N.to_nat (n - gc_iter ck)) n ck s with
    | (Ok ck', s1) => (g_message_key C ck', gset_chain (g_next C ck') s1)
    | (Err e, s1) => (Err e, s1)
    | (Panic, s1) => (Panic, s1)
    end.

(** groups/cipher.go:37-69 Encrypt *)
Definition group_encrypt (load : option grecord) (pt : bytes) (g : rng)
    : res skm * option grecord * list geffect * rng :=
  match load with
  | None => (Panic, None, [], g)
  | Some r =>
      match g_first r with
      | Err e => (Err e, Some r, [], g)
      | Panic => (Panic, Some r, [], g)
      | Ok s =>
          match g_message_key C (gs_chain s) with
          | Err e => (Err e, Some r, [], g)
          | Panic => (Panic, Some r, [], g)
          | Ok k =>
              match encrypt_cbc C (gm_iv k) (gm_cipher k) pt with
              | Err e => (Err e, Some r, [], g)
              | Panic => (Panic, Some r, [], g)
              | Ok ct =>
                  match new_sender_key_message C (gs_id s) (gm_iter k) ct (kp_priv (gs_signing s)) g with
                  | (Err e, g1) => (Err e, Some r, [], g1)
                  | (Panic, g1) => (Panic, Some r, [], g1)
                  | (Ok m, g1) =>
                      let r' := g_upd_first (gset_chain (g_next C (gs_chain s)) s) r in
                      (Ok m, Some r', [StoreSenderKey r'], g1)
                  end
              end
          end
      end
  end.

(** The message object after DecryptCbc overwrote its ciphertext (cipher/cbc.go:46, groups/cipher.go:98). *)
Definition skm_with_ct (m : skm) (ct : bytes) : skm :=
  {| km_id := km_id m; km_iter := km_iter m; km_ct := Some ct; km_version := km_version m; km_sig := km_sig m |}.

Definition skm_body (m : skm) : bytes := match km_ct m with Some b => b | None => [] end.

(** groups/cipher.go:73-107 Decrypt: result, the caller's message object afterwards, the live record, writes. *)
Definition group_decrypt (load : option grecord) (m : skm)
    : res bytes * skm * option grecord * list geffect :=
  match load with
  | None => (Panic, m, None, [])
  | Some [] => (Err ENoSenderKey, m, Some [], [])
  | Some r =>
      match g_by_id (km_id m) r with
      | Err e => (Err e, m, Some r, [])
      | Panic => (Panic, m, Some r, [])
      | Ok s =>
          if negb (verify_signature C (kp_pub (gs_signing s)) (skm_unsigned m) (skm_signature m))
          then (Err EVerification, m, Some r, [])
          else
            match g_get_key s (km_iter m) with
            | (Err e, s') => (Err e, m, Some (g_upd_id (km_id m) s' r), [])
            | (Panic, s') => (Panic, m, Some (g_upd_id (km_id m) s' r), [])
            | (Ok k, s') =>
                let r' := g_upd_id (km_id m) s' r in
                match decrypt_cbc_full C (Some (gm_iv k)) (gm_cipher k) (skm_body m) with
                | (Ok pt, ct') => (Ok pt, skm_with_ct m ct', Some r', [StoreSenderKey r'])
                | (Err e, ct') => (Err e, skm_with_ct m ct', Some r', [])
                | (Panic, ct') => (Panic, skm_with_ct m ct', Some r', [])
                end
            end
      end
  end.

(** groups/session_builder.go:37-46 Process *)
Definition group_process (load : option grecord) (m : skd) : grecord * list geffect :=
  let r := match load with Some r => r | None => [] end in
  let r' := g_add_state (dm_id m) (dm_iter m) (match dm_chain m with Some c => c | None => [] end) (dm_sigkey m) r in
  (r', [StoreSenderKey r']).

(** encoding/binary little-endian uint32; util/keyhelper/key.go:86-91 GenerateRegistrationID (= sender key
    id, 105-107): a failed read leaves 0. *)
Definition le_u32 (a : arr 4) : N :=
  match abytes a with
  | [a0; a1; a2; a3] => b2n a0 + 256 * (b2n a1 + 256 * (b2n a2 + 256 * b2n a3))
  | _ => 0
  end%N.
Definition generate_registration_id (g : rng) : N * rng :=
  match rng_read 4 g with (Some a, g') => (le_u32 a, g') | (None, g') => (0%N, g') end.

(** util/keyhelper/key.go:99-103 GenerateSenderKey: a failed read leaves zeros *)
Definition generate_sender_key (g : rng) : bytes * rng :=
  match rng_read 32 g with (Some a, g') => (abytes a, g') | (None, g') => (repeat x00 32, g') end.

(** groups/session_builder.go:49-84 Create *)
Definition g_is_empty (load : option grecord) : bool :=
  match load with None => true | Some [] => true | _ => false end.
Definition skd_of_state (s : gstate) : skd :=
  new_skd (gs_id s) (gc_iter (gs_chain s)) (gc_key (gs_chain s)) (kp_pub (gs_signing s)).
Definition group_create (load : option grecord) (g : rng)
    : res skd * option grecord * list geffect * rng :=
  if g_is_empty load then
    match generate_key_pair C g with
    | (Err e, g1) => (Err e, load, [], g1)
    | (Panic, g1) => (Panic, load, [], g1)
    | (Ok signing, g1) =>
        let '(id, g2) := generate_registration_id g1 in
        let '(key, g3) := generate_sender_key g2 in
        let r := g_set_state id 0 key signing in
        match g_first r with
        | Ok s => (Ok (skd_of_state s), Some r, [StoreSenderKey r], g3)
        | Err e => (Err e, Some r, [StoreSenderKey r], g3)
        | Panic => (Panic, Some r, [StoreSenderKey r], g3)
        end
    end
  else
    match load with
    | None => (Panic, None, [], g)
    | Some r =>
        match g_first r with
        | Ok s => (Ok (skd_of_state s), Some r, [], g)
        | Err e => (Err e, Some r, [], g)
        | Panic => (Panic, Some r, [], g)
        end
    end.
End GroupCipher.

(** * Serializable structures *)

(** groups/state/record/state_sender_key.go:91-97 SenderKeyStateStructure (message key and chain key structures have the fields
    of the keys: groups/ratchet/sender_chain_key.go:37-40, groups/ratchet/sender_message_key.go:55-60) *)
Record gstate_struct : Type := {
  gss_keys : list gmsg_key; gss_id : N; gss_chain : gchain; gss_priv : option bytes; gss_pub : bytes }.

(** groups/state/record/state_sender_key.go:168-186 structure *)
Definition gstate_structure (s : gstate) : gstate_struct :=
  {| gss_keys := gs_keys s; gss_id := gs_id s; gss_chain := gs_chain s;
     gss_priv := match kp_priv (gs_signing s) with Some k => Some (abytes k) | None => None end;
     gss_pub := ser_pub (kp_pub (gs_signing s)) |}.

(** groups/state/record/state_sender_key.go:62-88 NewSenderKeyStateFromStructure: the private key is always present afterwards
    (SliceToArray of nil is all zeros). *)
Definition gstate_from_structure (t : gstate_struct) : res gstate :=
  pub <- decode_point (gss_pub t) ;;
  Ok {| gs_keys := gss_keys t; gs_id := gss_id t; gs_chain := gss_chain t;
        gs_signing := {| kp_pub := pub;
                         kp_priv := Some (to_arr 32 (match gss_priv t with Some b => b | None => [] end)) |} |}.

(** groups/state/record/sender_key.go:138-146 structure and 31-52 NewSenderKeyFromStruct *)
Definition grecord_structure (r : grecord) : list gstate_struct := map gstate_structure r.
Definition grecord_from_structure (t : list gstate_struct) : res grecord := map_res gstate_from_structure t.
