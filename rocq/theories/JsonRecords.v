(** JsonRecords.v: serialize/json.go applied to the records (session, sender key, prekey, signed prekey): the structures
    json.Marshal and json.Unmarshal are given, Session.Serialize / NewSessionFromBytes and their counterparts.
    NewProtoBufSerializer (serialize/proto.go:14-29) and NewJSONSerializer (serialize/json.go:14-30) use these same
    serializers for the records.

    A nil []byte read from a text is the empty slice of the model (Go code that uses it does not tell them apart, except
    where an option says so). *)
From Coq Require Import String.
From Verif Require Import Base Crypto Ecc Keys Messages SessionState SessionRecord Group PreKeyRecords Json.
Open Scope list_scope.
Local Open Scope N_scope.

(** * The structures (field names and types, in the order of declaration) *)
(** keys/chain/key.go:44-47 KeyStructure *)
Definition chain_key_ty : fields := [(bs "Key", TBytes); (bs "Index", TU32)].
(** keys/message/key.go:54-59 KeysStructure *)
Definition msg_keys_ty : fields := [(bs "CipherKey", TBytes); (bs "MacKey", TBytes); (bs "IV", TBytes); (bs "Index", TU32)].
(** state/record/state_chain.go:70-75 ChainStructure *)
Definition chain_ty : fields :=
  [(bs "SenderRatchetKeyPublic", TBytes); (bs "SenderRatchetKeyPrivate", TBytes); (bs "ChainKey", TPtr chain_key_ty); (bs "MessageKeys", TSlice (TPtr msg_keys_ty))].
(** util/optional/int.go:14-17 Uint32 *)
Definition opt_u32_ty : fields := [(bs "Value", TU32); (bs "IsEmpty", TBool)].
(** state/record/state_pending_prekey.go:38-42 PendingPreKeyStructure *)
Definition pp_ty : fields := [(bs "PreKeyID", TPtr opt_u32_ty); (bs "SignedPreKeyID", TU32); (bs "BaseKey", TBytes)].
(** state/record/state_pending_key_exchange.go:59-67 PendingKeyExchangeStructure *)
Definition px_ty : fields :=
  [(bs "Sequence", TU32); (bs "LocalBaseKeyPublic", TBytes); (bs "LocalBaseKeyPrivate", TBytes); (bs "LocalRatchetKeyPublic", TBytes);
   (bs "LocalRatchetKeyPrivate", TBytes); (bs "LocalIdentityKeyPublic", TBytes); (bs "LocalIdentityKeyPrivate", TBytes)].
(** state/record/state_session.go:100-114 StateStructure *)
Definition state_ty : fields :=
  [(bs "LocalIdentityPublic", TBytes); (bs "LocalRegistrationID", TU32); (bs "NeedsRefresh", TBool); (bs "PendingKeyExchange", TPtr px_ty);
   (bs "PendingPreKey", TPtr pp_ty); (bs "PreviousCounter", TU32); (bs "ReceiverChains", TSlice (TPtr chain_ty)); (bs "RemoteIdentityPublic", TBytes);
   (bs "RemoteRegistrationID", TU32); (bs "RootKey", TBytes); (bs "SenderBaseKey", TBytes); (bs "SenderChain", TPtr chain_ty); (bs "SessionVersion", TInt)].
(** state/record/session.go:92-95 SessionStructure *)
Definition session_ty : fields := [(bs "SessionState", TPtr state_ty); (bs "PreviousStates", TSlice (TPtr state_ty))].
(** groups/ratchet/sender_chain_key.go:37-40 SenderChainKeyStructure *)
Definition gchain_ty : fields := [(bs "Iteration", TU32); (bs "ChainKey", TBytes)].
(** groups/ratchet/sender_message_key.go:55-60 SenderMessageKeyStructure *)
Definition gmsg_key_ty : fields := [(bs "Iteration", TU32); (bs "IV", TBytes); (bs "CipherKey", TBytes); (bs "Seed", TBytes)].
(** groups/state/record/state_sender_key.go:91-97 SenderKeyStateStructure *)
Definition gstate_ty : fields :=
  [(bs "Keys", TSlice (TPtr gmsg_key_ty)); (bs "KeyID", TU32); (bs "SenderChainKey", TPtr gchain_ty); (bs "SigningKeyPrivate", TBytes); (bs "SigningKeyPublic", TBytes)].
(** groups/state/record/sender_key.go:67-69 SenderKeyStructure *)
Definition sender_key_ty : fields := [(bs "SenderKeyStates", TSlice (TPtr gstate_ty))].
(** state/record/prekey.go:60-64 PreKeyStructure *)
Definition prekey_ty : fields := [(bs "ID", TU32); (bs "PublicKey", TBytes); (bs "PrivateKey", TBytes)].
(** state/record/signed_prekey.go:70-76 SignedPreKeyStructure *)
Definition signed_prekey_ty : fields := [(bs "ID", TU32); (bs "PublicKey", TBytes); (bs "PrivateKey", TBytes); (bs "Signature", TBytes); (bs "Timestamp", TInt)].

(** * Filling the structures *)
(** keys/chain/key.go:36-41 NewStructFromKey *)
Definition chain_key_val (k : chain_key) : list gval := [VBytes (Some (ck_key k)); VU32 (ck_index k)].
(** keys/message/key.go:44-51 NewStructFromKeys *)
Definition msg_keys_val (k : msg_keys) : list gval := [VBytes (Some (mk_cipher k)); VBytes (Some (mk_mac k)); VBytes (Some (mk_iv k)); VU32 (mk_index k)].
(** state/record/state_chain.go:134-157 structure, after chain_structure *)
Definition chain_val (c : chain_struct) : list gval :=
  [VBytes (Some (cs_pub c)); VBytes (cs_priv c); VPtr (Some (chain_key_val (cs_key c))); VSlice (Some (map (fun k => VPtr (Some (msg_keys_val k))) (cs_msgs c)))].
Definition opt_u32_val (o : opt_u32) : list gval := [VU32 (ou_value o); VBool (ou_empty o)].
(** state/record/state_pending_prekey.go:53-62 *)
Definition pp_val (p : pp_struct) : list gval := [VPtr (option_map opt_u32_val (ps_id p)); VU32 (ps_signed p); VBytes (Some (ps_base p))].
(** state/record/state_pending_key_exchange.go:80-91 *)
Definition px_val (p : px_struct) : list gval :=
  [VU32 (xs_seq p); VBytes (Some (xs_base_pub p)); VBytes (Some (xs_base_priv p)); VBytes (Some (xs_ratchet_pub p));
   VBytes (Some (xs_ratchet_priv p)); VBytes (Some (xs_ident_pub p)); VBytes (Some (xs_ident_priv p))].
(** state/record/state_session.go:516-530 *)
Definition state_val (t : state_struct) : list gval :=
  [VBytes (Some (ss_local_id t)); VU32 (ss_local_reg t); VBool (ss_needs_refresh t); VPtr (option_map px_val (ss_pending_kx t));
   VPtr (option_map pp_val (ss_pending t)); VU32 (ss_prev_counter t); VSlice (Some (map (fun c => VPtr (Some (chain_val c))) (ss_recv t)));
   VBytes (Some (ss_remote_id t)); VU32 (ss_remote_reg t); VBytes (Some (ss_root t)); VBytes (Some (ss_base t));
   VPtr (Some (chain_val (ss_sender t))); VInt (ss_version t)].
(** state/record/session.go:188-197 *)
Definition record_val (t : record_struct) : list gval :=
  [VPtr (Some (state_val (rs_cur t))); VSlice (Some (map (fun s => VPtr (Some (state_val s))) (rs_prev t)))].
(** groups/ratchet/sender_chain_key.go:29-34, groups/ratchet/sender_message_key.go:45-52, groups/state/record/state_sender_key.go:168-186,
    groups/state/record/sender_key.go:138-146 *)
Definition gchain_val (c : gchain) : list gval := [VU32 (gc_iter c); VBytes (Some (gc_key c))].
Definition gmsg_key_val (k : gmsg_key) : list gval := [VU32 (gm_iter k); VBytes (Some (gm_iv k)); VBytes (Some (gm_cipher k)); VBytes (Some (gm_seed k))].
Definition gstate_val (t : gstate_struct) : list gval :=
  [VSlice (Some (map (fun k => VPtr (Some (gmsg_key_val k))) (gss_keys t))); VU32 (gss_id t); VPtr (Some (gchain_val (gss_chain t)));
   VBytes (gss_priv t); VBytes (Some (gss_pub t))].
Definition grecord_val (t : list gstate_struct) : list gval := [VSlice (Some (map (fun s => VPtr (Some (gstate_val s))) t))].
(** state/record/prekey.go:47-57, state/record/signed_prekey.go:51-66 *)
Definition prekey_val (t : pkr_struct) : list gval := [VU32 (ks_id t); VBytes (Some (ks_pub t)); VBytes (Some (ks_priv t))].
Definition signed_prekey_val (t : skr_struct) : list gval :=
  [VU32 (zs_id t); VBytes (Some (zs_pub t)); VBytes (Some (zs_priv t)); VBytes (Some (zs_sig t)); VInt (zs_time t)].

(** * Reading the structures back. A nil pointer that the code follows is a panic. [Panic] in the last case of each match
    stands for values Go's types exclude (unmarshal_typed, JsonProofs3). *)
Definition nb (b : option bytes) : bytes := match b with Some b => b | None => [] end.
(** len() and range of a nil slice *)
Definition items (l : option (list gval)) : list gval := match l with Some l => l | None => [] end.
(** keys/chain/key.go:27-33 NewKeyFromStruct *)
Definition chain_key_of (v : gval) : res chain_key :=
  match v with VPtr (Some [VBytes k; VU32 i]) => Ok {| ck_key := nb k; ck_index := i |} | _ => Panic end.
(** keys/message/key.go:34-41 NewKeysFromStruct *)
Definition msg_keys_of (v : gval) : res msg_keys :=
  match v with VPtr (Some [VBytes c; VBytes m; VBytes iv; VU32 i]) => Ok {| mk_cipher := nb c; mk_mac := nb m; mk_iv := nb iv; mk_index := i |} | _ => Panic end.
(** state/record/state_chain.go:38-67 NewChainFromStructure *)
Definition chain_of (v : gval) : res chain :=
  match v with
  | VPtr (Some [VBytes pub; VBytes priv; ck; VSlice ms]) =>
      k <- decode_point (nb pub) ;;
      keys <- map_res msg_keys_of (items ms) ;;
      c <- chain_key_of ck ;;
      Ok {| ch_pair := {| kp_pub := k; kp_priv := if (length (nb priv) =? 32)%nat then Some (to_arr 32 (nb priv)) else None |}; ch_key := c; ch_msgs := keys |}
  | _ => Panic
  end.
(** the pointer is only copied *)
Definition opt_u32_of (v : option (list gval)) : option opt_u32 :=
  match v with Some [VU32 n; VBool b] => Some {| ou_value := n; ou_empty := b |} | _ => None end.
(** state/record/state_pending_prekey.go:21-34 NewPendingPreKeyFromStruct, called on a non-nil pointer only *)
Definition pp_of (v : option (list gval)) : res (option pending_prekey) :=
  match v with
  | None => Ok None
  | Some [VPtr id; VU32 signed; VBytes base] =>
      b <- decode_point (nb base) ;; Ok (Some {| pp_id := opt_u32_of id; pp_signed := signed; pp_base := b |})
  | _ => Panic
  end.
(** state/record/state_pending_key_exchange.go:24-54 NewPendingKeyExchangeFromStruct *)
Definition px_of (v : option (list gval)) : option pending_kx :=
  match v with
  | Some [VU32 seq; VBytes bp; VBytes bk; VBytes rp; VBytes rk; VBytes ip; VBytes ik] =>
      Some {| px_seq := seq;
              px_base := {| kp_pub := to_arr 32 (nb bp); kp_priv := Some (to_arr 32 (nb bk)) |};
              px_ratchet := {| kp_pub := to_arr 32 (nb rp); kp_priv := Some (to_arr 32 (nb rk)) |};
              px_ident := {| ip_pub := to_arr 32 (nb ip); ip_priv := to_arr 32 (nb ik) |} |}
  | _ => None
  end.
Definition panics {A} (r : res A) : bool := match r with Panic => true | _ => false end.
(** state/record/state_session.go:46-96 NewStateFromStructure: every conversion is evaluated, a panic of any of them ends
    the call; otherwise the first error is returned (util/errorhelper/error.go:4-40). *)
Definition state_of (v : gval) : res state :=
  match v with
  | VPtr (Some [VBytes li; VU32 lreg; VBool refresh; VPtr px; VPtr pp; VU32 pc; VSlice rcs; VBytes ri; VU32 rreg; VBytes rk; VBytes bk; sc; VInt ver]) =>
      let li := decode_point (nb li) in
      let ri := decode_point (nb ri) in
      let bk := decode_point (nb bk) in
      let pp := pp_of pp in
      let sc := chain_of sc in
      let rcs := map chain_of (items rcs) in
      if panics li || panics ri || panics bk || panics pp || panics sc || existsb panics rcs then Panic else
      li <- li ;; ri <- ri ;; bk <- bk ;; pp <- pp ;; sc <- sc ;; rcs <- map_res (fun r => r) rcs ;;
      Ok {| s_local_id := Some li; s_local_reg := lreg; s_needs_refresh := refresh; s_pending_kx := px_of px; s_pending := pp;
            s_prev_counter := pc; s_recv := rcs; s_remote_id := Some ri; s_remote_reg := rreg; s_root := Some (nb rk);
            s_base := Some bk; s_sender := Some sc; s_version := ver |}
  | _ => Panic
  end.
(** state/record/session.go:46-74 NewSessionFromStructure *)
Definition record_of (vs : list gval) : res record :=
  match vs with
  | [cur; VSlice prev] =>
      p <- map_res state_of (items prev) ;; c <- state_of cur ;; Ok {| r_cur := c; r_prev := p; r_fresh := false |}
  | _ => Panic
  end.
(** groups/ratchet/sender_chain_key.go:21-26 NewSenderChainKeyFromStruct *)
Definition gchain_of (v : gval) : res gchain :=
  match v with VPtr (Some [VU32 i; VBytes k]) => Ok {| gc_key := nb k; gc_iter := i |} | _ => Panic end.
(** groups/ratchet/sender_message_key.go:35-42 NewSenderMessageKeyFromStruct *)
Definition gmsg_key_of (v : gval) : res gmsg_key :=
  match v with VPtr (Some [VU32 i; VBytes iv; VBytes c; VBytes s]) => Ok {| gm_iter := i; gm_iv := nb iv; gm_cipher := nb c; gm_seed := nb s |} | _ => Panic end.
(** groups/state/record/state_sender_key.go:62-88 NewSenderKeyStateFromStructure *)
Definition gstate_of (v : gval) : res gstate :=
  match v with
  | VPtr (Some [VSlice ks; VU32 id; ck; VBytes priv; VBytes pub]) =>
      p <- decode_point (nb pub) ;;
      keys <- map_res gmsg_key_of (items ks) ;;
      c <- gchain_of ck ;;
      Ok {| gs_keys := keys; gs_id := id; gs_chain := c; gs_signing := {| kp_pub := p; kp_priv := Some (to_arr 32 (nb priv)) |} |}
  | _ => Panic
  end.
(** groups/state/record/sender_key.go:31-52 NewSenderKeyFromStruct *)
Definition grecord_of (vs : list gval) : res grecord :=
  match vs with [VSlice ss] => map_res gstate_of (items ss) | _ => Panic end.
(** state/record/prekey.go:29-43 NewPreKeyFromStruct, state/record/signed_prekey.go:30-47 NewSignedPreKeyFromStruct *)
Definition prekey_of (vs : list gval) : res pkr :=
  match vs with
  | [VU32 id; VBytes pub; VBytes priv] => Ok (pkr_from_struct {| ks_id := id; ks_pub := nb pub; ks_priv := nb priv |})
  | _ => Panic
  end.
Definition signed_prekey_of (vs : list gval) : res skr :=
  match vs with
  | [VU32 id; VBytes pub; VBytes priv; VBytes sig; VInt time] =>
      Ok (skr_from_struct {| zs_id := id; zs_pub := nb pub; zs_priv := nb priv; zs_sig := nb sig; zs_time := time |})
  | _ => Panic
  end.

(** * The calls a store makes *)
(** state/record/session.go:169-171 Serialize with serialize/json.go:171-179 *)
Definition save_session (r : record) : res bytes := t <- record_structure r ;; Ok (marshal session_ty (record_val t)).
(** state/record/session.go:21-30 NewSessionFromBytes with serialize/json.go:183-192 *)
Definition load_session (s : bytes) : res record := vs <- unmarshal session_ty s ;; record_of vs.
(** State.Serialize / NewStateFromBytes (state/record/state_session.go:496-498, 29-37), serialize/json.go:144-164 *)
Definition save_state (s : state) : res bytes := t <- state_structure s ;; Ok (marshal state_ty (state_val t)).
Definition load_state (s : bytes) : res state := vs <- unmarshal state_ty s ;; state_of (VPtr (Some vs)).
(** groups/state/record/sender_key.go:131-133 Serialize, 18-28 NewSenderKeyFromBytes; serialize/json.go:282-303 *)
Definition save_sender_key (r : grecord) : bytes := marshal sender_key_ty (grecord_val (grecord_structure r)).
Definition load_sender_key (s : bytes) : res grecord := vs <- unmarshal sender_key_ty s ;; grecord_of vs.
(** groups/state/record/state_sender_key.go:162-164 Serialize, 21-29 NewSenderKeyStateFromBytes; serialize/json.go:255-275 *)
Definition save_sender_state (s : gstate) : bytes := marshal gstate_ty (gstate_val (gstate_structure s)).
Definition load_sender_state (s : bytes) : res gstate := vs <- unmarshal gstate_ty s ;; gstate_of (VPtr (Some vs)).
(** state/record/prekey.go:87-90 Serialize, 18-26 NewPreKeyFromBytes; serialize/json.go:117-137 *)
Definition save_prekey (r : pkr) : bytes := marshal prekey_ty (prekey_val (pkr_serialize r)).
Definition load_prekey (s : bytes) : res pkr := vs <- unmarshal prekey_ty s ;; prekey_of vs.
(** state/record/signed_prekey.go:109-112 Serialize, 18-27 NewSignedPreKeyFromBytes; serialize/json.go:90-110 *)
Definition save_signed_prekey (r : skr) : bytes := marshal signed_prekey_ty (signed_prekey_val (skr_serialize r)).
Definition load_signed_prekey (s : bytes) : res skr := vs <- unmarshal signed_prekey_ty s ;; signed_prekey_of vs.
