(** SessionState.v: state/record/state_session.go, state_chain.go, state_pending_prekey.go,
    state_pending_key_exchange.go.

    Pointer fields that can be nil are options. Methods that mutate the state return the new state. *)
From Verif Require Import Base Labels Crypto Ecc Keys Messages.

(** state/record/state_chain.go:79-83 Chain *)
Record chain : Type := { ch_pair : ec_pair; ch_key : chain_key; ch_msgs : list msg_keys }.

(** state/record/state_pending_prekey.go:46-50 PendingPreKey (the base key is never nil: it is set by
    ProcessBundle from a generated key pair or decoded). *)
Record pending_prekey : Type := { pp_id : option opt_u32; pp_signed : N; pp_base : arr32 }.

(** state/record/state_pending_key_exchange.go:71-76 PendingKeyExchange *)
Record pending_kx : Type := { px_seq : N; px_base : ec_pair; px_ratchet : ec_pair; px_ident : id_pair }.

(** state/record/state_session.go:120-135 State (the serializer field is dropped). *)
Record state : Type := {
  s_local_id : option arr32;
  s_local_reg : N;
  s_needs_refresh : bool;
  s_pending_kx : option pending_kx;
  s_pending : option pending_prekey;
  s_prev_counter : N;
  s_recv : list chain;
  s_remote_id : option arr32;
  s_remote_reg : N;
  s_root : option bytes;
  s_base : option arr32;
  s_sender : option chain;
  s_version : Z }.

(** state/record/state_session.go:40-42 NewState: all fields zero. *)
Definition new_state : state :=
  {| s_local_id := None; s_local_reg := 0; s_needs_refresh := false; s_pending_kx := None;
     s_pending := None; s_prev_counter := 0; s_recv := []; s_remote_id := None; s_remote_reg := 0;
     s_root := None; s_base := None; s_sender := None; s_version := 0 |}.

(** state/record/state_session.go:16-17 *)
Definition max_message_keys : nat := 2000.
Definition max_receiver_chains : nat := 5.

(** Field updates. SetVersion 156, SetRemoteIdentityKey 167, SetLocalIdentityKey 179, SetPreviousCounter 189,
    SetRootKey 199, SetSenderBaseKey 146, SetRemoteRegistrationID 476, SetLocalRegistrationID 486,
    SetUnacknowledgedPreKeyMessage 445, ClearUnackPreKeyMessage 471 of state_session.go. *)
Definition set_version (v : Z) (s : state) : state :=
  {| s_local_id := s_local_id s; s_local_reg := s_local_reg s; s_needs_refresh := s_needs_refresh s;
     s_pending_kx := s_pending_kx s; s_pending := s_pending s; s_prev_counter := s_prev_counter s;
     s_recv := s_recv s; s_remote_id := s_remote_id s; s_remote_reg := s_remote_reg s;
     s_root := s_root s; s_base := s_base s; s_sender := s_sender s; s_version := v |}.
Definition set_remote_id (k : arr32) (s : state) : state :=
  {| s_local_id := s_local_id s; s_local_reg := s_local_reg s; s_needs_refresh := s_needs_refresh s;
     s_pending_kx := s_pending_kx s; s_pending := s_pending s; s_prev_counter := s_prev_counter s;
     s_recv := s_recv s; s_remote_id := Some k; s_remote_reg := s_remote_reg s;
     s_root := s_root s; s_base := s_base s; s_sender := s_sender s; s_version := s_version s |}.
Definition set_local_id (k : arr32) (s : state) : state :=
  {| s_local_id := Some k; s_local_reg := s_local_reg s; s_needs_refresh := s_needs_refresh s;
     s_pending_kx := s_pending_kx s; s_pending := s_pending s; s_prev_counter := s_prev_counter s;
     s_recv := s_recv s; s_remote_id := s_remote_id s; s_remote_reg := s_remote_reg s;
     s_root := s_root s; s_base := s_base s; s_sender := s_sender s; s_version := s_version s |}.
Definition set_prev_counter (n : N) (s : state) : state :=
  {| s_local_id := s_local_id s; s_local_reg := s_local_reg s; s_needs_refresh := s_needs_refresh s;
     s_pending_kx := s_pending_kx s; s_pending := s_pending s; s_prev_counter := n;
     s_recv := s_recv s; s_remote_id := s_remote_id s; s_remote_reg := s_remote_reg s;
     s_root := s_root s; s_base := s_base s; s_sender := s_sender s; s_version := s_version s |}.
Definition set_root (k : bytes) (s : state) : state :=
  {| s_local_id := s_local_id s; s_local_reg := s_local_reg s; s_needs_refresh := s_needs_refresh s;
     s_pending_kx := s_pending_kx s; s_pending := s_pending s; s_prev_counter := s_prev_counter s;
     s_recv := s_recv s; s_remote_id := s_remote_id s; s_remote_reg := s_remote_reg s;
     s_root := Some k; s_base := s_base s; s_sender := s_sender s; s_version := s_version s |}.
Definition set_base (k : arr32) (s : state) : state :=
  {| s_local_id := s_local_id s; s_local_reg := s_local_reg s; s_needs_refresh := s_needs_refresh s;
     s_pending_kx := s_pending_kx s; s_pending := s_pending s; s_prev_counter := s_prev_counter s;
     s_recv := s_recv s; s_remote_id := s_remote_id s; s_remote_reg := s_remote_reg s;
     s_root := s_root s; s_base := Some k; s_sender := s_sender s; s_version := s_version s |}.
Definition set_remote_reg (n : N) (s : state) : state :=
  {| s_local_id := s_local_id s; s_local_reg := s_local_reg s; s_needs_refresh := s_needs_refresh s;
     s_pending_kx := s_pending_kx s; s_pending := s_pending s; s_prev_counter := s_prev_counter s;
     s_recv := s_recv s; s_remote_id := s_remote_id s; s_remote_reg := n;
     s_root := s_root s; s_base := s_base s; s_sender := s_sender s; s_version := s_version s |}.
Definition set_local_reg (n : N) (s : state) : state :=
  {| s_local_id := s_local_id s; s_local_reg := n; s_needs_refresh := s_needs_refresh s;
     s_pending_kx := s_pending_kx s; s_pending := s_pending s; s_prev_counter := s_prev_counter s;
     s_recv := s_recv s; s_remote_id := s_remote_id s; s_remote_reg := s_remote_reg s;
     s_root := s_root s; s_base := s_base s; s_sender := s_sender s; s_version := s_version s |}.
Definition set_pending (p : option pending_prekey) (s : state) : state :=
  {| s_local_id := s_local_id s; s_local_reg := s_local_reg s; s_needs_refresh := s_needs_refresh s;
     s_pending_kx := s_pending_kx s; s_pending := p; s_prev_counter := s_prev_counter s;
     s_recv := s_recv s; s_remote_id := s_remote_id s; s_remote_reg := s_remote_reg s;
     s_root := s_root s; s_base := s_base s; s_sender := s_sender s; s_version := s_version s |}.
(** Assignment to the receiverChains field. *)
Definition set_recv (l : list chain) (s : state) : state :=
  {| s_local_id := s_local_id s; s_local_reg := s_local_reg s; s_needs_refresh := s_needs_refresh s;
     s_pending_kx := s_pending_kx s; s_pending := s_pending s; s_prev_counter := s_prev_counter s;
     s_recv := l; s_remote_id := s_remote_id s; s_remote_reg := s_remote_reg s;
     s_root := s_root s; s_base := s_base s; s_sender := s_sender s; s_version := s_version s |}.
(** Assignment to the senderChain field. *)
Definition set_sender (c : option chain) (s : state) : state :=
  {| s_local_id := s_local_id s; s_local_reg := s_local_reg s; s_needs_refresh := s_needs_refresh s;
     s_pending_kx := s_pending_kx s; s_pending := s_pending s; s_prev_counter := s_prev_counter s;
     s_recv := s_recv s; s_remote_id := s_remote_id s; s_remote_reg := s_remote_reg s;
     s_root := s_root s; s_base := s_base s; s_sender := c; s_version := s_version s |}.

(** state/record/state_session.go:286-293 SetSenderChain *)
Definition set_sender_chain (p : ec_pair) (ck : chain_key) (s : state) : state :=
  set_sender (Some {| ch_pair := p; ch_key := ck; ch_msgs := [] |}) s.

(** state/record/state_session.go:303-306 SetSenderChainKey (panics on a nil sender chain; the callers have read it before). *)
Definition set_sender_chain_key (ck : chain_key) (s : state) : state :=
  match s_sender s with
  | Some c => set_sender (Some {| ch_pair := ch_pair c; ch_key := ck; ch_msgs := ch_msgs c |}) s
  | None => s
  end.

(** state/record/state_session.go:229-245 receiverChain: the first chain whose ratchet key equals the given one. *)
Definition chain_is (k : arr32) (c : chain) : bool := arr_eqb (kp_pub (ch_pair c)) k.
Definition receiver_chain (k : arr32) (s : state) : option chain := find (chain_is k) (s_recv s).

(** A mutation through the pointer returned by receiverChain: changes the first matching chain in place. *)
Fixpoint upd_first (k : arr32) (f : chain -> chain) (l : list chain) : list chain :=
  match l with
  | [] => []
  | c :: r => if chain_is k c then f c :: r else c :: upd_first k f r
  end.
Definition upd_chain (k : arr32) (f : chain -> chain) (s : state) : state :=
  set_recv (upd_first k f (s_recv s)) s.

(** state/record/state_session.go:266-282 AddReceiverChain *)
Definition add_receiver_chain (k : arr32) (ck : chain_key) (s : state) : state :=
  let l := s_recv s ++ [{| ch_pair := {| kp_pub := k; kp_priv := None |}; ch_key := ck; ch_msgs := [] |}] in
  set_recv (if (max_receiver_chains <? length l)%nat then tl l else l) s.

(** state/record/state_session.go:310-332 HasMessageKeys, on the chain found *)
Definition has_message_keys (c : chain) (n : N) : bool :=
  existsb (fun m => (mk_index m =? n)%N) (ch_msgs c).

(** state/record/state_session.go:336-371 RemoveMessageKeys, on the chain's list: position of the first key with that
    index, position 0 if there is none (352); [None] is the index-out-of-range panic at 360. *)
Fixpoint find_index (n : N) (l : list msg_keys) : option nat :=
  match l with
  | [] => None
  | m :: r => if (mk_index m =? n)%N then Some O
              else match find_index n r with Some i => Some (S i) | None => None end
  end.
Definition remove_message_keys (c : chain) (n : N) : option (msg_keys * chain) :=
  let i := match find_index n (ch_msgs c) with Some i => i | None => O end in
  match nth_error (ch_msgs c) i with
  | None => None
  | Some m => Some (m, {| ch_pair := ch_pair c; ch_key := ch_key c;
                          ch_msgs := firstn i (ch_msgs c) ++ skipn (S i) (ch_msgs c) |})
  end.

(** state/record/state_session.go:375-392 SetMessageKeys on the chain: append, pop the first when over 2000
    (state/record/state_chain.go:120-131). *)
Definition chain_add_key (m : msg_keys) (c : chain) : chain :=
  let l := ch_msgs c ++ [m] in
  {| ch_pair := ch_pair c; ch_key := ch_key c;
     ch_msgs := if (max_message_keys <? length l)%nat then tl l else l |}.

(** state/record/state_session.go:396-400 SetReceiverChainKey on the chain (state/record/state_chain.go:102-104) *)
Definition chain_set_key (ck : chain_key) (c : chain) : chain :=
  {| ch_pair := ch_pair c; ch_key := ck; ch_msgs := ch_msgs c |}.

(** * Serializable structures *)

(** state/record/state_chain.go:70-75 ChainStructure; key structures (keys/chain/key.go:44-47,
    keys/message/key.go:54-59) have the same fields as the keys. A private key slice is nil ([None]) when absent. *)
Record chain_struct : Type := {
  cs_pub : bytes; cs_priv : option bytes; cs_key : chain_key; cs_msgs : list msg_keys }.

(** state/record/state_pending_prekey.go:38-42 PendingPreKeyStructure *)
Record pp_struct : Type := { ps_id : option opt_u32; ps_signed : N; ps_base : bytes }.

(** state/record/state_pending_key_exchange.go:59-67 PendingKeyExchangeStructure *)
Record px_struct : Type := {
  xs_seq : N; xs_base_pub : bytes; xs_base_priv : bytes; xs_ratchet_pub : bytes; xs_ratchet_priv : bytes;
  xs_ident_pub : bytes; xs_ident_priv : bytes }.

(** state/record/state_session.go:100-114 StateStructure *)
Record state_struct : Type := {
  ss_local_id : bytes;
  ss_local_reg : N;
  ss_needs_refresh : bool;
  ss_pending_kx : option px_struct;
  ss_pending : option pp_struct;
  ss_prev_counter : N;
  ss_recv : list chain_struct;
  ss_remote_id : bytes;
  ss_remote_reg : N;
  ss_root : bytes;
  ss_base : bytes;
  ss_sender : chain_struct;
  ss_version : Z }.

(** state/record/state_chain.go:134-157 structure *)
Definition chain_structure (c : chain) : chain_struct :=
  {| cs_pub := ser_pub (kp_pub (ch_pair c));
     cs_priv := match kp_priv (ch_pair c) with Some k => Some (abytes k) | None => None end;
     cs_key := ch_key c; cs_msgs := ch_msgs c |}.

(** state/record/state_chain.go:38-67 NewChainFromStructure: the private key is restored when it has 32 bytes. *)
Definition chain_from_structure (c : chain_struct) : res chain :=
  pub <- decode_point (cs_pub c) ;;
  Ok {| ch_pair := {| kp_pub := pub;
                      kp_priv := match cs_priv c with
                                 | Some b => if (length b =? 32)%nat then Some (to_arr 32 b) else None
                                 | None => None
                                 end |};
        ch_key := cs_key c; ch_msgs := cs_msgs c |}.

(** state/record/state_pending_prekey.go:53-62 and 21-34 *)
Definition pp_structure (p : pending_prekey) : pp_struct :=
  {| ps_id := pp_id p; ps_signed := pp_signed p; ps_base := ser_pub (pp_base p) |}.
Definition pp_from_structure (p : pp_struct) : res pending_prekey :=
  b <- decode_point (ps_base p) ;;
  Ok {| pp_id := ps_id p; pp_signed := ps_signed p; pp_base := b |}.

(** state/record/state_pending_key_exchange.go:80-91 structure (raw 32-byte keys; a nil private key panics) *)
Definition px_structure (p : pending_kx) : res px_struct :=
  match kp_priv (px_base p), kp_priv (px_ratchet p) with
  | Some b, Some r =>
      Ok {| xs_seq := px_seq p;
            xs_base_pub := abytes (kp_pub (px_base p)); xs_base_priv := abytes b;
            xs_ratchet_pub := abytes (kp_pub (px_ratchet p)); xs_ratchet_priv := abytes r;
            xs_ident_pub := abytes (ip_pub (px_ident p)); xs_ident_priv := abytes (ip_priv (px_ident p)) |}
  | _, _ => Panic
  end.

(** state/record/state_pending_key_exchange.go:24-54 NewPendingKeyExchangeFromStruct *)
Definition px_from_structure (p : px_struct) : pending_kx :=
  {| px_seq := xs_seq p;
     px_base := {| kp_pub := to_arr 32 (xs_base_pub p); kp_priv := Some (to_arr 32 (xs_base_priv p)) |};
     px_ratchet := {| kp_pub := to_arr 32 (xs_ratchet_pub p); kp_priv := Some (to_arr 32 (xs_ratchet_priv p)) |};
     px_ident := {| ip_pub := to_arr 32 (xs_ident_pub p); ip_priv := to_arr 32 (xs_ident_priv p) |} |}.

(** state/record/state_session.go:502-531 structure: panics when an identity key, the root key, the base key or the
    sender chain is nil. *)
Definition state_structure (s : state) : res state_struct :=
  px <- (match s_pending_kx s with
         | Some p => x <- px_structure p ;; Ok (Some x)
         | None => Ok None
         end) ;;
  match s_local_id s, s_remote_id s, s_root s, s_base s, s_sender s with
  | Some li, Some ri, Some rk, Some bk, Some sc =>
      Ok {| ss_local_id := ser_pub li; ss_local_reg := s_local_reg s; ss_needs_refresh := s_needs_refresh s;
            ss_pending_kx := px;
            ss_pending := match s_pending s with Some p => Some (pp_structure p) | None => None end;
            ss_prev_counter := s_prev_counter s;
            ss_recv := map chain_structure (s_recv s);
            ss_remote_id := ser_pub ri; ss_remote_reg := s_remote_reg s;
            ss_root := rk; ss_base := ser_pub bk; ss_sender := chain_structure sc;
            ss_version := s_version s |}
  | _, _, _, _, _ => Panic
  end.

(** Sequential processing of a slice, stopping at the first error or panic. *)
Fixpoint map_res {A B} (f : A -> res B) (l : list A) : res (list B) :=
  match l with
  | [] => Ok []
  | a :: r => b <- f a ;; bs <- map_res f r ;; Ok (b :: bs)
  end.

(** state/record/state_session.go:46-96 NewStateFromStructure. The code collects errors and reports the first one; a
    panic in a later field wins over an earlier error there, whereas here the first failure is returned
    (both are failures: no record is produced). *)
Definition state_from_structure (t : state_struct) : res state :=
  li <- decode_point (ss_local_id t) ;;
  ri <- decode_point (ss_remote_id t) ;;
  bk <- decode_point (ss_base t) ;;
  pp <- (match ss_pending t with
         | Some p => x <- pp_from_structure p ;; Ok (Some x)
         | None => Ok None
         end) ;;
  sc <- chain_from_structure (ss_sender t) ;;
  rc <- map_res chain_from_structure (ss_recv t) ;;
  Ok {| s_local_id := Some li; s_local_reg := ss_local_reg t; s_needs_refresh := ss_needs_refresh t;
        s_pending_kx := match ss_pending_kx t with Some p => Some (px_from_structure p) | None => None end;
        s_pending := pp; s_prev_counter := ss_prev_counter t; s_recv := rc;
        s_remote_id := Some ri; s_remote_reg := ss_remote_reg t; s_root := Some (ss_root t);
        s_base := Some bk; s_sender := Some sc; s_version := ss_version t |}.
