(** SessionCallSpec.v: the answer of every session call and what it leaves in the stores, case by case (C80). Written from the description of the
    double ratchet and of X3DH: no function of the session cipher or builder is used, only the types of the records and messages, the key
    schedule and wire bytes of WireFormatSpec.v and the fate of a message body (BodySpec.v). *)
From Verif Require Import Base Labels Crypto Ecc Keys Messages SessionState SessionRecord SessionBuilder SessionCipher Address World
  WireFormatSpec WireGrammarSpec BodySpec GroupSpec ConvSpec ThreadSpec.
From Coq Require Import NArith ZArith List.
Import ListNotations.
Local Open Scope N_scope.

Section Spec.
Context (C : crypto).

(** * One session state *)

(** A state with other receiving chains, sending chain, root key, previous counter and pending prekey, the rest as before. *)
Definition moved (s : state) (recv : list chain) (sender : option chain) (root : option bytes) (prev : N) (pending : option pending_prekey) : state :=
  {| s_local_id := s_local_id s; s_local_reg := s_local_reg s; s_needs_refresh := s_needs_refresh s; s_pending_kx := s_pending_kx s; s_pending := pending;
     s_prev_counter := prev; s_recv := recv; s_remote_id := s_remote_id s; s_remote_reg := s_remote_reg s; s_root := root; s_base := s_base s; s_sender := sender;
     s_version := s_version s |}.
Definition with_chains (s : state) (recv : list chain) : state := moved s recv (s_sender s) (s_root s) (s_prev_counter s) (s_pending s).

(** The first receiving chain with ratchet key [k]. *)
Definition chain_at (k : arr32) (l before : list chain) (c : chain) (after : list chain) : Prop :=
  l = before ++ c :: after /\ kp_pub (ch_pair c) = k /\ forall x, In x before -> kp_pub (ch_pair x) <> k.
Definition no_chain (k : arr32) (l : list chain) : Prop := forall x, In x l -> kp_pub (ch_pair x) <> k.

Definition new_chain (p : ec_pair) (key : bytes) : chain := {| ch_pair := p; ch_key := {| ck_key := key; ck_index := 0 |}; ch_msgs := [] |}.

(** [turned s k g s1 g1]: [s1] has a receiving chain for ratchet key [k]. If there was none, one is derived with the present sending ratchet key and a new
    sending chain with a new one; five receiving chains are kept, and the number of the last message of the old sending chain is remembered. *)
Inductive turned (s : state) (k : arr32) (g : rng) : state -> rng -> Prop :=
| turned_known : forall before c after, chain_at k (s_recv s) before c after -> turned s k g s g
| turned_new : forall root sc priv root1 chain1 seed g1 root2 chain2, no_chain k (s_recv s) ->
    s_root s = Some root -> s_sender s = Some sc -> kp_priv (ch_pair sc) = Some priv -> root_step C root (abytes (x_mult C priv k)) root1 chain1 ->
    rng_read 32 g = (Some seed, g1) -> root_step C root1 (abytes (x_mult C (clamp seed) k)) root2 chain2 ->
    turned s k g
      (moved s (last_n 5 (s_recv s ++ [new_chain {| kp_pub := k; kp_priv := None |} chain1]))
         (Some (new_chain {| kp_pub := x_base C (clamp seed); kp_priv := Some (clamp seed) |} chain2)) (Some root2)
         ((ck_index (ch_key sc) + (2 ^ 32 - 1)) mod 2 ^ 32) (s_pending s)) g1.

(** The keys of message number [i] from now on a chain. *)
Definition key_number (ck : chain_key) (i : nat) (k : msg_keys) : Prop :=
  mk_index k = ck_index ck + N.of_nat i /\ message_keys_of_chain C (chain_after C i (ck_key ck)) (mk_cipher k) (mk_mac k) (mk_iv k).

(** [taken s k n mk s']: message [n] of the chain for [k] is read with [mk], and [s'] is what is remembered then. Either it was skipped and its keys kept,
    or it is at most 5000 ahead; the keys of those skipped now are kept, 2000 in all, the oldest going first. *)
Inductive taken (s : state) (k : arr32) (n : N) : msg_keys -> state -> Prop :=
| taken_kept : forall before c after x mk y, chain_at k (s_recv s) before c after -> n < ck_index (ch_key c) ->
    ch_msgs c = x ++ mk :: y -> mk_index mk = n -> (forall z, In z x -> mk_index z <> n) ->
    taken s k n mk (with_chains s (before ++ {| ch_pair := ch_pair c; ch_key := ch_key c; ch_msgs := x ++ y |} :: after))
| taken_new : forall before c after ahead mk skipped, chain_at k (s_recv s) before c after -> n = ck_index (ch_key c) + N.of_nat ahead -> N.of_nat ahead <= 5000 ->
    key_number (ch_key c) ahead mk -> Forall2 (key_number (ch_key c)) (seq 0 ahead) skipped ->
    taken s k n mk
      (with_chains s (before ++
         {| ch_pair := ch_pair c; ch_key := {| ck_key := chain_after C (ahead + 1) (ck_key (ch_key c)); ck_index := (n + 1) mod 2 ^ 32 |};
            ch_msgs := last_n (N.to_nat 2000) (ch_msgs c ++ skipped) |} :: after)).

(** The protocol buffer a message object stands for, and its MAC: over both identity keys, the sender's first, the version byte and the protocol buffer. *)
Definition proto_of (m : sig_msg) (l : bytes) : Prop :=
  exists key body vk vc vp vl, sg_ratchet (sm_struct m) = Some key /\ sg_ct (sm_struct m) = Some body /\
    WireFormatSpec.varint (N.of_nat (length key)) vk /\ WireFormatSpec.varint (sg_counter (sm_struct m)) vc /\ WireFormatSpec.varint (sg_prev (sm_struct m)) vp /\ WireFormatSpec.varint (N.of_nat (length body)) vl /\
    l = x0a :: vk ++ key ++ x10 :: vc ++ x18 :: vp ++ x22 :: vl ++ body.
Definition authentic (mac_key : bytes) (sender receiver : arr32) (m : sig_msg) : Prop :=
  exists l, proto_of m l /\ sg_mac (sm_struct m) = Some (firstn 8 (hmac C mac_key (x05 :: abytes sender ++ x05 :: abytes receiver ++ x33 :: l))).

Definition body_of (m : sig_msg) : bytes := match sg_ct (sm_struct m) with Some b => b | None => [] end.
Definition counter_of (m : sig_msg) : N := sg_counter (sm_struct m).

(** [attempt s m g o s' g']: one session state with one message. A failed attempt still moves the state. *)
Inductive attempt (s : state) (m : sig_msg) (g : rng) : res (bytes * msg_keys) -> state -> rng -> Prop :=
| attempt_version : sg_version (sm_struct m) <> s_version s -> attempt s m g (Err EWrongVersion) s g
| attempt_random : forall g', sg_version (sm_struct m) = s_version s -> no_chain (sm_ratchet m) (s_recv s) -> rng_read 32 g = (None, g') -> attempt s m g (Err ERand) s g'
| attempt_old : forall s1 g1 before c after, sg_version (sm_struct m) = s_version s -> turned s (sm_ratchet m) g s1 g1 -> chain_at (sm_ratchet m) (s_recv s1) before c after ->
    counter_of m < ck_index (ch_key c) -> (forall x, In x (ch_msgs c) -> mk_index x <> counter_of m) -> attempt s m g (Err EOldCounter) s1 g1
| attempt_far : forall s1 g1 before c after, sg_version (sm_struct m) = s_version s -> turned s (sm_ratchet m) g s1 g1 -> chain_at (sm_ratchet m) (s_recv s1) before c after ->
    ck_index (ch_key c) + 5000 < counter_of m -> attempt s m g (Err ETooFarFuture) s1 g1
| attempt_forged : forall s1 g1 mk s2 me you, sg_version (sm_struct m) = s_version s -> turned s (sm_ratchet m) g s1 g1 -> taken s1 (sm_ratchet m) (counter_of m) mk s2 ->
    s_local_id s = Some me -> s_remote_id s = Some you -> ~ authentic (mk_mac mk) you me m -> attempt s m g (Err EBadMac) s2 g1
| attempt_garbled : forall s1 g1 mk s2 me you e, sg_version (sm_struct m) = s_version s -> turned s (sm_ratchet m) g s1 g1 -> taken s1 (sm_ratchet m) (counter_of m) mk s2 ->
    s_local_id s = Some me -> s_remote_id s = Some you -> authentic (mk_mac mk) you me m -> body_fate C (mk_cipher mk) (mk_iv mk) (body_of m) (Err e) ->
    attempt s m g (Err e) s2 g1
| attempt_crash : forall s1 g1 mk s2 me you, sg_version (sm_struct m) = s_version s -> turned s (sm_ratchet m) g s1 g1 -> taken s1 (sm_ratchet m) (counter_of m) mk s2 ->
    s_local_id s = Some me -> s_remote_id s = Some you -> authentic (mk_mac mk) you me m -> body_fate C (mk_cipher mk) (mk_iv mk) (body_of m) Panic ->
    attempt s m g Panic s2 g1
| attempt_read : forall s1 g1 mk s2 me you pt, sg_version (sm_struct m) = s_version s -> turned s (sm_ratchet m) g s1 g1 -> taken s1 (sm_ratchet m) (counter_of m) mk s2 ->
    s_local_id s = Some me -> s_remote_id s = Some you -> authentic (mk_mac mk) you me m -> body_fate C (mk_cipher mk) (mk_iv mk) (body_of m) (Ok pt) ->
    attempt s m g (Ok (pt, mk)) (moved s2 (s_recv s2) (s_sender s2) (s_root s2) (s_prev_counter s2) None) g1.

(** * The record: the current state, then the archived ones in order *)

(** All of these refuse the message; they have moved all the same. *)
Inductive refused : list state -> sig_msg -> rng -> list state -> rng -> Prop :=
| refused_none : forall m g, refused [] m g [] g
| refused_one : forall s l m g e s' g1 l' g2, attempt s m g (Err e) s' g1 -> refused l m g1 l' g2 -> refused (s :: l) m g (s' :: l') g2.

(** [Some r'] is the record to be stored. When an archived state reads the message it becomes the current one and the former current one is archived
    first; the archive loses the state at its place but not in its length: its last element is there twice. *)
Inductive record_fate (r : record) (m : sig_msg) (g : rng) : res (bytes * msg_keys) -> option record -> rng -> Prop :=
| record_current : forall x s' g', attempt (r_cur r) m g (Ok x) s' g' ->
    record_fate r m g (Ok x) (Some {| r_cur := s'; r_prev := r_prev r; r_fresh := false |}) g'
| record_crash : forall s' g', attempt (r_cur r) m g Panic s' g' -> record_fate r m g Panic None g'
| record_archived : forall e cur g1 before s after before' g2 x s' g3, attempt (r_cur r) m g (Err e) cur g1 -> r_prev r = before ++ s :: after ->
    refused before m g1 before' g2 -> attempt s m g2 (Ok x) s' g3 ->
    record_fate r m g (Ok x) (Some {| r_cur := s'; r_prev := firstn 40 (cur :: before' ++ after ++ [last after s']); r_fresh := false |}) g3
| record_archived_crash : forall e cur g1 before s after before' g2 s' g3, attempt (r_cur r) m g (Err e) cur g1 -> r_prev r = before ++ s :: after ->
    refused before m g1 before' g2 -> attempt s m g2 Panic s' g3 -> record_fate r m g Panic None g3
| record_refused : forall e cur g1 prev g2, attempt (r_cur r) m g (Err e) cur g1 -> refused (r_prev r) m g1 prev g2 -> record_fate r m g (Err ENoValidSessions) None g2.

(** * The calls *)

(** What a call leaves behind for its address: the session record and the identity key it stores, the one-time prekey it removes. *)
Record change : Type := { new_session : option record; new_identity : option arr32; used_prekey : option N }.
Definition no_change : change := {| new_session := None; new_identity := None; used_prekey := None |}.
Definition applied (w : world) (a : address) (d : change) (w' : world) : Prop :=
  w_sessions w' a = match new_session d with Some r => Some r | None => w_sessions w a end /\ w_saved w' a = match new_identity d with Some k => Some k | None => w_saved w a end /\
  (forall b, b <> a -> w_sessions w' b = w_sessions w b /\ w_saved w' b = w_saved w b) /\
  (forall i, used_prekey d = Some i -> w_prekeys w' i = None) /\ (forall i, used_prekey d <> Some i -> w_prekeys w' i = w_prekeys w i) /\
  w_signed w' = w_signed w /\ w_self w' = w_self w /\ w_reg w' = w_reg w /\ w_policy w' = w_policy w.

(** session/cipher.go:132-160 Decrypt, DecryptAndGetKey *)
Inductive decrypt_fate (w : world) (a : address) (m : sig_msg) (g : rng) : res (bytes * msg_keys) -> change -> rng -> Prop :=
| decrypt_no_session : w_sessions w a = None -> decrypt_fate w a m g (Err ENoSession) no_change g
| decrypt_fails : forall r o g', w_sessions w a = Some r -> record_fate r m g o None g' -> decrypt_fate w a m g o no_change g'
| decrypt_reads : forall r o r' you g', w_sessions w a = Some r -> record_fate r m g o (Some r') g' -> s_remote_id (r_cur r') = Some you ->
    decrypt_fate w a m g o {| new_session := Some r'; new_identity := Some you; used_prekey := None |} g'.

(** session/cipher.go:65-128 Encrypt: the next message of the sending chain, inside a prekey message while the other side has not answered *)
Definition sent_as (s : state) (me : arr32) (wire : bytes) (m : sig_msg) (ct : ct_msg) : Prop :=
  match s_pending s with
  | None => ct = CSignal m
  | Some p => exists pm, ct = CPreKey pm /\ pm_base pm = pp_base p /\ pm_identity pm = me /\ pm_message pm = m /\
      pm_struct pm = {| pk_reg := s_local_reg s; pk_prekey_id := pp_id p; pk_signed_id := pp_signed p; pk_base := Some (x05 :: abytes (pp_base p));
                        pk_identity := Some (x05 :: abytes me); pk_message := Some wire; pk_version := 3 |}
  end.
Inductive encrypt_fate (w : world) (a : address) (pt : bytes) : res ct_msg -> change -> Prop :=
| encrypt_no_session : w_sessions w a = None -> encrypt_fate w a pt Panic no_change
| encrypt_sent : forall r sc me you mk body m wire mac ct, w_sessions w a = Some r -> s_sender (r_cur r) = Some sc -> s_local_id (r_cur r) = Some me -> s_remote_id (r_cur r) = Some you ->
    key_number (ch_key sc) 0 mk -> cbc_ciphertext C (mk_cipher mk) (mk_iv mk) pt body ->
    signal_wire C (mk_mac mk) me you (kp_pub (ch_pair sc)) (ck_index (ch_key sc)) (s_prev_counter (r_cur r)) body wire ->
    sm_ratchet m = kp_pub (ch_pair sc) -> authentic (mk_mac mk) me you m ->
    sm_struct m = {| sg_ratchet := Some (x05 :: abytes (kp_pub (ch_pair sc))); sg_counter := ck_index (ch_key sc); sg_prev := s_prev_counter (r_cur r); sg_ct := Some body;
                     sg_version := 3; sg_mac := Some mac |} ->
    sent_as (r_cur r) me wire m ct ->
    encrypt_fate w a pt (Ok ct)
      {| new_session := Some {| r_cur := moved (r_cur r) (s_recv (r_cur r))
                                  (Some {| ch_pair := ch_pair sc; ch_key := {| ck_key := chain_after C 1 (ck_key (ch_key sc)); ck_index := (ck_index (ch_key sc) + 1) mod 2 ^ 32 |};
                                           ch_msgs := ch_msgs sc |}) (s_root (r_cur r)) (s_prev_counter (r_cur r)) (s_pending (r_cur r));
                                r_prev := r_prev r; r_fresh := false |};
         new_identity := Some you; used_prekey := None |}.

(** The archive when a new session begins: the former current state first, 40 in all. *)
Definition archive_now (w : world) (a : address) : list state :=
  match w_sessions w a with Some r => firstn 40 (r_cur r :: r_prev r) | None => [] end.

(** session/session.go:177-275 ProcessBundle *)
Inductive bundle_fate (w : world) (a : address) (b : bundle) (g : rng) : res unit -> change -> rng -> Prop :=
| bundle_untrusted : w_policy w (w_saved w) a (b_identity b) = false -> bundle_fate w a b g (Err EUntrusted) no_change g
| bundle_unsigned : w_policy w (w_saved w) a (b_identity b) = true -> b_signed b = None -> bundle_fate w a b g (Err ENoSignedPreKey) no_change g
| bundle_forged : forall k, w_policy w (w_saved w) a (b_identity b) = true -> b_signed b = Some k ->
    verify_signature C (b_identity b) (x05 :: abytes k) (b_sig b) = false -> bundle_fate w a b g (Err EInvalidSignature) no_change g
| bundle_random : forall k g', w_policy w (w_saved w) a (b_identity b) = true -> b_signed b = Some k -> verify_signature C (b_identity b) (x05 :: abytes k) (b_sig b) = true ->
    rng_read 32 g = (None, g') -> bundle_fate w a b g (Err ERand) no_change g'
| bundle_random_again : forall k seed1 g1 g', w_policy w (w_saved w) a (b_identity b) = true -> b_signed b = Some k ->
    verify_signature C (b_identity b) (x05 :: abytes k) (b_sig b) = true ->
    rng_read 32 g = (Some seed1, g1) -> rng_read 32 g1 = (None, g') -> bundle_fate w a b g (Err ERand) no_change g'
| bundle_session : forall k seed1 g1 seed2 g' root1 chain1 root2 chain2, w_policy w (w_saved w) a (b_identity b) = true -> b_signed b = Some k ->
    verify_signature C (b_identity b) (x05 :: abytes k) (b_sig b) = true -> rng_read 32 g = (Some seed1, g1) -> rng_read 32 g1 = (Some seed2, g') ->
    x3dh_output C (x3dh_secret (x_mult C (ip_priv (w_self w)) k) (x_mult C (clamp seed1) (b_identity b)) (x_mult C (clamp seed1) k)
                     (option_map (x_mult C (clamp seed1)) (b_prekey b))) root1 chain1 ->
    root_step C root1 (abytes (x_mult C (clamp seed2) k)) root2 chain2 ->
    bundle_fate w a b g (Ok tt)
      {| new_session := Some
           {| r_cur := {| s_local_id := Some (ip_pub (w_self w)); s_local_reg := w_reg w; s_needs_refresh := false; s_pending_kx := None;
                          s_pending := Some {| pp_id := b_prekey_id b; pp_signed := b_signed_id b; pp_base := x_base C (clamp seed1) |}; s_prev_counter := 0;
                          s_recv := [new_chain {| kp_pub := k; kp_priv := None |} chain1]; s_remote_id := Some (b_identity b); s_remote_reg := b_reg b; s_root := Some root2;
                          s_base := Some (x_base C (clamp seed1)); s_sender := Some (new_chain {| kp_pub := x_base C (clamp seed2); kp_priv := Some (clamp seed2) |} chain2);
                          s_version := 3 |};
              r_prev := archive_now w a; r_fresh := false |};
         new_identity := Some (b_identity b); used_prekey := None |} g'.

(** A session with the version and the base key of the prekey message exists already, current or archived. *)
Definition session_known (w : world) (a : address) (m : pk_msg) : Prop :=
  exists r s, w_sessions w a = Some r /\ In s (r_cur r :: r_prev r) /\ s_version s = pk_version (pm_struct m) /\ s_base s = Some (pm_base m).
Definition session_unknown (w : world) (a : address) (m : pk_msg) : Prop := ~ session_known w a m.

(** The one-time prekey a prekey message names: none at all, or one in the store. *)
Inductive one_time (w : world) (m : pk_msg) : option arr32 -> Prop :=
| one_time_none : pk_prekey_id (pm_struct m) = None -> one_time w m None
| one_time_found : forall o p priv, pk_prekey_id (pm_struct m) = Some o -> w_prekeys w (ou_value o) = Some p -> kp_priv p = Some priv -> one_time w m (Some priv).
(** What is removed afterwards; a message without an id, or with the largest one, has none to remove. *)
Definition to_remove (m : pk_msg) : option opt_u32 :=
  match pk_prekey_id (pm_struct m) with Some o => if ou_value o =? 16777215 then None else Some o | None => None end.
(** The record in which the message inside is then read: a new session, the former current one archived. *)
Definition responder (w : world) (a : address) (m : pk_msg) (r : record) : Prop :=
  exists signed priv otk root chain, w_signed w (pk_signed_id (pm_struct m)) = Some signed /\ kp_priv signed = Some priv /\ one_time w m otk /\
    x3dh_output C (x3dh_secret (x_mult C priv (pm_identity m)) (x_mult C (ip_priv (w_self w)) (pm_base m)) (x_mult C priv (pm_base m))
                     (option_map (fun o => x_mult C o (pm_base m)) otk)) root chain /\
    r_cur r = {| s_local_id := Some (ip_pub (w_self w)); s_local_reg := w_reg w; s_needs_refresh := false; s_pending_kx := None; s_pending := None; s_prev_counter := 0; s_recv := [];
                 s_remote_id := Some (pm_identity m); s_remote_reg := pk_reg (pm_struct m); s_root := Some root; s_base := Some (pm_base m);
                 s_sender := Some (new_chain signed chain); s_version := 3 |} /\
    r_prev r = archive_now w a.

(** session/cipher.go:162-184 DecryptMessage, DecryptMessageReturnKey, with session/session.go:83-173 *)
Inductive message_fate (w : world) (a : address) (m : pk_msg) (g : rng) : res (bytes * msg_keys) -> change -> rng -> Prop :=
| message_untrusted : w_policy w (w_saved w) a (pm_identity m) = false -> message_fate w a m g (Err EUntrusted) no_change g
| message_repeat_fails : forall r o g', w_policy w (w_saved w) a (pm_identity m) = true -> session_known w a m -> w_sessions w a = Some r -> record_fate r (pm_message m) g o None g' ->
    message_fate w a m g o {| new_session := None; new_identity := Some (pm_identity m); used_prekey := None |} g'
| message_repeat : forall r o r' g', w_policy w (w_saved w) a (pm_identity m) = true -> session_known w a m -> w_sessions w a = Some r -> record_fate r (pm_message m) g o (Some r') g' ->
    message_fate w a m g o {| new_session := Some r'; new_identity := Some (pm_identity m); used_prekey := None |} g'
| message_unsigned : w_policy w (w_saved w) a (pm_identity m) = true -> session_unknown w a m -> w_signed w (pk_signed_id (pm_struct m)) = None -> message_fate w a m g Panic no_change g
| message_used_up : forall signed o, w_policy w (w_saved w) a (pm_identity m) = true -> session_unknown w a m -> w_signed w (pk_signed_id (pm_struct m)) = Some signed ->
    pk_prekey_id (pm_struct m) = Some o -> w_prekeys w (ou_value o) = None -> message_fate w a m g (Err ENilOneTimePreKey) no_change g
| message_fails : forall r o g', w_policy w (w_saved w) a (pm_identity m) = true -> session_unknown w a m -> responder w a m r -> record_fate r (pm_message m) g o None g' ->
    message_fate w a m g o {| new_session := None; new_identity := Some (pm_identity m); used_prekey := None |} g'
| message_read : forall r x r' id g', w_policy w (w_saved w) a (pm_identity m) = true -> session_unknown w a m -> responder w a m r -> record_fate r (pm_message m) g (Ok x) (Some r') g' ->
    to_remove m = Some id ->
    message_fate w a m g (Ok x) {| new_session := Some r'; new_identity := Some (pm_identity m); used_prekey := if ou_empty id then None else Some (ou_value id) |} g'
| message_read_then_crash : forall r x r' g', w_policy w (w_saved w) a (pm_identity m) = true -> session_unknown w a m -> responder w a m r ->
    record_fate r (pm_message m) g (Ok x) (Some r') g' -> to_remove m = None ->
    message_fate w a m g Panic {| new_session := Some r'; new_identity := Some (pm_identity m); used_prekey := None |} g'.

(** * What the calls may be given *)

(** A message object as a parser or constructor returns it; Go lengths are below 2^63. *)
Definition message_object (m : sig_msg) : Prop :=
  exists key body, sg_ratchet (sm_struct m) = Some key /\ key_fate key (Ok (sm_ratchet m)) /\ sg_ct (sm_struct m) = Some body /\
    (2 <= sg_version (sm_struct m) <= 3)%Z /\ sg_counter (sm_struct m) < 2 ^ 32 /\ sg_prev (sm_struct m) < 2 ^ 32 /\
    N.of_nat (length key) < 2 ^ 63 /\ N.of_nat (length body) < 2 ^ 63.
(** The prekey stores hold key pairs with their private halves. *)
Definition private_halves (w : world) : Prop :=
  (forall i p, w_prekeys w i = Some p -> kp_priv p <> None) /\ (forall i p, w_signed w i = Some p -> kp_priv p <> None).

(** * Calls on bytes, and programs of calls for any addresses *)
Inductive packet_fate (w : world) (a : address) (g : rng) : packet -> res bytes -> change -> Prop :=
| signal_unread : forall b e, signal_fate b (Err e) -> packet_fate w a g (PSignal b) (Err e) no_change
| signal_unread_crash : forall b, signal_fate b Panic -> packet_fate w a g (PSignal b) Panic no_change
| signal_decrypt : forall b m o d g', signal_fate b (Ok m) -> decrypt_fate w a m g o d g' -> packet_fate w a g (PSignal b) (plain o) d
| prekey_unread : forall b e, prekey_fate b (Err e) -> packet_fate w a g (PPreKey b) (Err e) no_change
| prekey_unread_crash : forall b, prekey_fate b Panic -> packet_fate w a g (PPreKey b) Panic no_change
| prekey_decrypt : forall b m o d g', prekey_fate b (Ok m) -> message_fate w a m g o d g' -> packet_fate w a g (PPreKey b) (plain o) d.

Inductive call_fate (w : world) (a : address) : call -> res answer -> change -> Prop :=
| call_encrypt : forall pt o d, encrypt_fate w a pt o d -> call_fate w a (DoEncrypt pt) (map_res ACipher o) d
| call_receive : forall k g o d, packet_fate w a g k o d -> call_fate w a (DoReceive k g) (map_res APlain o) d
| call_bundle : forall b g o d g', bundle_fate w a b g o d g' -> call_fate w a (DoBundle b g) (map_res (fun _ => ADone) o) d.

(** Two sets of stores with the same contents. *)
Definition same_stores (w w' : world) : Prop :=
  (forall a, w_sessions w' a = w_sessions w a) /\ (forall a, w_saved w' a = w_saved w a) /\ (forall i, w_prekeys w' i = w_prekeys w i) /\
  w_signed w' = w_signed w /\ w_self w' = w_self w /\ w_reg w' = w_reg w /\ w_policy w' = w_policy w.
(** The trust policy looks at the saved identities only through their values. *)
Definition policy_by_contents (w : world) : Prop := forall f f' a k, (forall b, f' b = f b) -> w_policy w f' a k = w_policy w f a k.

Inductive program_fate : world -> list (address * call) -> list (res answer) -> world -> Prop :=
| program_end : forall w w', same_stores w w' -> program_fate w [] [] w'
| program_call : forall w a c o d w1 rest l w2, call_fate w a c o d -> applied w a d w1 -> program_fate w1 rest l w2 -> program_fate w ((a, c) :: rest) (o :: l) w2.

(** Go lengths are below 2^63. *)
Definition call_fits (c : call) : Prop :=
  match c with
  | DoEncrypt pt => N.of_nat (length pt) + 16 < 2 ^ 63
  | DoReceive (PSignal b) _ | DoReceive (PPreKey b) _ => N.of_nat (length b) < 2 ^ 63
  | DoBundle _ _ => True
  end.
End Spec.

(** The program run by the code: each call of [call_alone] after the one before. *)
Fixpoint run_program (C : crypto) (cs : list (address * call)) (w : world) : list (res answer) * world :=
  match cs with
  | [] => ([], w)
  | (a, c) :: rest => let '(o, w1) := call_alone C a c w in let '(l, w2) := run_program C rest w1 in (o :: l, w2)
  end.
