(** LoadSpec.v: what becomes of a stored file, from the members json.Unmarshal finds in it (JsonValueSpec.v): the record it loads as, refusal
    with an error, or a crash of the program. Written without the loaders of JsonRecords.v (nor its lists of members: MembersSpec.v). C75. *)
From Verif Require Import Base Ecc Keys Messages SessionState SessionRecord Group PreKeyRecords Json JsonSpec JsonValueSpec MembersSpec.
From Coq Require Import NArith ZArith List.
Import ListNotations.
Open Scope list_scope.

Inductive fate (A : Type) : Type :=
| Loads (a : A)     (* the record is returned *)
| Refused           (* a key has an unknown type byte: an error is returned *)
| Unreadable        (* not JSON, or a member of the wrong kind: an error is returned *)
| Crashes.          (* run-time panic *)
Arguments Loads {A}. Arguments Refused {A}. Arguments Unreadable {A}. Arguments Crashes {A}.

(** A byte string member; absent and null are the empty string. *)
Definition content (b : option bytes) : bytes := match b with Some l => l | None => [] end.
Definition elements (l : option (list gval)) : list gval := match l with Some l => l | None => [] end.
(** The first n bytes, completed with zeroes. *)
Definition cut (n : nat) (l : bytes) (a : arr n) : Prop := abytes a = firstn n (l ++ repeat x00 n).

(** A public key: type byte 05 and the key. *)
Inductive key_member : option bytes -> fate arr32 -> Prop :=
| Key_good b l k : content b = x05 :: l -> cut 32 l k -> key_member b (Loads k)
| Key_other b t l : content b = t :: l -> t <> x05 -> key_member b Refused
| Key_missing b : content b = [] -> key_member b Crashes.

Inductive msg_keys_member : gval -> msg_keys -> Prop :=
| Msg_keys c m v i : msg_keys_member (VPtr (Some [VBytes c; VBytes m; VBytes v; VU32 i])) {| mk_cipher := content c; mk_mac := content m; mk_iv := content v; mk_index := i |}.

(** A private key of the wrong length is taken for an absent one. *)
Inductive private_member : option bytes -> option arr32 -> Prop :=
| Private_good b k : content b = abytes k -> private_member b (Some k)
| Private_bad b : List.length (content b) <> 32%nat -> private_member b None.

Inductive chain_member : gval -> fate chain -> Prop :=
| Chain_missing : chain_member (VPtr None) Crashes
| Chain_no_key pub priv ck ms : key_member pub Crashes -> chain_member (VPtr (Some [VBytes pub; VBytes priv; ck; VSlice ms])) Crashes
| Chain_bad_key pub priv ck ms : key_member pub Refused -> chain_member (VPtr (Some [VBytes pub; VBytes priv; ck; VSlice ms])) Refused
| Chain_gap pub priv ck ms k : key_member pub (Loads k) -> ck = VPtr None \/ In (VPtr None) (elements ms) ->
    chain_member (VPtr (Some [VBytes pub; VBytes priv; ck; VSlice ms])) Crashes
| Chain_good pub priv key i ms k p keys : key_member pub (Loads k) -> private_member priv p -> Forall2 msg_keys_member (elements ms) keys ->
    chain_member (VPtr (Some [VBytes pub; VBytes priv; VPtr (Some [VBytes key; VU32 i]); VSlice ms]))
      (Loads {| ch_pair := {| kp_pub := k; kp_priv := p |}; ch_key := {| ck_key := content key; ck_index := i |}; ch_msgs := keys |}).

Inductive optional_member : option (list gval) -> option opt_u32 -> Prop :=
| Optional_missing : optional_member None None
| Optional_there n e : optional_member (Some [VU32 n; VBool e]) (Some {| ou_value := n; ou_empty := e |}).
Inductive pending_member : option (list gval) -> fate (option pending_prekey) -> Prop :=
| Pending_missing : pending_member None (Loads None)
| Pending_no_key id n base : key_member base Crashes -> pending_member (Some [VPtr id; VU32 n; VBytes base]) Crashes
| Pending_bad_key id n base : key_member base Refused -> pending_member (Some [VPtr id; VU32 n; VBytes base]) Refused
| Pending_good id n base o k : key_member base (Loads k) -> optional_member id o ->
    pending_member (Some [VPtr id; VU32 n; VBytes base]) (Loads (Some {| pp_id := o; pp_signed := n; pp_base := k |})).
Inductive exchange_member : option (list gval) -> option pending_kx -> Prop :=
| Exchange_missing : exchange_member None None
| Exchange_there n a b c d e f a' b' c' d' e' f' : cut 32 (content a) a' -> cut 32 (content b) b' -> cut 32 (content c) c' -> cut 32 (content d) d' -> cut 32 (content e) e' -> cut 32 (content f) f' ->
    exchange_member (Some [VU32 n; VBytes a; VBytes b; VBytes c; VBytes d; VBytes e; VBytes f])
      (Some {| px_seq := n; px_base := {| kp_pub := a'; kp_priv := Some b' |}; px_ratchet := {| kp_pub := c'; kp_priv := Some d' |}; px_ident := {| ip_pub := e'; ip_priv := f' |} |}).

Inductive state_member : gval -> fate state -> Prop :=
| State_missing : state_member (VPtr None) Crashes
| State_crash li lreg nr px pp pc rcs ri rreg rk bk sc ver :
    key_member li Crashes \/ key_member ri Crashes \/ key_member bk Crashes \/ pending_member pp Crashes \/ chain_member sc Crashes \/
      (exists c, In c (elements rcs) /\ chain_member c Crashes) ->
    state_member (VPtr (Some [VBytes li; VU32 lreg; VBool nr; VPtr px; VPtr pp; VU32 pc; VSlice rcs; VBytes ri; VU32 rreg; VBytes rk; VBytes bk; sc; VInt ver])) Crashes
| State_refused li lreg nr px pp pc rcs ri rreg rk bk sc ver :
    ~ key_member li Crashes -> ~ key_member ri Crashes -> ~ key_member bk Crashes -> ~ pending_member pp Crashes -> ~ chain_member sc Crashes ->
      (forall c, In c (elements rcs) -> ~ chain_member c Crashes) ->
    key_member li Refused \/ key_member ri Refused \/ key_member bk Refused \/ pending_member pp Refused \/ chain_member sc Refused \/
      (exists c, In c (elements rcs) /\ chain_member c Refused) ->
    state_member (VPtr (Some [VBytes li; VU32 lreg; VBool nr; VPtr px; VPtr pp; VU32 pc; VSlice rcs; VBytes ri; VU32 rreg; VBytes rk; VBytes bk; sc; VInt ver])) Refused
| State_good li lreg nr px pp pc rcs ri rreg rk bk sc ver li' px' pp' rcs' ri' bk' sc' :
    key_member li (Loads li') -> key_member ri (Loads ri') -> key_member bk (Loads bk') -> pending_member pp (Loads pp') -> chain_member sc (Loads sc') ->
      Forall2 (fun c c' => chain_member c (Loads c')) (elements rcs) rcs' -> exchange_member px px' ->
    state_member (VPtr (Some [VBytes li; VU32 lreg; VBool nr; VPtr px; VPtr pp; VU32 pc; VSlice rcs; VBytes ri; VU32 rreg; VBytes rk; VBytes bk; sc; VInt ver]))
      (Loads {| s_local_id := Some li'; s_local_reg := lreg; s_needs_refresh := nr; s_pending_kx := px'; s_pending := pp'; s_prev_counter := pc; s_recv := rcs';
                s_remote_id := Some ri'; s_remote_reg := rreg; s_root := Some (content rk); s_base := Some bk'; s_sender := Some sc'; s_version := ver |}).

(** A sequence is read in order up to the first element that does not load. *)
Inductive sequence {A} (member : gval -> fate A -> Prop) : list gval -> fate (list A) -> Prop :=
| Seq_nil : sequence member [] (Loads [])
| Seq_refused v l : member v Refused -> sequence member (v :: l) Refused
| Seq_crash v l : member v Crashes -> sequence member (v :: l) Crashes
| Seq_stop v a l f : member v (Loads a) -> sequence member l f -> (forall x, f <> Loads x) -> sequence member (v :: l) f
| Seq_good v a l r : member v (Loads a) -> sequence member l (Loads r) -> sequence member (v :: l) (Loads (a :: r)).

(** Session records: the archived sessions first. *)
Inductive session_file : bytes -> fate record -> Prop :=
| Session_unreadable s : (forall vs, ~ structure_read session_members s vs) -> session_file s Unreadable
| Session_archive_crash s cur prev : structure_read session_members s [cur; VSlice prev] -> sequence state_member (elements prev) Crashes -> session_file s Crashes
| Session_archive_refused s cur prev : structure_read session_members s [cur; VSlice prev] -> sequence state_member (elements prev) Refused -> session_file s Refused
| Session_crash s cur prev p : structure_read session_members s [cur; VSlice prev] -> sequence state_member (elements prev) (Loads p) -> state_member cur Crashes -> session_file s Crashes
| Session_refused s cur prev p : structure_read session_members s [cur; VSlice prev] -> sequence state_member (elements prev) (Loads p) -> state_member cur Refused -> session_file s Refused
| Session_good s cur prev p c : structure_read session_members s [cur; VSlice prev] -> sequence state_member (elements prev) (Loads p) -> state_member cur (Loads c) ->
    session_file s (Loads {| r_cur := c; r_prev := p; r_fresh := false |}).

(** Group senders. *)
Inductive sender_msg_key_member : gval -> gmsg_key -> Prop :=
| Sender_msg_key i v c s : sender_msg_key_member (VPtr (Some [VU32 i; VBytes v; VBytes c; VBytes s])) {| gm_iter := i; gm_iv := content v; gm_cipher := content c; gm_seed := content s |}.
Inductive sender_state_member : gval -> fate gstate -> Prop :=
| Sender_missing : sender_state_member (VPtr None) Crashes
| Sender_no_key ks id ck priv pub : key_member pub Crashes -> sender_state_member (VPtr (Some [VSlice ks; VU32 id; ck; VBytes priv; VBytes pub])) Crashes
| Sender_bad_key ks id ck priv pub : key_member pub Refused -> sender_state_member (VPtr (Some [VSlice ks; VU32 id; ck; VBytes priv; VBytes pub])) Refused
| Sender_gap ks id ck priv pub k : key_member pub (Loads k) -> ck = VPtr None \/ In (VPtr None) (elements ks) ->
    sender_state_member (VPtr (Some [VSlice ks; VU32 id; ck; VBytes priv; VBytes pub])) Crashes
| Sender_good ks id i key priv pub k p keys : key_member pub (Loads k) -> cut 32 (content priv) p -> Forall2 sender_msg_key_member (elements ks) keys ->
    sender_state_member (VPtr (Some [VSlice ks; VU32 id; VPtr (Some [VU32 i; VBytes key]); VBytes priv; VBytes pub]))
      (Loads {| gs_keys := keys; gs_id := id; gs_chain := {| gc_key := content key; gc_iter := i |}; gs_signing := {| kp_pub := k; kp_priv := Some p |} |}).
Inductive sender_file : bytes -> fate grecord -> Prop :=
| Sender_unreadable s : (forall vs, ~ structure_read sender_members s vs) -> sender_file s Unreadable
| Sender_states s states f : structure_read sender_members s [VSlice states] -> sequence sender_state_member (elements states) f -> sender_file s f.

(** Prekeys: no length or type is checked. *)
Inductive prekey_file : bytes -> fate (N * arr32 * arr32) -> Prop :=
| Prekey_unreadable s : (forall vs, ~ structure_read prekey_members s vs) -> prekey_file s Unreadable
| Prekey_good s id pub priv p k : structure_read prekey_members s [VU32 id; VBytes pub; VBytes priv] -> cut 32 (content pub) p -> cut 32 (content priv) k -> prekey_file s (Loads (id, p, k)).
Inductive signed_prekey_file : bytes -> fate (N * arr32 * arr32 * arr64 * Z) -> Prop :=
| Signed_unreadable s : (forall vs, ~ structure_read signed_prekey_members s vs) -> signed_prekey_file s Unreadable
| Signed_good s id pub priv sig time p k g : structure_read signed_prekey_members s [VU32 id; VBytes pub; VBytes priv; VBytes sig; VInt time] ->
    cut 32 (content pub) p -> cut 32 (content priv) k -> cut 64 (content sig) g -> signed_prekey_file s (Loads (id, p, k, g, time)).

(** The result of the call. *)
Definition result {A} (f : fate A) : res A := match f with Loads a => Ok a | Refused => Err EBadKeyType | Unreadable => Err EDecode | Crashes => Panic end.
