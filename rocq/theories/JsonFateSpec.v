(** JsonFateSpec.v: what the four message parsers make of every text with the JSON serializers (C61), in terms of the members json.Unmarshal
    finds (JsonValueSpec.structure_read) and of the fate of a public key (WireGrammarSpec.key_fate). *)
From Verif Require Import Base Ecc Messages Json JsonSpec JsonValueSpec MembersSpec WireGrammarSpec.
From Coq Require Import NArith ZArith List.
Import ListNotations.
Local Open Scope Z_scope.

Definition unreadable (ty : fields) (l : bytes) : Prop := forall vs, ~ structure_read ty l vs.

(** protocol/signal_message.go:27-69 *)
Inductive signal_text_fate : bytes -> res sig_msg -> Prop :=
| ST_unreadable : forall l, unreadable signal_members l -> signal_text_fate l (Err EDecode)
| ST_legacy : forall l rk c p ct v mac, structure_read signal_members l [VBytes rk; VU32 c; VU32 p; VBytes ct; VInt v; VBytes mac] -> v <= 1 -> signal_text_fate l (Err ELegacy)
| ST_newer : forall l rk c p ct v mac, structure_read signal_members l [VBytes rk; VU32 c; VU32 p; VBytes ct; VInt v; VBytes mac] -> 3 < v -> signal_text_fate l (Err EUnknownVersion)
| ST_incomplete : forall l rk c p ct v mac, structure_read signal_members l [VBytes rk; VU32 c; VU32 p; VBytes ct; VInt v; VBytes mac] -> 2 <= v <= 3 -> rk = None \/ ct = None ->
    signal_text_fate l (Err EIncomplete)
| ST_bad_key : forall l k c p ct v mac e, structure_read signal_members l [VBytes (Some k); VU32 c; VU32 p; VBytes (Some ct); VInt v; VBytes mac] -> 2 <= v <= 3 -> key_fate k (Err e) ->
    signal_text_fate l (Err e)
| ST_crash : forall l k c p ct v mac, structure_read signal_members l [VBytes (Some k); VU32 c; VU32 p; VBytes (Some ct); VInt v; VBytes mac] -> 2 <= v <= 3 -> key_fate k Panic ->
    signal_text_fate l Panic
| ST_read : forall l k c p ct v mac key, structure_read signal_members l [VBytes (Some k); VU32 c; VU32 p; VBytes (Some ct); VInt v; VBytes mac] -> 2 <= v <= 3 -> key_fate k (Ok key) ->
    signal_text_fate l (Ok {| sm_struct := {| sg_ratchet := Some k; sg_counter := c; sg_prev := p; sg_ct := Some ct; sg_version := v; sg_mac := mac |}; sm_ratchet := key |}).

(** A missing one-time prekey id and one marked empty are different. *)
Inductive prekey_id_member : option (list gval) -> option opt_u32 -> Prop :=
| Id_missing : prekey_id_member None None
| Id_there : forall n e, prekey_id_member (Some [VU32 n; VBool e]) (Some {| ou_value := n; ou_empty := e |}).

(** protocol/prekey_signal_message.go:22-81: version, completeness, base key, identity key, inner message *)
Inductive prekey_text_fate : bytes -> res pk_msg -> Prop :=
| PT_unreadable : forall l, unreadable prekey_message_members l -> prekey_text_fate l (Err EDecode)
| PT_legacy : forall l reg id sid b i m v, structure_read prekey_message_members l [VU32 reg; VPtr id; VU32 sid; VBytes b; VBytes i; VBytes m; VInt v] -> v <= 1 -> prekey_text_fate l (Err ELegacy)
| PT_newer : forall l reg id sid b i m v, structure_read prekey_message_members l [VU32 reg; VPtr id; VU32 sid; VBytes b; VBytes i; VBytes m; VInt v] -> 3 < v -> prekey_text_fate l (Err EUnknownVersion)
| PT_incomplete : forall l reg id sid b i m v, structure_read prekey_message_members l [VU32 reg; VPtr id; VU32 sid; VBytes b; VBytes i; VBytes m; VInt v] -> 2 <= v <= 3 ->
    b = None \/ i = None \/ m = None -> prekey_text_fate l (Err EIncomplete)
| PT_bad_base : forall l reg id sid b i m v e, structure_read prekey_message_members l [VU32 reg; VPtr id; VU32 sid; VBytes (Some b); VBytes (Some i); VBytes (Some m); VInt v] -> 2 <= v <= 3 ->
    key_fate b (Err e) -> prekey_text_fate l (Err e)
| PT_base_crash : forall l reg id sid b i m v, structure_read prekey_message_members l [VU32 reg; VPtr id; VU32 sid; VBytes (Some b); VBytes (Some i); VBytes (Some m); VInt v] -> 2 <= v <= 3 ->
    key_fate b Panic -> prekey_text_fate l Panic
| PT_bad_identity : forall l reg id sid b i m v base e, structure_read prekey_message_members l [VU32 reg; VPtr id; VU32 sid; VBytes (Some b); VBytes (Some i); VBytes (Some m); VInt v] -> 2 <= v <= 3 ->
    key_fate b (Ok base) -> key_fate i (Err e) -> prekey_text_fate l (Err e)
| PT_identity_crash : forall l reg id sid b i m v base, structure_read prekey_message_members l [VU32 reg; VPtr id; VU32 sid; VBytes (Some b); VBytes (Some i); VBytes (Some m); VInt v] -> 2 <= v <= 3 ->
    key_fate b (Ok base) -> key_fate i Panic -> prekey_text_fate l Panic
| PT_bad_inner : forall l reg id sid b i m v base ident e, structure_read prekey_message_members l [VU32 reg; VPtr id; VU32 sid; VBytes (Some b); VBytes (Some i); VBytes (Some m); VInt v] -> 2 <= v <= 3 ->
    key_fate b (Ok base) -> key_fate i (Ok ident) -> signal_text_fate m (Err e) -> prekey_text_fate l (Err e)
| PT_inner_crash : forall l reg id sid b i m v base ident, structure_read prekey_message_members l [VU32 reg; VPtr id; VU32 sid; VBytes (Some b); VBytes (Some i); VBytes (Some m); VInt v] -> 2 <= v <= 3 ->
    key_fate b (Ok base) -> key_fate i (Ok ident) -> signal_text_fate m Panic -> prekey_text_fate l Panic
| PT_read : forall l reg id sid b i m v base ident inner o, structure_read prekey_message_members l [VU32 reg; VPtr id; VU32 sid; VBytes (Some b); VBytes (Some i); VBytes (Some m); VInt v] -> 2 <= v <= 3 ->
    key_fate b (Ok base) -> key_fate i (Ok ident) -> signal_text_fate m (Ok inner) -> prekey_id_member id o ->
    prekey_text_fate l (Ok {| pm_struct := {| pk_reg := reg; pk_prekey_id := o; pk_signed_id := sid; pk_base := Some b; pk_identity := Some i; pk_message := Some m; pk_version := v |};
                             pm_base := base; pm_identity := ident; pm_message := inner |}).

(** protocol/sender_key_message.go:21-67 *)
Inductive group_text_fate : bytes -> res skm -> Prop :=
| GT_unreadable : forall l, unreadable group_members l -> group_text_fate l (Err EDecode)
| GT_legacy : forall l id it ct v sig, structure_read group_members l [VU32 id; VU32 it; VBytes ct; VU32 v; VBytes sig] -> (v <= 1)%N -> group_text_fate l (Err ELegacy)
| GT_newer : forall l id it ct v sig, structure_read group_members l [VU32 id; VU32 it; VBytes ct; VU32 v; VBytes sig] -> (3 < v)%N -> group_text_fate l (Err EUnknownVersion)
| GT_incomplete : forall l id it v sig, structure_read group_members l [VU32 id; VU32 it; VBytes None; VU32 v; VBytes sig] -> (2 <= v <= 3)%N -> group_text_fate l (Err EIncomplete)
| GT_read : forall l id it ct v sig, structure_read group_members l [VU32 id; VU32 it; VBytes (Some ct); VU32 v; VBytes sig] -> (2 <= v <= 3)%N ->
    group_text_fate l (Ok {| km_id := id; km_iter := it; km_ct := Some ct; km_version := v; km_sig := sig |}).

(** protocol/sender_key_distribution_message.go:20-78 *)
Inductive distribution_text_fate : bytes -> res skd -> Prop :=
| DT_unreadable : forall l, unreadable distribution_members l -> distribution_text_fate l (Err EDecode)
| DT_legacy : forall l id it ck k v, structure_read distribution_members l [VU32 id; VU32 it; VBytes ck; VBytes k; VU32 v] -> (v <= 1)%N -> distribution_text_fate l (Err ELegacy)
| DT_newer : forall l id it ck k v, structure_read distribution_members l [VU32 id; VU32 it; VBytes ck; VBytes k; VU32 v] -> (3 < v)%N -> distribution_text_fate l (Err EUnknownVersion)
| DT_incomplete : forall l id it ck k v, structure_read distribution_members l [VU32 id; VU32 it; VBytes ck; VBytes k; VU32 v] -> (2 <= v <= 3)%N -> ck = None \/ k = None ->
    distribution_text_fate l (Err EIncomplete)
| DT_bad_key : forall l id it ck k v e, structure_read distribution_members l [VU32 id; VU32 it; VBytes (Some ck); VBytes (Some k); VU32 v] -> (2 <= v <= 3)%N -> key_fate k (Err e) ->
    distribution_text_fate l (Err e)
| DT_crash : forall l id it ck k v, structure_read distribution_members l [VU32 id; VU32 it; VBytes (Some ck); VBytes (Some k); VU32 v] -> (2 <= v <= 3)%N -> key_fate k Panic ->
    distribution_text_fate l Panic
| DT_read : forall l id it ck k v key, structure_read distribution_members l [VU32 id; VU32 it; VBytes (Some ck); VBytes (Some k); VU32 v] -> (2 <= v <= 3)%N -> key_fate k (Ok key) ->
    distribution_text_fate l (Ok {| dm_id := id; dm_iter := it; dm_chain := Some ck; dm_version := v; dm_sigkey := key |}).
