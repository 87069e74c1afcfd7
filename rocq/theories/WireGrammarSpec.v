(** WireGrammarSpec.v: the protobuf wire format as a grammar, and what each of the four parsers makes of every byte string (C78).
    Nothing here mentions the decoder of Wire.v: only its type of field values and the message records are used. *)
From Verif Require Import Base Ecc Wire Messages.
From Coq Require Import ZArith NArith List.
Import ListNotations.
Local Open Scope N_scope.

(** * Varints: groups of seven bits, least significant first, the top bit set on all bytes but the last. *)
Inductive base128 : N -> bytes -> Prop :=
| base128_last : forall n, n < 128 -> base128 n [n2b n]
| base128_more : forall d n l, d < 128 -> base128 n l -> base128 (d + 128 * n) (n2b (128 + d) :: l).
(** A uint64, in at most ten bytes; leading zero groups are allowed. *)
Definition varint (n : N) (l : bytes) : Prop := base128 n l /\ (length l <= 10)%nat /\ n < 2 ^ 64.

(** * Fields nobody asked for. A field is a tag (number times eight plus wire type) and a body: a varint (0), eight bytes (1), a length and so
    many bytes (2), a group (3), four bytes (5). A group is any fields up to an end-group tag (4), whatever its number. *)
Inductive skipped : N -> bytes -> Prop :=
| skipped_varint : forall n l, varint n l -> skipped 0 l
| skipped_64 : forall l, length l = 8%nat -> skipped 1 l
| skipped_bytes : forall p l, varint (N.of_nat (length l)) p -> skipped 2 (p ++ l)
| skipped_group : forall l, group l -> skipped 3 l
| skipped_32 : forall l, length l = 4%nat -> skipped 5 l
with group : bytes -> Prop :=
| group_end : forall x t, varint x t -> x mod 8 = 4 -> group t
| group_field : forall x t b l, varint x t -> skipped (x mod 8) b -> group l -> group (t ++ b ++ l).

(** * Messages, for a schema listing the number and kind of the fields. *)
Definition schema : Type := list (N * fkind).
Definition wire_type (k : fkind) : N := match k with KUint32 => 0 | KBytes => 2 end.
(** The body of a field of a known kind; a uint32 is cut to its low 32 bits. *)
Inductive body : fkind -> fval -> bytes -> Prop :=
| body_uint : forall n l, varint n l -> body KUint32 (FUint (n mod 2 ^ 32)) l
| body_bytes : forall p l, varint (N.of_nat (length l)) p -> body KBytes (FBytes l) (p ++ l).
(** [message S l fs]: the bytes [l] are fields one after the other; [fs] are those of the schema with the right wire type, in order. Field
    number 0 is not allowed. *)
Inductive message (S : schema) : bytes -> list (N * fval) -> Prop :=
| message_end : message S [] []
| message_known : forall x t k v b l fs, varint x t -> x / 8 <> 0 -> In (x / 8, k) S -> x mod 8 = wire_type k -> body k v b ->
    message S l fs -> message S (t ++ b ++ l) ((x / 8, v) :: fs)
| message_other : forall x t b l fs, varint x t -> x / 8 <> 0 -> (forall k, In (x / 8, k) S -> x mod 8 <> wire_type k) -> skipped (x mod 8) b ->
    message S l fs -> message S (t ++ b ++ l) fs.

(** The value of a field: its last occurrence; 0 for an absent number. *)
Definition absent (t : N) (fs : list (N * fval)) : Prop := forall v, ~ In (t, v) fs.
Definition last_is (t : N) (v : fval) (fs : list (N * fval)) : Prop := exists pre post, fs = pre ++ (t, v) :: post /\ absent t post.
Definition number (t : N) (fs : list (N * fval)) (n : N) : Prop := last_is t (FUint n) fs \/ (absent t fs /\ n = 0).
Definition content (t : N) (fs : list (N * fval)) (o : option bytes) : Prop :=
  match o with Some b => last_is t (FBytes b) fs | None => absent t fs end.

(** * The four parsers *)
(** serialize/protocol_whisper_text.pb.go:24-27, 87-92, 237-239, 292-295 *)
Definition signal_schema : schema := [(1, KBytes); (2, KUint32); (3, KUint32); (4, KBytes)].
Definition prekey_schema : schema := [(1, KUint32); (2, KBytes); (3, KBytes); (4, KBytes); (5, KUint32); (6, KUint32)].
Definition group_schema : schema := [(1, KUint32); (2, KUint32); (3, KBytes)].
Definition distribution_schema : schema := [(1, KUint32); (2, KUint32); (3, KBytes); (4, KBytes)].

(** The version is the high half of the first byte. *)
Definition version (v : byte) : N := b2n v / 16.
Definition supported (v : byte) : Prop := 2 <= version v <= 3.
(** A public key: byte 5, then the key, cut or filled with zeros to 32 bytes. *)
Inductive key_fate : bytes -> res arr32 -> Prop :=
| key_empty : key_fate [] Panic
| key_other : forall t r, t <> x05 -> key_fate (t :: r) (Err EBadKeyType)
| key_good : forall r, key_fate (x05 :: r) (Ok (to_arr 32 r)).

(** protocol/signal_message.go:27-69 with serialize/proto.go:73-100: version, protobuf, eight bytes of MAC. *)
Inductive signal_fate : bytes -> res sig_msg -> Prop :=
| signal_short : forall l, (length l < 9)%nat -> signal_fate l (Err EInputTooSmall)
| signal_malformed : forall v b mac, length mac = 8%nat -> (forall fs, ~ message signal_schema b fs) -> signal_fate (v :: b ++ mac) (Err EProto)
| signal_legacy : forall v b mac fs, length mac = 8%nat -> message signal_schema b fs -> version v <= 1 -> signal_fate (v :: b ++ mac) (Err ELegacy)
| signal_newer : forall v b mac fs, length mac = 8%nat -> message signal_schema b fs -> 3 < version v -> signal_fate (v :: b ++ mac) (Err EUnknownVersion)
| signal_incomplete : forall v b mac fs, length mac = 8%nat -> message signal_schema b fs -> supported v -> absent 1 fs \/ absent 4 fs ->
    signal_fate (v :: b ++ mac) (Err EIncomplete)
| signal_bad_key : forall v b mac fs k ct e, length mac = 8%nat -> message signal_schema b fs -> supported v -> content 1 fs (Some k) -> content 4 fs (Some ct) ->
    key_fate k (Err e) -> signal_fate (v :: b ++ mac) (Err e)
| signal_crash : forall v b mac fs k ct, length mac = 8%nat -> message signal_schema b fs -> supported v -> content 1 fs (Some k) -> content 4 fs (Some ct) ->
    key_fate k Panic -> signal_fate (v :: b ++ mac) Panic
| signal_read : forall v b mac fs k ct counter prev key, length mac = 8%nat -> message signal_schema b fs -> supported v ->
    content 1 fs (Some k) -> content 4 fs (Some ct) -> number 2 fs counter -> number 3 fs prev -> key_fate k (Ok key) ->
    signal_fate (v :: b ++ mac)
      (Ok {| sm_struct := {| sg_ratchet := Some k; sg_counter := counter; sg_prev := prev; sg_ct := Some ct; sg_version := Z.of_N (version v); sg_mac := Some mac |};
             sm_ratchet := key |}).

(** protocol/prekey_signal_message.go:22-81 with serialize/proto.go:131-152: version, protobuf; the keys are decoded before the inner message. *)
Inductive prekey_fate : bytes -> res pk_msg -> Prop :=
| prekey_empty : prekey_fate [] Panic
| prekey_malformed : forall v b, (forall fs, ~ message prekey_schema b fs) -> prekey_fate (v :: b) (Err EProto)
| prekey_legacy : forall v b fs, message prekey_schema b fs -> version v <= 1 -> prekey_fate (v :: b) (Err ELegacy)
| prekey_newer : forall v b fs, message prekey_schema b fs -> 3 < version v -> prekey_fate (v :: b) (Err EUnknownVersion)
| prekey_incomplete : forall v b fs, message prekey_schema b fs -> supported v -> absent 2 fs \/ absent 3 fs \/ absent 4 fs ->
    prekey_fate (v :: b) (Err EIncomplete)
| prekey_bad_base : forall v b fs kb ki m e, message prekey_schema b fs -> supported v ->
    content 2 fs (Some kb) -> content 3 fs (Some ki) -> content 4 fs (Some m) -> key_fate kb (Err e) -> prekey_fate (v :: b) (Err e)
| prekey_base_crash : forall v b fs kb ki m, message prekey_schema b fs -> supported v ->
    content 2 fs (Some kb) -> content 3 fs (Some ki) -> content 4 fs (Some m) -> key_fate kb Panic -> prekey_fate (v :: b) Panic
| prekey_bad_identity : forall v b fs kb ki m base e, message prekey_schema b fs -> supported v ->
    content 2 fs (Some kb) -> content 3 fs (Some ki) -> content 4 fs (Some m) -> key_fate kb (Ok base) -> key_fate ki (Err e) -> prekey_fate (v :: b) (Err e)
| prekey_identity_crash : forall v b fs kb ki m base, message prekey_schema b fs -> supported v ->
    content 2 fs (Some kb) -> content 3 fs (Some ki) -> content 4 fs (Some m) -> key_fate kb (Ok base) -> key_fate ki Panic -> prekey_fate (v :: b) Panic
| prekey_bad_inner : forall v b fs kb ki m base ident e, message prekey_schema b fs -> supported v ->
    content 2 fs (Some kb) -> content 3 fs (Some ki) -> content 4 fs (Some m) -> key_fate kb (Ok base) -> key_fate ki (Ok ident) ->
    signal_fate m (Err e) -> prekey_fate (v :: b) (Err e)
| prekey_inner_crash : forall v b fs kb ki m base ident, message prekey_schema b fs -> supported v ->
    content 2 fs (Some kb) -> content 3 fs (Some ki) -> content 4 fs (Some m) -> key_fate kb (Ok base) -> key_fate ki (Ok ident) ->
    signal_fate m Panic -> prekey_fate (v :: b) Panic
| prekey_read : forall v b fs kb ki m base ident inner id reg signed, message prekey_schema b fs -> supported v ->
    content 2 fs (Some kb) -> content 3 fs (Some ki) -> content 4 fs (Some m) -> key_fate kb (Ok base) -> key_fate ki (Ok ident) ->
    signal_fate m (Ok inner) -> number 1 fs id -> number 5 fs reg -> number 6 fs signed ->
    prekey_fate (v :: b)
      (Ok {| pm_struct := {| pk_reg := reg; pk_prekey_id := Some {| ou_value := id; ou_empty := false |}; pk_signed_id := signed; pk_base := Some kb;
                             pk_identity := Some ki; pk_message := Some m; pk_version := Z.of_N (version v) |};
             pm_base := base; pm_identity := ident; pm_message := inner |}).

(** protocol/sender_key_message.go:21-67 with serialize/proto.go:232-258: version, protobuf, 64 bytes of signature. *)
Inductive group_fate : bytes -> res skm -> Prop :=
| group_short : forall l, (length l < 65)%nat -> group_fate l (Err EInputTooSmall)
| group_malformed : forall v b sig, length sig = 64%nat -> (forall fs, ~ message group_schema b fs) -> group_fate (v :: b ++ sig) (Err EProto)
| group_legacy : forall v b sig fs, length sig = 64%nat -> message group_schema b fs -> version v <= 1 -> group_fate (v :: b ++ sig) (Err ELegacy)
| group_newer : forall v b sig fs, length sig = 64%nat -> message group_schema b fs -> 3 < version v -> group_fate (v :: b ++ sig) (Err EUnknownVersion)
| group_incomplete : forall v b sig fs, length sig = 64%nat -> message group_schema b fs -> supported v -> absent 3 fs -> group_fate (v :: b ++ sig) (Err EIncomplete)
| group_read : forall v b sig fs ct id iter, length sig = 64%nat -> message group_schema b fs -> supported v ->
    content 3 fs (Some ct) -> number 1 fs id -> number 2 fs iter ->
    group_fate (v :: b ++ sig) (Ok {| km_id := id; km_iter := iter; km_ct := Some ct; km_version := version v; km_sig := Some sig |}).

(** protocol/sender_key_distribution_message.go:20-78 with serialize/proto.go:180-199: version, protobuf. *)
Inductive distribution_fate : bytes -> res skd -> Prop :=
| distribution_empty : distribution_fate [] Panic
| distribution_malformed : forall v b, (forall fs, ~ message distribution_schema b fs) -> distribution_fate (v :: b) (Err EProto)
| distribution_legacy : forall v b fs, message distribution_schema b fs -> version v <= 1 -> distribution_fate (v :: b) (Err ELegacy)
| distribution_newer : forall v b fs, message distribution_schema b fs -> 3 < version v -> distribution_fate (v :: b) (Err EUnknownVersion)
| distribution_incomplete : forall v b fs, message distribution_schema b fs -> supported v -> absent 3 fs \/ absent 4 fs -> distribution_fate (v :: b) (Err EIncomplete)
| distribution_bad_key : forall v b fs ck k e, message distribution_schema b fs -> supported v -> content 3 fs (Some ck) -> content 4 fs (Some k) ->
    key_fate k (Err e) -> distribution_fate (v :: b) (Err e)
| distribution_crash : forall v b fs ck k, message distribution_schema b fs -> supported v -> content 3 fs (Some ck) -> content 4 fs (Some k) ->
    key_fate k Panic -> distribution_fate (v :: b) Panic
| distribution_read : forall v b fs ck k key id iter, message distribution_schema b fs -> supported v -> content 3 fs (Some ck) -> content 4 fs (Some k) ->
    key_fate k (Ok key) -> number 1 fs id -> number 2 fs iter ->
    distribution_fate (v :: b) (Ok {| dm_id := id; dm_iter := iter; dm_chain := Some ck; dm_version := version v; dm_sigkey := key |}).
