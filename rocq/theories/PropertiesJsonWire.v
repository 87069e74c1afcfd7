(** PropertiesJsonWire.v: every text given to the message parsers with the JSON serializers. C61. *)
From Coq Require Import String.
From Verif Require Import Base Ecc Messages Json JsonSpec JsonValueSpec JsonMessages WireGrammarSpec JsonFateSpec JsonFateProofs.
From Coq Require Import NArith ZArith List.
Import ListNotations.
Open Scope list_scope.

(** For every text, the outcome of NewSignalMessageFromBytes with the JSON serializer (the message, the error or a crash) is the one that
    follows from the members json.Unmarshal finds in it, and no other. *)
Theorem C61_every_signal_text : forall l o, signal_text_fate l o <-> sig_from_json l = o.
Proof. exact signal_text_exact. Qed.
(** Likewise NewPreKeySignalMessageFromBytes ... *)
Theorem C61_every_prekey_text : forall l o, prekey_text_fate l o <-> pk_from_json l = o.
Proof. exact prekey_text_exact. Qed.
(** ... NewSenderKeyMessageFromBytes ... *)
Theorem C61_every_group_text : forall l o, group_text_fate l o <-> skm_from_json l = o.
Proof. exact group_text_exact. Qed.
(** ... and NewSenderKeyDistributionMessageFromBytes. *)
Theorem C61_every_distribution_text : forall l o, distribution_text_fate l o <-> skd_from_json l = o.
Proof. exact distribution_text_exact. Qed.

(** Texts of each kind: an empty object is a legacy message; names are matched without regard to case, the last of two members counts, unknown
    ones are ignored, a key longer than 32 bytes is cut and a shorter one padded; an empty key string crashes the parser. *)
Example C61_signal_text_point :
  signal_text_fate (str "{}") (Err ELegacy) /\ signal_text_fate (str "[]") (Err EDecode) /\
  signal_text_fate (str "{""Version"":3,""RatchetKey"":""BQ==""}") (Err EIncomplete) /\
  signal_text_fate (str "{""Version"":3,""RatchetKey"":"""",""CipherText"":""""}") Panic /\
  signal_text_fate (str "{""Version"":3,""RatchetKey"":""Bg=="",""CipherText"":""""}") (Err EBadKeyType) /\
  signal_text_fate (str "{""x"":[null],""Version"":9,""version"":2,""RATCHETKEY"":""BQE="",""CipherText"":"""",""Counter"":7}")
    (Ok {| sm_struct := {| sg_ratchet := Some [x05; x01]; sg_counter := 7; sg_prev := 0; sg_ct := Some []; sg_version := 2; sg_mac := None |}; sm_ratchet := to_arr 32 [x01] |}).
Proof. repeat split; apply C61_every_signal_text; vm_compute; reflexivity. Qed.
Example C61_prekey_text_point :
  prekey_text_fate (str "{""Version"":4}") (Err EUnknownVersion) /\ prekey_text_fate (str "{""Version"":3}") (Err EIncomplete) /\
  prekey_text_fate (str "{""Version"":3,""BaseKey"":"""",""IdentityKey"":""Bg=="",""Message"":""""}") Panic /\
  prekey_text_fate (str "{""Version"":3,""BaseKey"":""Bg=="",""IdentityKey"":"""",""Message"":""""}") (Err EBadKeyType) /\
  prekey_text_fate (str "{""Version"":3,""BaseKey"":""BQ=="",""IdentityKey"":""BQ=="",""Message"":""e30=""}") (Err ELegacy).
Proof. repeat split; apply C61_every_prekey_text; vm_compute; reflexivity. Qed.
Example C61_group_text_point :
  group_text_fate (str "{""Version"":2,""Iteration"":5,""CipherText"":""AAE=""}") (Ok {| km_id := 0; km_iter := 5; km_ct := Some [x00; x01]; km_version := 2; km_sig := None |}) /\
  group_text_fate (str "{""Version"":2,""CipherText"":null}") (Err EIncomplete) /\ group_text_fate (str "{""Version"":-2}") (Err EDecode).
Proof. repeat split; apply C61_every_group_text; vm_compute; reflexivity. Qed.
Example C61_distribution_text_point :
  distribution_text_fate (str "{""Version"":3,""ID"":1,""ChainKey"":"""",""SigningKey"":""BQ==""}") (Ok {| dm_id := 1; dm_iter := 0; dm_chain := Some []; dm_version := 3; dm_sigkey := to_arr 32 [] |}) /\
  distribution_text_fate (str "{""Version"":3,""ChainKey"":"""",""SigningKey"":""""}") Panic.
Proof. repeat split; apply C61_every_distribution_text; vm_compute; reflexivity. Qed.

Print Assumptions C61_every_signal_text.
Print Assumptions C61_every_prekey_text.
Print Assumptions C61_every_group_text.
Print Assumptions C61_every_distribution_text.
