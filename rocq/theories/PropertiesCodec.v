(** PropertiesCodec.v: C14 (MAC input), C15, C16, C17, C18, C19, C20.

    Vocabulary: [sig_from_bytes], [pk_from_bytes], [skm_from_bytes], [skd_from_bytes] are the four public
    constructors from bytes; [sig_msg_bytes], [pk_msg_bytes], [skm_signed], [skd_bytes] are the Serialize
    methods; [fits l] says that [l] is shorter than 2^63 bytes (always true of a Go slice). *)
From Verif Require Import Base Labels Crypto Bytehelper Ecc Itoa Wire Messages WireProofs CodecProofs CodecProofs2 ParserErrors.
From Coq Require Import Permutation.

(** ** C20: public keys *)

Theorem C20_public_key_roundtrip : forall k : arr32,
  length (ser_pub k) = 33%nat /\ hd x00 (ser_pub k) = x05 /\ decode_point (ser_pub k) = Ok k.
Proof. intros k. split; [apply ser_pub_length|]. split; [reflexivity|apply decode_ser_pub]. Qed.

Theorem C20_decode_classification : forall b,
  (decode_point b = Panic <-> b = []) /\
  (forall k, decode_point b = Ok k <-> exists r, b = x05 :: r /\ k = to_arr 32 r) /\
  (forall e, decode_point b = Err e <-> e = EBadKeyType /\ exists t r, b = t :: r /\ t <> x05).
Proof. exact decode_point_classification. Qed.

(** Short keys are zero-extended and excess bytes ignored. *)
Theorem C20_decode_padding : forall r,
  decode_point (x05 :: r) = Ok (to_arr 32 r) /\
  abytes (to_arr 32 r) = firstn 32 r ++ repeat x00 (32 - length r).
Proof. intros r. split; [reflexivity|apply to_arr_split]. Qed.

Theorem C20_encoding_injective : forall k1 k2, ser_pub k1 = ser_pub k2 -> k1 = k2.
Proof. exact ser_pub_inj. Qed.

Example C20_example : decode_point [x05; x01; x02] = Ok (to_arr 32 [x01; x02]) /\ decode_point [x04; x01] = Err EBadKeyType.
Proof. split; reflexivity. Qed.

(** ** C16: SignalMessage *)

(** The structure of a message with the given fields. *)
Definition signal_fields (version : Z) (ratchet : arr32) (counter prev : N) (ct mac : bytes) : sig_struct :=
  {| sg_ratchet := Some (ser_pub ratchet); sg_counter := counter; sg_prev := prev; sg_ct := Some ct;
     sg_version := version; sg_mac := Some mac |}.

Theorem C16_signal_message_roundtrip : forall ratchet counter prev ct mac,
  (counter < 2 ^ 32)%N -> (prev < 2 ^ 32)%N -> fits ct -> length mac = 8%nat ->
  sig_from_bytes (sig_serialize (signal_fields 3 ratchet counter prev ct mac)) =
  Ok {| sm_struct := signal_fields 3 ratchet counter prev ct mac; sm_ratchet := ratchet |}.
Proof. exact sig_fields_roundtrip. Qed.

(** Every message NewSignalMessage makes with version 3 is read back unchanged. *)
Theorem C16_new_message_roundtrip : forall C counter prev mac_key ratchet ct sender receiver m,
  (forall k x, length (hmac C k x) = 32%nat) ->
  (counter < 2 ^ 32)%N -> (prev < 2 ^ 32)%N -> fits ct ->
  new_signal_message C 3 counter prev mac_key ratchet ct sender receiver = Ok m ->
  sig_from_bytes (sig_msg_bytes m) = Ok m.
Proof. exact new_signal_message_roundtrip. Qed.

(** Version 2: all fields but the version come back; the version comes back as 3. *)
Theorem C16_version2_read_as_version3 : forall ratchet counter prev ct mac,
  (counter < 2 ^ 32)%N -> (prev < 2 ^ 32)%N -> fits ct -> length mac = 8%nat ->
  sig_from_bytes (sig_serialize (signal_fields 2 ratchet counter prev ct mac)) =
  Ok {| sm_struct := signal_fields 3 ratchet counter prev ct mac; sm_ratchet := ratchet |}.
Proof. exact sig_fields_roundtrip_v2. Qed.

Theorem C16_version2_roundtrip_refuted : exists m m',
  sig_from_struct (sm_struct m) = Ok m /\ sg_version (sm_struct m) = 2%Z /\
  sig_from_bytes (sig_msg_bytes m) = Ok m' /\ sg_version (sm_struct m') <> sg_version (sm_struct m).
Proof.
  set (s := signal_fields 2 (to_arr 32 [x01]) 7 0 [x61] (repeat x00 8)).
  exists {| sm_struct := s; sm_ratchet := to_arr 32 [x01] |},
         {| sm_struct := signal_fields 3 (to_arr 32 [x01]) 7 0 [x61] (repeat x00 8); sm_ratchet := to_arr 32 [x01] |}.
  split; [apply decode_ser_pub_msg; auto|]. split; [reflexivity|].
  split; [apply C16_version2_read_as_version3; reflexivity|]. cbn. discriminate.
Qed.

Example C16_example :
  match sig_from_bytes (sig_serialize (signal_fields 3 (to_arr 32 [x09; xff]) 4294967295 300 [x61; x62] (repeat x07 8))) with
  | Ok m => sg_counter (sm_struct m) = 4294967295%N /\ sg_ct (sm_struct m) = Some [x61; x62]
  | _ => False
  end.
Proof. rewrite C16_signal_message_roundtrip by reflexivity. split; reflexivity. Qed.

(** ** C14: what the MAC covers (the accept side is [C14_accepted_message_has_valid_mac] in
    PropertiesSession.v) *)

(** The bytes authenticated for a message with the given fields, sent by [a] to [b]: both identity keys with
    their type byte, the sender's first, the version in decimal and the protocol buffer of the four fields. *)
Definition authenticated_bytes (a b : arr32) (s : sig_struct) : bytes :=
  ((x05 :: abytes a) ++ (x05 :: abytes b)) ++ itoa (sg_version s) ++ marshal (sig_fields s).

Lemma authenticated_bytes_eq : forall a b s,
  authenticated_bytes a b s = mac_input 3 a b (itoa (sg_version s) ++ sig_serialize (strip_struct s)).
Proof. intros a b s. rewrite sig_serialize_strip. reflexivity. Qed.

Theorem C14_mac_input_determines_every_field : forall s1 s2 a1 a2 b1 b2,
  sig_wf s1 -> sig_wf s2 ->
  (sg_version s1 = 2 \/ sg_version s1 = 3)%Z -> (sg_version s2 = 2 \/ sg_version s2 = 3)%Z ->
  authenticated_bytes a1 b1 s1 = authenticated_bytes a2 b2 s2 ->
  a1 = a2 /\ b1 = b2 /\ sg_version s1 = sg_version s2 /\ sg_ratchet s1 = sg_ratchet s2 /\
  sg_counter s1 = sg_counter s2 /\ sg_prev s1 = sg_prev s2 /\ sg_ct s1 = sg_ct s2.
Proof. intros s1 s2 a1 a2 b1 b2. rewrite !authenticated_bytes_eq. apply mac_input_inj. Qed.

(** VerifyMac accepts exactly the truncated HMAC of those bytes. *)
Theorem C14_verify_mac_exact : forall C m a b key,
  (forall k x, length (hmac C k x) = 32%nat) ->
  sig_from_struct (sm_struct m) = Ok m ->
  (verify_mac C m 3 a b key = Ok tt <->
   match sg_mac (sm_struct m) with Some x => x | None => [] end =
   firstn 8 (hmac C key (authenticated_bytes a b (sm_struct m)))).
Proof. intros C m a b key. rewrite authenticated_bytes_eq. apply verify_mac_exact. Qed.

(** So a message that verifies with the MAC of a different message exhibits two inputs on which the
    truncated HMAC collides. *)
Theorem C14_forgery_needs_collision : forall C m1 m2 a1 b1 a2 b2 key,
  (forall k x, length (hmac C k x) = 32%nat) ->
  sig_from_struct (sm_struct m1) = Ok m1 -> sig_from_struct (sm_struct m2) = Ok m2 ->
  sig_wf (sm_struct m1) -> sig_wf (sm_struct m2) ->
  verify_mac C m1 3 a1 b1 key = Ok tt -> verify_mac C m2 3 a2 b2 key = Ok tt ->
  sg_mac (sm_struct m1) = sg_mac (sm_struct m2) ->
  (a1 = a2 /\ b1 = b2 /\ m1 = m2) \/
  exists x y, x <> y /\ firstn 8 (hmac C key x) = firstn 8 (hmac C key y).
Proof. exact forgery_needs_collision. Qed.

(** The version-2 MAC (never used by sessions this library creates) does not cover the identities. *)
Theorem C14_version2_identities_not_covered : forall a1 b1 a2 b2 x, mac_input 2 a1 b1 x = mac_input 2 a2 b2 x.
Proof. reflexivity. Qed.

Example C14_example :
  sig_wf (signal_fields 3 (to_arr 32 [x01]) 5 2 [x61] (repeat x00 8)) /\
  sig_from_struct (signal_fields 3 (to_arr 32 [x01]) 5 2 [x61] (repeat x00 8)) =
    Ok {| sm_struct := signal_fields 3 (to_arr 32 [x01]) 5 2 [x61] (repeat x00 8); sm_ratchet := to_arr 32 [x01] |}.
Proof. split; [repeat split; reflexivity|apply decode_ser_pub_msg; auto]. Qed.

(** ** C15: what the wire encoding authenticates *)

(** The parser factors through the version nibble, the last eight bytes and the decoded fields. *)
Theorem C15_parse_depends_on_decoded_fields : forall v1 v2 b1 b2 mac fs1 fs2,
  high_bits v1 = high_bits v2 -> length mac = 8%nat ->
  unmarshal sig_kinds b1 = Ok fs1 -> unmarshal sig_kinds b2 = Ok fs2 ->
  get_bytes 1 fs1 = get_bytes 1 fs2 -> get_uint 2 fs1 = get_uint 2 fs2 ->
  get_uint 3 fs1 = get_uint 3 fs2 -> get_bytes 4 fs1 = get_bytes 4 fs2 ->
  sig_from_bytes (v1 :: b1 ++ mac) = sig_from_bytes (v2 :: b2 ++ mac).
Proof. exact sig_parse_factors. Qed.

(** The low nibble of the version byte is ignored. *)
Theorem C15_low_nibble_ignored : forall v v' rest, high_bits v = high_bits v' ->
  sig_from_bytes (v :: rest) = sig_from_bytes (v' :: rest).
Proof. exact sig_low_nibble. Qed.

(** Appending any unknown field changes nothing. *)
Theorem C15_unknown_field_ignored : forall ver s mac t v, sig_wf s -> length mac = 8%nat ->
  ~ In t [1; 2; 3; 4]%N -> (0 < t < 2 ^ 29)%N ->
  match v with FUint n => (n < 2 ^ 64)%N | FBytes b => fits b end ->
  sig_from_bytes (ver :: (marshal (sig_fields s) ++ enc_field (t, v)) ++ mac) =
  sig_from_bytes (ver :: marshal (sig_fields s) ++ mac).
Proof. exact sig_unknown_field_in. Qed.

(** Any order of the fields gives the same message. *)
Theorem C15_field_order_ignored : forall ver s mac fs, sig_wf s -> length mac = 8%nat ->
  Permutation (sig_fields s) fs ->
  sig_from_bytes (ver :: marshal fs ++ mac) = sig_from_bytes (ver :: marshal (sig_fields s) ++ mac).
Proof. exact sig_permuted. Qed.

(** A counter written with a redundant byte is read as the same counter. *)
Theorem C15_overlong_counter_accepted : forall ver s mac, sig_wf s -> length mac = 8%nat -> (sg_counter s < 128)%N ->
  sig_from_bytes (ver :: overlong_body s ++ mac) = sig_from_bytes (ver :: marshal (sig_fields s) ++ mac).
Proof. exact sig_overlong. Qed.

(** Each of the four is a real change of the bytes, and the message still parses. *)
Definition c15_struct : sig_struct := signal_fields 3 (to_arr 32 [x01; x02]) 5 2 [x61; x62; x63] (repeat x07 8).
Definition c15_bytes : bytes := x33 :: marshal (sig_fields c15_struct) ++ repeat x07 8.
Example C15_example :
  (exists m, sig_from_bytes c15_bytes = Ok m) /\
  (x3f :: marshal (sig_fields c15_struct) ++ repeat x07 8 <> c15_bytes /\ high_bits x3f = high_bits x33) /\
  (x33 :: (marshal (sig_fields c15_struct) ++ enc_field (9%N, FUint 1)) ++ repeat x07 8 <> c15_bytes) /\
  (x33 :: marshal (rev (sig_fields c15_struct)) ++ repeat x07 8 <> c15_bytes /\
   Permutation (sig_fields c15_struct) (rev (sig_fields c15_struct))) /\
  (x33 :: overlong_body c15_struct ++ repeat x07 8 <> c15_bytes).
Proof.
  split; [eexists; vm_compute; reflexivity|].
  split; [split; [vm_compute; discriminate|reflexivity]|].
  split; [vm_compute; discriminate|].
  split; [split; [vm_compute; discriminate|apply Permutation_rev]|]. vm_compute; discriminate.
Qed.

(** ** C17: PreKeySignalMessage *)

Definition prekey_fields (reg id signed : N) (base identity : arr32) (inner : sig_msg) : pk_struct :=
  {| pk_reg := reg; pk_prekey_id := Some (ou_some id); pk_signed_id := signed;
     pk_base := Some (ser_pub base); pk_identity := Some (ser_pub identity);
     pk_message := Some (sig_msg_bytes inner); pk_version := 3 |}.

Theorem C17_prekey_message_roundtrip : forall reg id signed base identity inner,
  (reg < 2 ^ 32)%N -> (id < 2 ^ 32)%N -> (signed < 2 ^ 32)%N -> fits (sig_msg_bytes inner) ->
  sig_from_bytes (sig_msg_bytes inner) = Ok inner ->
  let m := {| pm_struct := prekey_fields reg id signed base identity inner;
              pm_base := base; pm_identity := identity; pm_message := inner |} in
  new_prekey_message 3 reg (Some (ou_some id)) signed base identity inner = Ok m /\
  exists bs, pk_msg_bytes m = Ok bs /\ pk_from_bytes bs = Ok m.
Proof. exact prekey_message_roundtrip. Qed.

(** Without a one-time prekey id (an empty optional): the id comes back as a present 0. *)
Theorem C17_absent_id_becomes_zero : forall m,
  pk_wf (pm_struct m) -> pk_prekey_id (pm_struct m) = Some ou_none -> pk_from_struct (pm_struct m) = Ok m ->
  exists bs m', pk_msg_bytes m = Ok bs /\ pk_from_bytes bs = Ok m' /\
    pk_prekey_id (pm_struct m') = Some (ou_some 0).
Proof. exact absent_id_becomes_zero. Qed.

(** A nil id cannot be serialized at all. *)
Theorem C17_nil_id_panics : forall m, pk_prekey_id (pm_struct m) = None -> pk_msg_bytes m = Panic.
Proof. intros m H. unfold pk_msg_bytes, pk_serialize. rewrite H. reflexivity. Qed.

Definition c17_inner : sig_msg :=
  {| sm_struct := c15_struct; sm_ratchet := to_arr 32 [x01; x02] |}.
Definition c17_empty_id : pk_msg :=
  {| pm_struct := {| pk_reg := 4; pk_prekey_id := Some ou_none; pk_signed_id := 9;
                     pk_base := Some (ser_pub (to_arr 32 [x21])); pk_identity := Some (ser_pub (to_arr 32 [x22]));
                     pk_message := Some (sig_msg_bytes c17_inner); pk_version := 3 |};
     pm_base := to_arr 32 [x21]; pm_identity := to_arr 32 [x22]; pm_message := c17_inner |}.

Theorem C17_absent_id_roundtrip_refuted : exists m bs m',
  pk_from_struct (pm_struct m) = Ok m /\ pk_msg_bytes m = Ok bs /\ pk_from_bytes bs = Ok m' /\
  pk_prekey_id (pm_struct m') <> pk_prekey_id (pm_struct m).
Proof.
  exists c17_empty_id. do 2 eexists. split; [vm_compute; reflexivity|].
  split; [vm_compute; reflexivity|]. split; [vm_compute; reflexivity|]. vm_compute. discriminate.
Qed.

Example C17_example : sig_from_bytes (sig_msg_bytes c17_inner) = Ok c17_inner /\ fits (sig_msg_bytes c17_inner).
Proof. split; vm_compute; reflexivity. Qed.

(** ** C18: group messages *)

Theorem C18_sender_key_message_roundtrip : forall id iter ct sig,
  (id < 2 ^ 32)%N -> (iter < 2 ^ 32)%N -> fits ct -> length sig = 64%nat ->
  let m := {| km_id := id; km_iter := iter; km_ct := Some ct; km_version := 3; km_sig := Some sig |} in
  skm_from_bytes (skm_signed m) = Ok m.
Proof. exact skm_fields_roundtrip. Qed.

(** What NewSenderKeyMessage produces is read back unchanged. *)
Theorem C18_new_sender_key_message_roundtrip : forall C id iter ct k g m g',
  (id < 2 ^ 32)%N -> (iter < 2 ^ 32)%N -> fits ct ->
  new_sender_key_message C id iter ct (Some k) g = (Ok m, g') ->
  skm_from_bytes (skm_signed m) = Ok m.
Proof. exact new_skm_roundtrip. Qed.

Theorem C18_distribution_message_roundtrip : forall id iter chain k,
  (id < 2 ^ 32)%N -> (iter < 2 ^ 32)%N -> fits chain ->
  exists m, skd_from_bytes (skd_bytes (new_skd id iter chain k)) = Ok m /\
    dm_id m = id /\ dm_iter m = iter /\ dm_chain m = Some chain /\ dm_sigkey m = k.
Proof. exact skd_fields_roundtrip. Qed.

(** A version-2 group message, if one is built by hand, is also read back as version 3. *)
Theorem C18_version2_refuted : exists m m', skm_from_struct m = Ok m /\ km_version m = 2%N /\
  skm_from_bytes (skm_signed m) = Ok m' /\ km_version m' <> km_version m.
Proof.
  exists {| km_id := 1; km_iter := 2; km_ct := Some [x61]; km_version := 2; km_sig := Some (repeat x00 64) |}.
  eexists. split; [reflexivity|]. split; [reflexivity|].
  split; [vm_compute; reflexivity|vm_compute; discriminate].
Qed.

Example C18_example :
  match skm_from_bytes (skm_signed {| km_id := 77; km_iter := 4000000000; km_ct := Some [x61; x62]; km_version := 3;
                                      km_sig := Some (repeat x09 64) |}) with
  | Ok m => km_iter m = 4000000000%N /\ km_ct m = Some [x61; x62] | _ => False end.
Proof. vm_compute. split; reflexivity. Qed.

(** ** C19: classification of every byte string *)

(** A result is [Ok], [Err] or [Panic]; the next theorems say exactly when each parser panics, and what a
    successful parse guarantees. *)
Theorem C19_signal_message_panics_iff : forall l, sig_from_bytes l = Panic <->
  exists s, sig_deserialize l = Ok s /\
    (sg_version s = 2 \/ sg_version s = 3)%Z /\ sg_ct s <> None /\ sg_ratchet s = Some [].
Proof. exact sig_from_bytes_panic. Qed.

Theorem C19_signal_message_ok : forall l m, sig_from_bytes l = Ok m ->
  (sg_version (sm_struct m) = 2 \/ sg_version (sm_struct m) = 3)%Z /\
  (exists c, sg_ct (sm_struct m) = Some c) /\
  (exists r, sg_ratchet (sm_struct m) = Some (x05 :: r) /\ sm_ratchet m = to_arr 32 r) /\
  (exists mac, sg_mac (sm_struct m) = Some mac /\ length mac = 8%nat) /\
  (sg_counter (sm_struct m) < 2 ^ 32)%N /\ (sg_prev (sm_struct m) < 2 ^ 32)%N.
Proof. exact sig_from_bytes_ok. Qed.

Theorem C19_signal_message_short_input : forall l, (length l < 9)%nat -> exists e, sig_from_bytes l = Err e.
Proof. exact sig_short. Qed.

Theorem C19_prekey_message_panics_iff : forall l, pk_from_bytes l = Panic <->
  l = [] \/
  exists s b i m, pk_deserialize l = Ok s /\ (pk_version s = 2 \/ pk_version s = 3)%Z /\
    pk_base s = Some b /\ pk_identity s = Some i /\ pk_message s = Some m /\
    (b = [] \/ (exists rb, b = x05 :: rb) /\ (i = [] \/ (exists ri, i = x05 :: ri) /\ sig_from_bytes m = Panic)).
Proof. exact pk_from_bytes_panic. Qed.

Theorem C19_prekey_message_ok : forall l m, pk_from_bytes l = Ok m ->
  (pk_version (pm_struct m) = 2 \/ pk_version (pm_struct m) = 3)%Z /\
  (exists r, pk_base (pm_struct m) = Some (x05 :: r) /\ pm_base m = to_arr 32 r) /\
  (exists r, pk_identity (pm_struct m) = Some (x05 :: r) /\ pm_identity m = to_arr 32 r) /\
  (exists b, pk_message (pm_struct m) = Some b /\ sig_from_bytes b = Ok (pm_message m)) /\
  (exists i, pk_prekey_id (pm_struct m) = Some (ou_some i)).
Proof. exact pk_from_bytes_ok. Qed.

Theorem C19_group_message_never_panics : forall l, skm_from_bytes l <> Panic.
Proof. exact skm_from_bytes_no_panic. Qed.

Theorem C19_group_message_ok : forall l m, skm_from_bytes l = Ok m ->
  (km_version m = 2 \/ km_version m = 3)%N /\ (exists c, km_ct m = Some c) /\
  (exists sig, km_sig m = Some sig /\ length sig = 64%nat).
Proof. exact skm_from_bytes_ok. Qed.

Theorem C19_distribution_message_panics_iff : forall l, skd_from_bytes l = Panic <->
  l = [] \/ exists s, skd_deserialize l = Ok s /\ (ds_version s = 2 \/ ds_version s = 3)%N /\
                      ds_chain s <> None /\ ds_signing s = Some [].
Proof. exact skd_from_bytes_panic. Qed.

Theorem C19_distribution_message_ok : forall l m, skd_from_bytes l = Ok m ->
  (dm_version m = 2 \/ dm_version m = 3)%N /\ (exists c, dm_chain m = Some c).
Proof. exact skd_from_bytes_ok. Qed.

(** Which error. Once the fields have been read the first byte decides first (its upper half is the version), then missing fields, then the
    type byte of the key; a message whose fields cannot be read gives the error of the reader. *)
Definition version_of (l : bytes) : N := (b2n (hd x00 l) / 16)%N.
Theorem C19_signal_message_errors : forall l,
  (forall e, sig_deserialize l = Err e -> sig_from_bytes l = Err e) /\
  (forall s, sig_deserialize l = Ok s ->
    ((version_of l <= 1)%N -> sig_from_bytes l = Err ELegacy) /\ ((3 < version_of l)%N -> sig_from_bytes l = Err EUnknownVersion) /\
    ((2 <= version_of l <= 3)%N ->
      (sg_ct s = None \/ sg_ratchet s = None -> sig_from_bytes l = Err EIncomplete) /\
      (forall t r, sg_ct s <> None -> sg_ratchet s = Some (t :: r) -> t <> x05 -> sig_from_bytes l = Err EBadKeyType))).
Proof. exact sig_errors. Qed.
Theorem C19_prekey_message_errors : forall l,
  (forall e, pk_deserialize l = Err e -> pk_from_bytes l = Err e) /\
  (forall s, pk_deserialize l = Ok s ->
    ((version_of l <= 1)%N -> pk_from_bytes l = Err ELegacy) /\ ((3 < version_of l)%N -> pk_from_bytes l = Err EUnknownVersion) /\
    ((2 <= version_of l <= 3)%N ->
      (pk_base s = None \/ pk_identity s = None \/ pk_message s = None -> pk_from_bytes l = Err EIncomplete) /\
      (forall t r, pk_base s = Some (t :: r) -> pk_identity s <> None -> pk_message s <> None -> t <> x05 -> pk_from_bytes l = Err EBadKeyType) /\
      (forall t r b, pk_base s = Some (x05 :: b) -> pk_identity s = Some (t :: r) -> pk_message s <> None -> t <> x05 -> pk_from_bytes l = Err EBadKeyType) /\
      (forall b r m e, pk_base s = Some (x05 :: b) -> pk_identity s = Some (x05 :: r) -> pk_message s = Some m -> sig_from_bytes m = Err e -> pk_from_bytes l = Err e))).
Proof. exact pk_errors. Qed.
Theorem C19_group_message_errors : forall l,
  (forall e, skm_deserialize l = Err e -> skm_from_bytes l = Err e) /\
  (forall s, skm_deserialize l = Ok s ->
    ((version_of l <= 1)%N -> skm_from_bytes l = Err ELegacy) /\ ((3 < version_of l)%N -> skm_from_bytes l = Err EUnknownVersion) /\
    ((2 <= version_of l <= 3)%N -> km_ct s = None -> skm_from_bytes l = Err EIncomplete)).
Proof. exact skm_errors. Qed.
Theorem C19_distribution_message_errors : forall l,
  (forall e, skd_deserialize l = Err e -> skd_from_bytes l = Err e) /\
  (forall s, skd_deserialize l = Ok s ->
    ((version_of l <= 1)%N -> skd_from_bytes l = Err ELegacy) /\ ((3 < version_of l)%N -> skd_from_bytes l = Err EUnknownVersion) /\
    ((2 <= version_of l <= 3)%N ->
      (ds_chain s = None \/ ds_signing s = None -> skd_from_bytes l = Err EIncomplete) /\
      (forall t r, ds_chain s <> None -> ds_signing s = Some (t :: r) -> t <> x05 -> skd_from_bytes l = Err EBadKeyType))).
Proof. exact skd_errors. Qed.
Example C19_example_errors :
  sig_from_bytes (x13 :: repeat x00 8) = Err ELegacy /\ pk_from_bytes [x43] = Err EUnknownVersion /\ skm_from_bytes (x33 :: repeat x00 64) = Err EIncomplete /\
  skd_from_bytes (x33 :: marshal [(3%N, FBytes [x01]); (4%N, FBytes [x06])]) = Err EBadKeyType /\
  (exists e, skd_deserialize [x33; x08] = Err e).
Proof. repeat split; try (vm_compute; reflexivity). eexists. vm_compute. reflexivity. Qed.

(** Each panic really happens: an empty key field in an otherwise complete message, and empty input. *)
Example C19_example :
  sig_from_bytes (x33 :: marshal [(1%N, FBytes []); (4%N, FBytes [x61])] ++ repeat x00 8) = Panic /\
  pk_from_bytes [] = Panic /\ skd_from_bytes [] = Panic /\
  (exists e, sig_from_bytes [] = Err e) /\ (exists e, skm_from_bytes [] = Err e) /\
  skd_from_bytes (x33 :: marshal [(3%N, FBytes [x01]); (4%N, FBytes [])]) = Panic.
Proof.
  split; [vm_compute; reflexivity|]. do 2 (split; [reflexivity|]).
  do 2 (split; [eexists; vm_compute; reflexivity|]). vm_compute. reflexivity.
Qed.

Print Assumptions C19_signal_message_errors.
Print Assumptions C19_prekey_message_errors.
Print Assumptions C19_group_message_errors.
Print Assumptions C19_distribution_message_errors.
Print Assumptions C20_decode_classification.
Print Assumptions C16_signal_message_roundtrip.
Print Assumptions C16_new_message_roundtrip.
Print Assumptions C14_mac_input_determines_every_field.
Print Assumptions C14_forgery_needs_collision.
Print Assumptions C15_unknown_field_ignored.
Print Assumptions C15_field_order_ignored.
Print Assumptions C15_overlong_counter_accepted.
Print Assumptions C17_prekey_message_roundtrip.
Print Assumptions C18_sender_key_message_roundtrip.
Print Assumptions C18_distribution_message_roundtrip.
Print Assumptions C19_signal_message_panics_iff.
Print Assumptions C19_prekey_message_panics_iff.
Print Assumptions C20_public_key_roundtrip.
Print Assumptions C20_decode_padding.
Print Assumptions C20_encoding_injective.
Print Assumptions C16_version2_read_as_version3.
Print Assumptions C16_version2_roundtrip_refuted.
Print Assumptions C14_verify_mac_exact.
Print Assumptions C14_version2_identities_not_covered.
Print Assumptions C15_parse_depends_on_decoded_fields.
Print Assumptions C15_low_nibble_ignored.
Print Assumptions C17_absent_id_becomes_zero.
Print Assumptions C17_nil_id_panics.
Print Assumptions C17_absent_id_roundtrip_refuted.
Print Assumptions C18_new_sender_key_message_roundtrip.
Print Assumptions C18_version2_refuted.
Print Assumptions C19_signal_message_ok.
Print Assumptions C19_signal_message_short_input.
Print Assumptions C19_prekey_message_ok.
Print Assumptions C19_group_message_never_panics.
Print Assumptions C19_group_message_ok.
Print Assumptions C19_distribution_message_panics_iff.
Print Assumptions C19_distribution_message_ok.
