(** JsonMessages.v: the four messages with the JSON serializers (NewJSONSerializer, serialize/json.go:14-30). The message
    code of protocol/*.go takes its serializer as an argument; the functions of Messages.v fix the protobuf serializer,
    these have the JSON one. *)
From Coq Require Import String.
From Verif Require Import Base Crypto Ecc Itoa Messages Json JsonRecords.
Open Scope list_scope.
Local Open Scope N_scope.

(** protocol/signal_message.go:108-115 SignalMessageStructure *)
Definition sig_ty : fields :=
  [(bs "RatchetKey", TBytes); (bs "Counter", TU32); (bs "PreviousCounter", TU32); (bs "CipherText", TBytes); (bs "Version", TInt); (bs "Mac", TBytes)].
(** protocol/prekey_signal_message.go:101-109 PreKeySignalMessageStructure *)
Definition pk_ty : fields :=
  [(bs "RegistrationID", TU32); (bs "PreKeyID", TPtr opt_u32_ty); (bs "SignedPreKeyID", TU32); (bs "BaseKey", TBytes); (bs "IdentityKey", TBytes); (bs "Message", TBytes); (bs "Version", TInt)].
(** protocol/sender_key_message.go:96-102 SenderKeyMessageStructure *)
Definition skm_ty : fields := [(bs "ID", TU32); (bs "Iteration", TU32); (bs "CipherText", TBytes); (bs "Version", TU32); (bs "Signature", TBytes)].
(** protocol/sender_key_distribution_message.go:96-102 SenderKeyDistributionMessageStructure *)
Definition skd_ty : fields := [(bs "ID", TU32); (bs "Iteration", TU32); (bs "ChainKey", TBytes); (bs "SigningKey", TBytes); (bs "Version", TU32)].

(** serialize/json.go:36-44 and 47-56. The last case of each reader stands for values Go's types exclude. *)
Definition sig_to_json (s : sig_struct) : bytes :=
  marshal sig_ty [VBytes (sg_ratchet s); VU32 (sg_counter s); VU32 (sg_prev s); VBytes (sg_ct s); VInt (sg_version s); VBytes (sg_mac s)].
Definition sig_of_json (l : bytes) : res sig_struct :=
  vs <- unmarshal sig_ty l ;;
  match vs with
  | [VBytes rk; VU32 c; VU32 p; VBytes ct; VInt v; VBytes mac] =>
      Ok {| sg_ratchet := rk; sg_counter := c; sg_prev := p; sg_ct := ct; sg_version := v; sg_mac := mac |}
  | _ => Panic
  end.
(** serialize/json.go:63-71 and 74-83 *)
Definition pk_to_json (s : pk_struct) : bytes :=
  marshal pk_ty [VU32 (pk_reg s); VPtr (option_map opt_u32_val (pk_prekey_id s)); VU32 (pk_signed_id s); VBytes (pk_base s); VBytes (pk_identity s); VBytes (pk_message s); VInt (pk_version s)].
Definition pk_of_json (l : bytes) : res pk_struct :=
  vs <- unmarshal pk_ty l ;;
  match vs with
  | [VU32 reg; VPtr id; VU32 sid; VBytes base; VBytes ident; VBytes m; VInt v] =>
      Ok {| pk_reg := reg; pk_prekey_id := opt_u32_of id; pk_signed_id := sid; pk_base := base; pk_identity := ident; pk_message := m; pk_version := v |}
  | _ => Panic
  end.
(** serialize/json.go:227-236 and 239-248 *)
Definition skm_to_json (s : skm) : bytes := marshal skm_ty [VU32 (km_id s); VU32 (km_iter s); VBytes (km_ct s); VU32 (km_version s); VBytes (km_sig s)].
Definition skm_of_json (l : bytes) : res skm :=
  vs <- unmarshal skm_ty l ;;
  match vs with
  | [VU32 id; VU32 it; VBytes ct; VU32 v; VBytes sig] => Ok {| km_id := id; km_iter := it; km_ct := ct; km_version := v; km_sig := sig |}
  | _ => Panic
  end.
(** serialize/json.go:199-208 and 211-220 *)
Definition skd_to_json (s : skd_struct) : bytes := marshal skd_ty [VU32 (ds_id s); VU32 (ds_iter s); VBytes (ds_chain s); VBytes (ds_signing s); VU32 (ds_version s)].
Definition skd_of_json (l : bytes) : res skd_struct :=
  vs <- unmarshal skd_ty l ;;
  match vs with
  | [VU32 id; VU32 it; VBytes ck; VBytes sk; VU32 v] => Ok {| ds_id := id; ds_iter := it; ds_chain := ck; ds_signing := sk; ds_version := v |}
  | _ => Panic
  end.

(** protocol/signal_message.go:27-35 NewSignalMessageFromBytes and 195-197 Serialize *)
Definition sig_from_json (l : bytes) : res sig_msg := s <- sig_of_json l ;; sig_from_struct s.
Definition sig_msg_json (m : sig_msg) : bytes := sig_to_json (sm_struct m).

Section Mac.
Context (C : crypto).
(** protocol/signal_message.go:72-104 NewSignalMessage *)
Definition new_signal_message_json (version : Z) (counter prev : N) (mac_key : bytes) (ratchet : arr32) (ct : bytes) (sender receiver : arr32) : res sig_msg :=
  let s0 := {| sg_ratchet := Some (ser_pub ratchet); sg_counter := counter; sg_prev := prev; sg_ct := Some ct; sg_version := 0; sg_mac := None |} in
  mac <- get_mac C version sender receiver mac_key (itoa version ++ sig_to_json s0) ;;
  sig_from_struct {| sg_ratchet := Some (ser_pub ratchet); sg_counter := counter; sg_prev := prev; sg_ct := Some ct; sg_version := version; sg_mac := Some mac |}.
(** protocol/signal_message.go:150-192 VerifyMac *)
Definition verify_mac_json (m : sig_msg) (version : Z) (sender receiver : arr32) (mac_key : bytes) : res unit :=
  m' <- sig_from_struct (sm_struct m) ;;
  our <- get_mac C version sender receiver mac_key (itoa (sg_version (sm_struct m)) ++ sig_to_json (strip_struct (sm_struct m'))) ;;
  if bytes_eqb our (match sg_mac (sm_struct m) with Some x => x | None => [] end) then Ok tt else Err EBadMac.
End Mac.

(** protocol/prekey_signal_message.go:35-81 NewPreKeySignalMessageFromStruct, 22-31 ...FromBytes, 84-97 NewPreKeySignalMessage,
    149-151 Serialize *)
Definition pk_from_struct_json (s : pk_struct) : res pk_msg :=
  if (pk_version s <=? unsupported_version)%Z then Err ELegacy
  else if (pk_version s >? current_version)%Z then Err EUnknownVersion
  else match pk_base s, pk_identity s, pk_message s with
       | Some b, Some i, Some m =>
           base <- decode_point b ;;
           ident <- decode_point i ;;
           msg <- sig_from_json m ;;
           Ok {| pm_struct := s; pm_base := base; pm_identity := ident; pm_message := msg |}
       | _, _, _ => Err EIncomplete
       end.
Definition pk_from_json (l : bytes) : res pk_msg := s <- pk_of_json l ;; pk_from_struct_json s.
Definition new_prekey_message_json (version : Z) (reg : N) (prekey_id : option opt_u32) (signed_id : N) (base identity : arr32) (m : sig_msg) : res pk_msg :=
  pk_from_struct_json {| pk_reg := reg; pk_prekey_id := prekey_id; pk_signed_id := signed_id; pk_base := Some (ser_pub base);
                         pk_identity := Some (ser_pub identity); pk_message := Some (sig_msg_json m); pk_version := version |}.
Definition pk_msg_json (m : pk_msg) : bytes := pk_to_json (pm_struct m).

(** protocol/sender_key_message.go:137-146 Serialize, 151-161 SignedSerialize, 21-31 ...FromBytes, 70-93 NewSenderKeyMessage *)
Definition skm_unsigned_json (m : skm) : bytes :=
  skm_to_json {| km_id := km_id m; km_iter := km_iter m; km_ct := km_ct m; km_version := km_version m; km_sig := None |}.
Definition skm_signed_json (m : skm) : bytes := skm_to_json m.
Definition skm_from_json (l : bytes) : res skm := s <- skm_of_json l ;; skm_from_struct s.
Definition new_sender_key_message_json (C : crypto) (id iter : N) (ct : bytes) (signing : option arr32) (r : rng) : res skm * rng :=
  match signing with
  | None => (Panic, r)
  | Some k =>
      let m := {| km_id := id; km_iter := iter; km_ct := Some ct; km_version := 3; km_sig := None |} in
      let '(sig, r') := calculate_signature C k (skm_unsigned_json m) r in
      (Ok {| km_id := id; km_iter := iter; km_ct := Some ct; km_version := 3; km_sig := Some (abytes sig) |}, r')
  end.

(** protocol/sender_key_distribution_message.go:136-145 Serialize, 20-30 ...FromBytes *)
Definition skd_json (m : skd) : bytes :=
  skd_to_json {| ds_id := dm_id m; ds_iter := dm_iter m; ds_chain := dm_chain m; ds_signing := Some (ser_pub (dm_sigkey m)); ds_version := 3 |}.
Definition skd_from_json (l : bytes) : res skd := s <- skd_of_json l ;; skd_from_struct s.
