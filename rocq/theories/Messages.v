(** Messages.v: protocol/*.go and the protobuf message serializers of serialize/proto.go. *)
From Verif Require Import Base Labels Crypto Bytehelper Ecc Itoa Wire.

(** protocol/ciphertext_message.go:8-11, protocol/signal_message.go:15 *)
Definition unsupported_version : Z := 1.
Definition current_version : Z := 3.
Definition mac_length : nat := 8.

(** serialize/proto.go:34-36 highBitsToInt *)
Definition high_bits (b : byte) : N := (b2n b / 16)%N.

(** util/optional/int.go *)
Record opt_u32 : Type := { ou_value : N; ou_empty : bool }.
Definition ou_some (n : N) : opt_u32 := {| ou_value := n; ou_empty := false |}.
Definition ou_none : opt_u32 := {| ou_value := 0; ou_empty := true |}.

(** * SignalMessage *)

(** protocol/signal_message.go:108-115 *)
Record sig_struct : Type := {
  sg_ratchet : option bytes;
  sg_counter : N;
  sg_prev : N;
  sg_ct : option bytes;
  sg_version : Z;
  sg_mac : option bytes }.

(** protocol/signal_message.go:119-123 *)
Record sig_msg : Type := { sm_struct : sig_struct; sm_ratchet : arr32 }.

(** serialize/protocol_whisper_text.pb.go:24-27 *)
Definition sig_kinds (t : N) : option fkind :=
  if (t =? 1)%N then Some KBytes else if (t =? 2)%N then Some KUint32
  else if (t =? 3)%N then Some KUint32 else if (t =? 4)%N then Some KBytes else None.

Definition sig_fields (s : sig_struct) : list (N * fval) :=
  opt_bytes_field 1 (sg_ratchet s) ++ [(2%N, FUint (sg_counter s)); (3%N, FUint (sg_prev s))]
  ++ opt_bytes_field 4 (sg_ct s).

(** serialize/proto.go:47-70: version (omitted when 0), protobuf body, MAC when non-nil. *)
Definition sig_serialize (s : sig_struct) : bytes :=
  (if (sg_version s =? 0)%Z then [] else itoa (sg_version s))
  ++ marshal (sig_fields s)
  ++ match sg_mac s with Some m => m | None => [] end.

(** serialize/proto.go:73-100 *)
Definition sig_deserialize (l : bytes) : res sig_struct :=
  let n := Z.of_nat (length l) in
  parts <- split_three (Some l) 1 (n - 1 - Z.of_nat mac_length) (Z.of_nat mac_length) ;;
  let '(p0, p1, p2) := parts in
  match p0 with
  | [] => Panic
  | v :: _ =>
      fs <- unmarshal sig_kinds p1 ;;
      Ok {| sg_ratchet := get_bytes 1 fs; sg_counter := get_uint 2 fs; sg_prev := get_uint 3 fs;
            sg_ct := get_bytes 4 fs; sg_version := Z.of_N (high_bits v); sg_mac := Some p2 |}
  end.

(** protocol/signal_message.go:39-69 NewSignalMessageFromStruct *)
Definition sig_from_struct (s : sig_struct) : res sig_msg :=
  if (sg_version s <=? unsupported_version)%Z then Err ELegacy
  else if (sg_version s >? current_version)%Z then Err EUnknownVersion
  else match sg_ct s, sg_ratchet s with
       | Some _, Some rk =>
           k <- decode_point rk ;; Ok {| sm_struct := s; sm_ratchet := k |}
       | _, _ => Err EIncomplete
       end.

(** protocol/signal_message.go:27-35 NewSignalMessageFromBytes *)
Definition sig_from_bytes (l : bytes) : res sig_msg :=
  s <- sig_deserialize l ;; sig_from_struct s.

(** SignalMessage.Serialize, protocol/signal_message.go:195-197 *)
Definition sig_msg_bytes (m : sig_msg) : bytes := sig_serialize (sm_struct m).

Section Mac.
Context (C : crypto).

(** The bytes written to the MAC, protocol/signal_message.go:216-223. *)
Definition mac_input (version : Z) (sender receiver : arr32) (serialized : bytes) : bytes :=
  (if (version >=? 3)%Z then ser_pub sender ++ ser_pub receiver else []) ++ serialized.

(** protocol/signal_message.go:213-228 getMac *)
Definition get_mac (version : Z) (sender receiver : arr32) (mac_key serialized : bytes) : res bytes :=
  trim (hmac C mac_key (mac_input version sender receiver serialized)) mac_length.

(** protocol/signal_message.go:72-104 NewSignalMessage *)
Definition new_signal_message (version : Z) (counter prev : N) (mac_key : bytes) (ratchet : arr32)
    (ct : bytes) (sender receiver : arr32) : res sig_msg :=
  let s0 := {| sg_ratchet := Some (ser_pub ratchet); sg_counter := counter; sg_prev := prev;
               sg_ct := Some ct; sg_version := 0; sg_mac := None |} in
  mac <- get_mac version sender receiver mac_key (itoa version ++ sig_serialize s0) ;;
  sig_from_struct {| sg_ratchet := Some (ser_pub ratchet); sg_counter := counter; sg_prev := prev;
                     sg_ct := Some ct; sg_version := version; sg_mac := Some mac |}.

(** The structure over which VerifyMac recomputes the MAC, protocol/signal_message.go:160-161. *)
Definition strip_struct (s : sig_struct) : sig_struct :=
  {| sg_ratchet := sg_ratchet s; sg_counter := sg_counter s; sg_prev := sg_prev s;
     sg_ct := sg_ct s; sg_version := 0; sg_mac := None |}.

(** protocol/signal_message.go:150-192 VerifyMac. hmac.Equal is byte equality (nil = empty). *)
Definition verify_mac (m : sig_msg) (version : Z) (sender receiver : arr32) (mac_key : bytes) : res unit :=
  m' <- sig_from_struct (sm_struct m) ;;
  our <- get_mac version sender receiver mac_key
           (itoa (sg_version (sm_struct m)) ++ sig_serialize (strip_struct (sm_struct m'))) ;;
  if bytes_eqb our (match sg_mac (sm_struct m) with Some x => x | None => [] end)
  then Ok tt else Err EBadMac.
End Mac.

(** * PreKeySignalMessage *)

(** protocol/prekey_signal_message.go:101-109 *)
Record pk_struct : Type := {
  pk_reg : N;
  pk_prekey_id : option opt_u32;
  pk_signed_id : N;
  pk_base : option bytes;
  pk_identity : option bytes;
  pk_message : option bytes;
  pk_version : Z }.

(** protocol/prekey_signal_message.go:113-119 *)
Record pk_msg : Type := {
  pm_struct : pk_struct;
  pm_base : arr32;
  pm_identity : arr32;
  pm_message : sig_msg }.

(** serialize/protocol_whisper_text.pb.go:87-92 *)
Definition pk_kinds (t : N) : option fkind :=
  if (t =? 1)%N then Some KUint32 else if (t =? 2)%N then Some KBytes
  else if (t =? 3)%N then Some KBytes else if (t =? 4)%N then Some KBytes
  else if (t =? 5)%N then Some KUint32 else if (t =? 6)%N then Some KUint32 else None.

(** serialize/proto.go:107-128: a nil PreKeyID panics, an empty one is omitted. *)
Definition pk_serialize (s : pk_struct) : res bytes :=
  match pk_prekey_id s with
  | None => Panic
  | Some o =>
      Ok (itoa (pk_version s) ++
          marshal ((if ou_empty o then [] else [(1%N, FUint (ou_value o))])
                   ++ opt_bytes_field 2 (pk_base s) ++ opt_bytes_field 3 (pk_identity s)
                   ++ opt_bytes_field 4 (pk_message s)
                   ++ [(5%N, FUint (pk_reg s)); (6%N, FUint (pk_signed_id s))]))
  end.

(** serialize/proto.go:131-152: serialized[0] panics on empty input; the prekey id always comes
    back as a present value. *)
Definition pk_deserialize (l : bytes) : res pk_struct :=
  match l with
  | [] => Panic
  | v :: rest =>
      fs <- unmarshal pk_kinds rest ;;
      Ok {| pk_reg := get_uint 5 fs; pk_prekey_id := Some (ou_some (get_uint 1 fs));
            pk_signed_id := get_uint 6 fs; pk_base := get_bytes 2 fs; pk_identity := get_bytes 3 fs;
            pk_message := get_bytes 4 fs; pk_version := Z.of_N (high_bits v) |}
  end.

(** protocol/prekey_signal_message.go:35-81 NewPreKeySignalMessageFromStruct *)
Definition pk_from_struct (s : pk_struct) : res pk_msg :=
  if (pk_version s <=? unsupported_version)%Z then Err ELegacy
  else if (pk_version s >? current_version)%Z then Err EUnknownVersion
  else match pk_base s, pk_identity s, pk_message s with
       | Some b, Some i, Some m =>
           base <- decode_point b ;;
           ident <- decode_point i ;;
           msg <- sig_from_bytes m ;;
           Ok {| pm_struct := s; pm_base := base; pm_identity := ident; pm_message := msg |}
       | _, _, _ => Err EIncomplete
       end.

(** protocol/prekey_signal_message.go:22-31 *)
Definition pk_from_bytes (l : bytes) : res pk_msg := s <- pk_deserialize l ;; pk_from_struct s.

(** protocol/prekey_signal_message.go:84-97 NewPreKeySignalMessage *)
Definition new_prekey_message (version : Z) (reg : N) (prekey_id : option opt_u32) (signed_id : N)
    (base identity : arr32) (m : sig_msg) : res pk_msg :=
  pk_from_struct {| pk_reg := reg; pk_prekey_id := prekey_id; pk_signed_id := signed_id;
                    pk_base := Some (ser_pub base); pk_identity := Some (ser_pub identity);
                    pk_message := Some (sig_msg_bytes m); pk_version := version |}.

(** PreKeySignalMessage.Serialize, protocol/prekey_signal_message.go:149-151 *)
Definition pk_msg_bytes (m : pk_msg) : res bytes := pk_serialize (pm_struct m).

(** * SenderKeyMessage *)

(** protocol/sender_key_message.go:96-102 and 105-112: the structure and the message hold the same
    five values. *)
Record skm : Type := {
  km_id : N; km_iter : N; km_ct : option bytes; km_version : N; km_sig : option bytes }.

(** serialize/protocol_whisper_text.pb.go:237-239 *)
Definition skm_kinds (t : N) : option fkind :=
  if (t =? 1)%N then Some KUint32 else if (t =? 2)%N then Some KUint32
  else if (t =? 3)%N then Some KBytes else None.

(** serialize/proto.go:206-228: when Version is 0 the protobuf body is dropped as well. *)
Definition skm_serialize (s : skm) : bytes :=
  (if (km_version s =? 0)%N then []
   else dec_n (km_version s)
        ++ marshal ([(1%N, FUint (km_id s)); (2%N, FUint (km_iter s))] ++ opt_bytes_field 3 (km_ct s)))
  ++ match km_sig s with Some x => x | None => [] end.

(** protocol/sender_key_message.go:137-146 Serialize (without signature) *)
Definition skm_unsigned (m : skm) : bytes :=
  skm_serialize {| km_id := km_id m; km_iter := km_iter m; km_ct := km_ct m;
                   km_version := km_version m; km_sig := None |}.

(** protocol/sender_key_message.go:151-161 SignedSerialize *)
Definition skm_signed (m : skm) : bytes := skm_serialize m.

(** protocol/sender_key_message.go:164-166 Signature *)
Definition skm_signature (m : skm) : arr64 :=
  to_arr 64 (match km_sig m with Some x => x | None => [] end).

(** serialize/proto.go:232-258 *)
Definition skm_deserialize (l : bytes) : res skm :=
  let n := Z.of_nat (length l) in
  parts <- split_three (Some l) 1 (n - 1 - 64) 64 ;;
  let '(p0, p1, p2) := parts in
  match p0 with
  | [] => Panic
  | v :: _ =>
      fs <- unmarshal skm_kinds p1 ;;
      Ok {| km_id := get_uint 1 fs; km_iter := get_uint 2 fs; km_ct := get_bytes 3 fs;
            km_version := high_bits v; km_sig := Some p2 |}
  end.

(** protocol/sender_key_message.go:35-67 (comparisons on uint32) *)
Definition skm_from_struct (s : skm) : res skm :=
  if (km_version s <=? 1)%N then Err ELegacy
  else if (3 <? km_version s)%N then Err EUnknownVersion
  else match km_ct s with Some _ => Ok s | None => Err EIncomplete end.

(** protocol/sender_key_message.go:21-31 *)
Definition skm_from_bytes (l : bytes) : res skm := s <- skm_deserialize l ;; skm_from_struct s.

Section Skm.
Context (C : crypto).
(** protocol/sender_key_message.go:70-93 NewSenderKeyMessage: panics on a nil signing key. *)
Definition new_sender_key_message (id iter : N) (ct : bytes) (signing : option arr32) (r : rng)
    : res skm * rng :=
  match signing with
  | None => (Panic, r)
  | Some k =>
      let m := {| km_id := id; km_iter := iter; km_ct := Some ct; km_version := 3; km_sig := None |} in
      let '(sig, r') := calculate_signature C k (skm_unsigned m) r in
      (Ok {| km_id := id; km_iter := iter; km_ct := Some ct; km_version := 3; km_sig := Some (abytes sig) |}, r')
  end.
End Skm.

(** * SenderKeyDistributionMessage *)

(** protocol/sender_key_distribution_message.go:96-102 *)
Record skd_struct : Type := {
  ds_id : N; ds_iter : N; ds_chain : option bytes; ds_signing : option bytes; ds_version : N }.

(** protocol/sender_key_distribution_message.go:105-112 *)
Record skd : Type := {
  dm_id : N; dm_iter : N; dm_chain : option bytes; dm_version : N; dm_sigkey : arr32 }.

(** serialize/protocol_whisper_text.pb.go:292-295 *)
Definition skd_kinds (t : N) : option fkind :=
  if (t =? 1)%N then Some KUint32 else if (t =? 2)%N then Some KUint32
  else if (t =? 3)%N then Some KBytes else if (t =? 4)%N then Some KBytes else None.

(** serialize/proto.go:159-176 *)
Definition skd_serialize (s : skd_struct) : bytes :=
  dec_n (ds_version s)
  ++ marshal ([(1%N, FUint (ds_id s)); (2%N, FUint (ds_iter s))]
              ++ opt_bytes_field 3 (ds_chain s) ++ opt_bytes_field 4 (ds_signing s)).

(** serialize/proto.go:180-199: serialized[0] panics on empty input. *)
Definition skd_deserialize (l : bytes) : res skd_struct :=
  match l with
  | [] => Panic
  | v :: rest =>
      fs <- unmarshal skd_kinds rest ;;
      Ok {| ds_id := get_uint 1 fs; ds_iter := get_uint 2 fs; ds_chain := get_bytes 3 fs;
            ds_signing := get_bytes 4 fs; ds_version := high_bits v |}
  end.

(** protocol/sender_key_distribution_message.go:34-78 *)
Definition skd_from_struct (s : skd_struct) : res skd :=
  if (ds_version s <=? 1)%N then Err ELegacy
  else if (3 <? ds_version s)%N then Err EUnknownVersion
  else match ds_signing s, ds_chain s with
       | Some k, Some _ =>
           sk <- decode_point k ;;
           Ok {| dm_id := ds_id s; dm_iter := ds_iter s; dm_chain := ds_chain s;
                 dm_version := ds_version s; dm_sigkey := sk |}
       | _, _ => Err EIncomplete
       end.

(** protocol/sender_key_distribution_message.go:20-30 *)
Definition skd_from_bytes (l : bytes) : res skd := s <- skd_deserialize l ;; skd_from_struct s.

(** protocol/sender_key_distribution_message.go:81-92: the version field is left 0. *)
Definition new_skd (id iter : N) (chain : bytes) (k : arr32) : skd :=
  {| dm_id := id; dm_iter := iter; dm_chain := Some chain; dm_version := 0; dm_sigkey := k |}.

(** protocol/sender_key_distribution_message.go:136-145 Serialize (always CurrentVersion). *)
Definition skd_bytes (m : skd) : bytes :=
  skd_serialize {| ds_id := dm_id m; ds_iter := dm_iter m; ds_chain := dm_chain m;
                   ds_signing := Some (ser_pub (dm_sigkey m)); ds_version := 3 |}.
