(** JsonStorageSpec.v: the texts the JSON serializers are documented to produce, written out: one object per structure,
    members in the order of the Go declaration, byte strings in base64, absent byte strings and pointers as null. *)
From Coq Require Import String.
From Verif Require Import Base Itoa Ecc Keys Messages SessionState SessionRecord Group PreKeyRecords Json.
Open Scope list_scope.
Local Open Scope N_scope.

Definition comma_separated (l : list bytes) : bytes :=
  match l with [] => [] | a :: r => a ++ concat (map (fun b => str "," ++ b) r) end.
Definition object (ms : list (string * bytes)) : bytes :=
  str "{" ++ comma_separated (map (fun m => str """" ++ str (fst m) ++ str """:" ++ snd m) ms) ++ str "}".
Definition array (l : list bytes) : bytes := str "[" ++ comma_separated l ++ str "]".
Definition base64_string (b : bytes) : bytes := str """" ++ b64_encode b ++ str """".
Definition or_null {A} (f : A -> bytes) (o : option A) : bytes := match o with Some a => f a | None => str "null" end.
Definition boolean (b : bool) : bytes := if b then str "true" else str "false".

Definition chain_key_text (k : chain_key) : bytes := object [("Key", base64_string (ck_key k)); ("Index", dec_n (ck_index k))]%string.
Definition msg_keys_text (k : msg_keys) : bytes :=
  object [("CipherKey", base64_string (mk_cipher k)); ("MacKey", base64_string (mk_mac k)); ("IV", base64_string (mk_iv k)); ("Index", dec_n (mk_index k))]%string.
(** public keys are stored with their type byte 05 *)
Definition pub (k : arr32) : bytes := x05 :: abytes k.
Definition chain_text (c : chain) : bytes :=
  object [("SenderRatchetKeyPublic", base64_string (pub (kp_pub (ch_pair c))));
          ("SenderRatchetKeyPrivate", or_null (fun k => base64_string (abytes k)) (kp_priv (ch_pair c)));
          ("ChainKey", chain_key_text (ch_key c)); ("MessageKeys", array (map msg_keys_text (ch_msgs c)))]%string.
Definition optional_text (o : opt_u32) : bytes := object [("Value", dec_n (ou_value o)); ("IsEmpty", boolean (ou_empty o))]%string.
Definition pending_text (p : pending_prekey) : bytes :=
  object [("PreKeyID", or_null optional_text (pp_id p)); ("SignedPreKeyID", dec_n (pp_signed p)); ("BaseKey", base64_string (pub (pp_base p)))]%string.
(** a session state without a pending key exchange (the library never creates one), with all its parts *)
Definition state_text (li ri bk : arr32) (rk : bytes) (sc : chain) (s : state) : bytes :=
  object [("LocalIdentityPublic", base64_string (pub li)); ("LocalRegistrationID", dec_n (s_local_reg s)); ("NeedsRefresh", boolean (s_needs_refresh s));
          ("PendingKeyExchange", str "null"); ("PendingPreKey", or_null pending_text (s_pending s)); ("PreviousCounter", dec_n (s_prev_counter s));
          ("ReceiverChains", array (map chain_text (s_recv s))); ("RemoteIdentityPublic", base64_string (pub ri)); ("RemoteRegistrationID", dec_n (s_remote_reg s));
          ("RootKey", base64_string rk); ("SenderBaseKey", base64_string (pub bk)); ("SenderChain", chain_text sc); ("SessionVersion", itoa (s_version s))]%string.
Definition session_text (current : bytes) (previous : list bytes) : bytes := object [("SessionState", current); ("PreviousStates", array previous)]%string.

Definition sender_chain_text (c : gchain) : bytes := object [("Iteration", dec_n (gc_iter c)); ("ChainKey", base64_string (gc_key c))]%string.
Definition sender_message_key_text (k : gmsg_key) : bytes :=
  object [("Iteration", dec_n (gm_iter k)); ("IV", base64_string (gm_iv k)); ("CipherKey", base64_string (gm_cipher k)); ("Seed", base64_string (gm_seed k))]%string.
Definition sender_state_text (s : gstate) : bytes :=
  object [("Keys", array (map sender_message_key_text (gs_keys s))); ("KeyID", dec_n (gs_id s)); ("SenderChainKey", sender_chain_text (gs_chain s));
          ("SigningKeyPrivate", or_null (fun k => base64_string (abytes k)) (kp_priv (gs_signing s))); ("SigningKeyPublic", base64_string (pub (kp_pub (gs_signing s))))]%string.
Definition sender_key_text (r : grecord) : bytes := object [("SenderKeyStates", array (map sender_state_text r))]%string.

Definition prekey_text (id : N) (p k : arr32) : bytes :=
  object [("ID", dec_n id); ("PublicKey", base64_string (pub p)); ("PrivateKey", base64_string (abytes k))]%string.
Definition signed_prekey_text (id : N) (p k : arr32) (sig : arr64) (time : Z) : bytes :=
  object [("ID", dec_n id); ("PublicKey", base64_string (pub p)); ("PrivateKey", base64_string (abytes k)); ("Signature", base64_string (abytes sig)); ("Timestamp", itoa time)]%string.

Definition signal_message_text (s : sig_struct) : bytes :=
  object [("RatchetKey", or_null base64_string (sg_ratchet s)); ("Counter", dec_n (sg_counter s)); ("PreviousCounter", dec_n (sg_prev s));
          ("CipherText", or_null base64_string (sg_ct s)); ("Version", itoa (sg_version s)); ("Mac", or_null base64_string (sg_mac s))]%string.
Definition prekey_message_text (s : pk_struct) : bytes :=
  object [("RegistrationID", dec_n (pk_reg s)); ("PreKeyID", or_null optional_text (pk_prekey_id s)); ("SignedPreKeyID", dec_n (pk_signed_id s));
          ("BaseKey", or_null base64_string (pk_base s)); ("IdentityKey", or_null base64_string (pk_identity s)); ("Message", or_null base64_string (pk_message s)); ("Version", itoa (pk_version s))]%string.
Definition sender_message_text (s : skm) : bytes :=
  object [("ID", dec_n (km_id s)); ("Iteration", dec_n (km_iter s)); ("CipherText", or_null base64_string (km_ct s)); ("Version", dec_n (km_version s)); ("Signature", or_null base64_string (km_sig s))]%string.
Definition distribution_message_text (s : skd_struct) : bytes :=
  object [("ID", dec_n (ds_id s)); ("Iteration", dec_n (ds_iter s)); ("ChainKey", or_null base64_string (ds_chain s)); ("SigningKey", or_null base64_string (ds_signing s)); ("Version", dec_n (ds_version s))]%string.

(** * Ranges: what Go's types guarantee about the numbers in a record *)
Definition u32_ok (n : N) : Prop := n < 4294967296.
Definition int_ok (z : Z) : Prop := (- 9223372036854775808 <= z <= 9223372036854775807)%Z.
Definition go_chain (c : chain) : Prop := u32_ok (ck_index (ch_key c)) /\ Forall (fun m => u32_ok (mk_index m)) (ch_msgs c).
Definition go_state (s : state) : Prop :=
  u32_ok (s_local_reg s) /\ u32_ok (s_remote_reg s) /\ u32_ok (s_prev_counter s) /\ int_ok (s_version s) /\
  (forall p, s_pending_kx s = Some p -> u32_ok (px_seq p)) /\
  (forall p, s_pending s = Some p -> u32_ok (pp_signed p) /\ (forall o, pp_id p = Some o -> u32_ok (ou_value o))) /\
  Forall go_chain (s_recv s) /\ (forall c, s_sender s = Some c -> go_chain c).
Definition go_record (r : record) : Prop := go_state (r_cur r) /\ Forall go_state (r_prev r).
Definition go_gstate (s : gstate) : Prop :=
  u32_ok (gs_id s) /\ u32_ok (gc_iter (gs_chain s)) /\ Forall (fun k => u32_ok (gm_iter k)) (gs_keys s).
Definition go_sig (s : sig_struct) : Prop := u32_ok (sg_counter s) /\ u32_ok (sg_prev s) /\ int_ok (sg_version s).
Definition go_pk (s : pk_struct) : Prop :=
  u32_ok (pk_reg s) /\ u32_ok (pk_signed_id s) /\ int_ok (pk_version s) /\ (forall o, pk_prekey_id s = Some o -> u32_ok (ou_value o)).
Definition go_skm (s : skm) : Prop := u32_ok (km_id s) /\ u32_ok (km_iter s) /\ u32_ok (km_version s).
Definition go_skd (s : skd_struct) : Prop := u32_ok (ds_id s) /\ u32_ok (ds_iter s) /\ u32_ok (ds_version s).
