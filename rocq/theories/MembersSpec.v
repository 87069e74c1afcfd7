(** MembersSpec.v: the members of the JSON objects the library stores and sends, by name, in the order of the Go declarations: what
    encoding/json derives from the exported fields. Written from the Go declarations, without the lists of JsonRecords.v and
    JsonMessages.v, so that the theorems which speak of a file or a text (C61, C75) fix the names and the kinds. *)
From Coq Require Import String List.
From Verif Require Import Base Json.
Import ListNotations.
Open Scope list_scope.

(** util/optional/int.go:14-17 *)
Definition optional_members : fields := [(str "Value", TU32); (str "IsEmpty", TBool)].
(** keys/chain/key.go:44-47, keys/message/key.go:54-59, state/record/state_chain.go:70-75 *)
Definition chain_members : fields :=
  [(str "SenderRatchetKeyPublic", TBytes); (str "SenderRatchetKeyPrivate", TBytes); (str "ChainKey", TPtr [(str "Key", TBytes); (str "Index", TU32)]);
   (str "MessageKeys", TSlice (TPtr [(str "CipherKey", TBytes); (str "MacKey", TBytes); (str "IV", TBytes); (str "Index", TU32)]))].
(** state/record/state_pending_key_exchange.go:59-67 *)
Definition exchange_members : fields :=
  [(str "Sequence", TU32); (str "LocalBaseKeyPublic", TBytes); (str "LocalBaseKeyPrivate", TBytes); (str "LocalRatchetKeyPublic", TBytes);
   (str "LocalRatchetKeyPrivate", TBytes); (str "LocalIdentityKeyPublic", TBytes); (str "LocalIdentityKeyPrivate", TBytes)].
(** state/record/state_session.go:100-114, state_pending_prekey.go:38-42 *)
Definition state_members : fields :=
  [(str "LocalIdentityPublic", TBytes); (str "LocalRegistrationID", TU32); (str "NeedsRefresh", TBool); (str "PendingKeyExchange", TPtr exchange_members);
   (str "PendingPreKey", TPtr [(str "PreKeyID", TPtr optional_members); (str "SignedPreKeyID", TU32); (str "BaseKey", TBytes)]);
   (str "PreviousCounter", TU32); (str "ReceiverChains", TSlice (TPtr chain_members)); (str "RemoteIdentityPublic", TBytes); (str "RemoteRegistrationID", TU32);
   (str "RootKey", TBytes); (str "SenderBaseKey", TBytes); (str "SenderChain", TPtr chain_members); (str "SessionVersion", TInt)].
(** state/record/session.go:92-95 *)
Definition session_members : fields := [(str "SessionState", TPtr state_members); (str "PreviousStates", TSlice (TPtr state_members))].
(** groups/ratchet/sender_message_key.go:55-60, sender_chain_key.go:37-40, groups/state/record/state_sender_key.go:91-97, sender_key.go:67-69 *)
Definition sender_members : fields :=
  [(str "SenderKeyStates", TSlice (TPtr
     [(str "Keys", TSlice (TPtr [(str "Iteration", TU32); (str "IV", TBytes); (str "CipherKey", TBytes); (str "Seed", TBytes)])); (str "KeyID", TU32);
      (str "SenderChainKey", TPtr [(str "Iteration", TU32); (str "ChainKey", TBytes)]); (str "SigningKeyPrivate", TBytes); (str "SigningKeyPublic", TBytes)]))].
(** state/record/prekey.go:60-64, signed_prekey.go:70-76 *)
Definition prekey_members : fields := [(str "ID", TU32); (str "PublicKey", TBytes); (str "PrivateKey", TBytes)].
Definition signed_prekey_members : fields := [(str "ID", TU32); (str "PublicKey", TBytes); (str "PrivateKey", TBytes); (str "Signature", TBytes); (str "Timestamp", TInt)].

(** protocol/signal_message.go:108-115, prekey_signal_message.go:101-109, sender_key_message.go:96-102, sender_key_distribution_message.go:96-102 *)
Definition signal_members : fields :=
  [(str "RatchetKey", TBytes); (str "Counter", TU32); (str "PreviousCounter", TU32); (str "CipherText", TBytes); (str "Version", TInt); (str "Mac", TBytes)].
Definition prekey_message_members : fields :=
  [(str "RegistrationID", TU32); (str "PreKeyID", TPtr optional_members); (str "SignedPreKeyID", TU32); (str "BaseKey", TBytes); (str "IdentityKey", TBytes); (str "Message", TBytes); (str "Version", TInt)].
Definition group_members : fields := [(str "ID", TU32); (str "Iteration", TU32); (str "CipherText", TBytes); (str "Version", TU32); (str "Signature", TBytes)].
Definition distribution_members : fields := [(str "ID", TU32); (str "Iteration", TU32); (str "ChainKey", TBytes); (str "SigningKey", TBytes); (str "Version", TU32)].
