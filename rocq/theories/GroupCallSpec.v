(** GroupCallSpec.v: the answer of every group call and the record it leaves, case by case (C79). Written from the description of sender keys:
    no function of the group cipher is used, only the types of the records, the key schedule of WireFormatSpec.v and the wire bytes a signature
    covers. *)
From Verif Require Import Base Labels Crypto Bytehelper Ecc Messages SessionState Group GroupSpec GroupStoreSpec WireFormatSpec BodySpec.
From Coq Require Import List.
Import ListNotations.
Local Open Scope N_scope.

Section Spec.
Context (C : crypto).

(** Chain key number [i] of a chain and the key of the message with it. *)
Definition key_at (chain : gchain) (i : nat) (k : gmsg_key) : Prop :=
  gm_iter k = gc_iter chain + N.of_nat i /\ gm_seed k = hmac C (chain_after C i (gc_key chain)) [x01] /\
  group_keys_of_chain C (chain_after C i (gc_key chain)) (gm_iv k) (gm_cipher k).

(** [readable s n k s']: iteration [n] can be read with the key [k], and [s'] is what is remembered then. Either it was skipped and its key kept,
    or it is at most 2000 ahead; the keys of those skipped now are kept, 2000 in all, the oldest going first. *)
Inductive readable (s : gstate) (n : N) : gmsg_key -> gstate -> Prop :=
| readable_kept : forall a k b, n < gc_iter (gs_chain s) -> gs_keys s = a ++ k :: b -> gm_iter k = n -> (forall x, In x a -> gm_iter x <> n) ->
    readable s n k {| gs_keys := a ++ b; gs_id := gs_id s; gs_chain := gs_chain s; gs_signing := gs_signing s |}
| readable_new : forall ahead k ks, n = gc_iter (gs_chain s) + N.of_nat ahead -> N.of_nat ahead <= 2000 -> key_at (gs_chain s) ahead k ->
    Forall2 (key_at (gs_chain s)) (seq 0 ahead) ks ->
    readable s n k
      {| gs_keys := last_n (N.to_nat 2000) (gs_keys s ++ ks); gs_id := gs_id s;
         gs_chain := {| gc_key := chain_after C (ahead + 1) (gc_key (gs_chain s)); gc_iter := (n + 1) mod 2 ^ 32 |}; gs_signing := gs_signing s |}.

(** The first stored sender key with the id of the message, and whether its signature is good. *)
Definition known (r : grecord) (id : N) (before : grecord) (s : gstate) (after : grecord) : Prop :=
  r = before ++ s :: after /\ gs_id s = id /\ (forall t, In t before -> gs_id t <> id).
Definition signed_by (s : gstate) (m : skm) : Prop := verify_signature C (kp_pub (gs_signing s)) (skm_unsigned m) (skm_signature m) = true.

(** groups/cipher.go:73-107 Decrypt *)
Inductive decrypt_fate : option grecord -> skm -> res bytes -> option grecord -> Prop :=
| decrypt_nothing_stored : forall m, decrypt_fate None m Panic None
| decrypt_empty : forall m, decrypt_fate (Some []) m (Err ENoSenderKey) (Some [])
| decrypt_unknown : forall r m, r <> [] -> (forall t, In t r -> gs_id t <> km_id m) -> decrypt_fate (Some r) m (Err ENoSenderKeyForId) (Some r)
| decrypt_forged : forall r m before s after, known r (km_id m) before s after -> ~ signed_by s m -> decrypt_fate (Some r) m (Err EVerification) (Some r)
| decrypt_old : forall r m before s after, known r (km_id m) before s after -> signed_by s m -> km_iter m < gc_iter (gs_chain s) ->
    (forall k, In k (gs_keys s) -> gm_iter k <> km_iter m) -> decrypt_fate (Some r) m (Err EGroupOldCounter) (Some r)
| decrypt_far : forall r m before s after, known r (km_id m) before s after -> signed_by s m -> gc_iter (gs_chain s) + 2000 < km_iter m ->
    decrypt_fate (Some r) m (Err EOver2000) (Some r)
| decrypt_fails : forall r m before s after k s' o, known r (km_id m) before s after -> signed_by s m -> readable s (km_iter m) k s' ->
    body_fate C (gm_cipher k) (gm_iv k) (skm_body m) o -> (forall pt, o <> Ok pt) -> decrypt_fate (Some r) m o (Some r)
| decrypt_read : forall r m before s after k s' pt, known r (km_id m) before s after -> signed_by s m -> readable s (km_iter m) k s' ->
    body_fate C (gm_cipher k) (gm_iv k) (skm_body m) (Ok pt) -> decrypt_fate (Some r) m (Ok pt) (Some (before ++ s' :: after)).

(** groups/cipher.go:37-69 Encrypt: with the first sender key, whoever made it *)
Inductive encrypt_fate : option grecord -> bytes -> rng -> res skm -> option grecord -> Prop :=
| encrypt_nothing_stored : forall pt g, encrypt_fate None pt g Panic None
| encrypt_empty : forall pt g, encrypt_fate (Some []) pt g (Err ENoSenderKeys) (Some [])
| encrypt_sent : forall s rest pt g priv k body m, kp_priv (gs_signing s) = Some priv -> key_at (gs_chain s) 0 k -> cbc_ciphertext C (gm_cipher k) (gm_iv k) pt body ->
    km_id m = gs_id s -> km_iter m = gc_iter (gs_chain s) -> km_ct m = Some body -> km_version m = 3 ->
    km_sig m = Some (abytes (fst (calculate_signature C priv (skm_unsigned m) g))) ->
    encrypt_fate (Some (s :: rest)) pt g (Ok m)
      (Some ({| gs_keys := gs_keys s; gs_id := gs_id s;
                gs_chain := {| gc_key := chain_after C 1 (gc_key (gs_chain s)); gc_iter := (gc_iter (gs_chain s) + 1) mod 2 ^ 32 |};
                gs_signing := gs_signing s |} :: rest)).

(** groups/session_builder.go:37-46 Process: the sender key is added at the end, and the 2000 latest are kept. *)
Inductive process_fate : option grecord -> skd -> option grecord -> Prop :=
| process_first : forall d, process_fate None d (Some [received d])
| process_added : forall r d, process_fate (Some r) d (Some (last_n (N.to_nat 2000) (r ++ [received d]))).

(** groups/session_builder.go:49-84 Create: the first sender key as it is now, or a new one; the id and chain key are zeros where randomness
    fails. *)
(** The version in the object is left 0; its serialization carries 3 (C70). *)
Definition describes (d : skd) (s : gstate) : Prop :=
  dm_id d = gs_id s /\ dm_iter d = gc_iter (gs_chain s) /\ dm_chain d = Some (gc_key (gs_chain s)) /\ dm_sigkey d = kp_pub (gs_signing s) /\ dm_version d = 0.
(** Four bytes as a number, the least significant first (encoding/binary LittleEndian). *)
Fixpoint little_endian (l : bytes) : N := match l with [] => 0 | b :: l' => b2n b + 256 * little_endian l' end.
Definition nothing_yet (st : option grecord) : Prop := st = None \/ st = Some [].
Inductive create_fate : option grecord -> rng -> res skd -> option grecord -> Prop :=
| create_again : forall s rest g d, describes d s -> create_fate (Some (s :: rest)) g (Ok d) (Some (s :: rest))
| create_fails : forall st g g', nothing_yet st -> rng_read 32 g = (None, g') -> create_fate st g (Err ERand) st
| create_new : forall st g seed g1 oid g2 okey g3 d s, nothing_yet st -> rng_read 32 g = (Some seed, g1) -> rng_read 4 g1 = (oid, g2) -> rng_read 32 g2 = (okey, g3) ->
    gs_keys s = [] -> gs_id s = match oid with Some a => little_endian (abytes a) | None => 0 end ->
    gc_key (gs_chain s) = match okey with Some a => abytes a | None => repeat x00 32 end -> gc_iter (gs_chain s) = 0 ->
    gs_signing s = {| kp_pub := x_base C (clamp seed); kp_priv := Some (clamp seed) |} -> describes d s -> create_fate st g (Ok d) (Some [s]).

Definition call_fate (st : option grecord) (c : gcall) (a : ganswer) (st' : option grecord) : Prop :=
  match c, a with
  | CEncrypt pt g, AMessage o => encrypt_fate st pt g o st'
  | CDecrypt m, APlain o => decrypt_fate st m o st'
  | CProcess d, AProcessed => process_fate st d st'
  | CCreate g, ADistribution o => create_fate st g o st'
  | _, _ => False
  end.
(** A whole program, from the empty store. *)
Inductive program_fate : option grecord -> list gcall -> list ganswer -> option grecord -> Prop :=
| program_end : forall st, program_fate st [] [] st
| program_call : forall st c a st1 cs l st2, call_fate st c a st1 -> program_fate st1 cs l st2 -> program_fate st (c :: cs) (a :: l) st2.
End Spec.

(** Iterations in messages are uint32. *)
Definition call_ok (c : gcall) : Prop := match c with CDecrypt m => km_iter m < 2 ^ 32 | _ => True end.
