(** PropertiesSerial.v: C29, C30, C31. *)
From Verif Require Import Base Labels Crypto Bytehelper Ecc Keys X3dh Messages SessionState SessionRecord
  SessionBuilder SessionCipher Address World Group PreKeyRecords Toy SerialProofs ToySession.

(** ** C29 *)

(** [initialised] is defined here again in words: both identities, root key, base key and sending chain are
    set, and a pending key exchange (if any) has its private keys. *)
Definition has_session (s : state) : Prop :=
  s_local_id s <> None /\ s_remote_id s <> None /\ s_root s <> None /\ s_base s <> None /\ s_sender s <> None /\
  match s_pending_kx s with
  | Some p => kp_priv (px_base p) <> None /\ kp_priv (px_ratchet p) <> None
  | None => True
  end.

(** Serialize followed by deserialize succeeds exactly on records all of whose states are initialised, and then
    returns the record itself apart from the fresh flag. *)
Theorem C29_record_roundtrip : forall r r',
  persist r = Ok r' <->
  has_session (r_cur r) /\ Forall has_session (r_prev r) /\
  r' = {| r_cur := r_cur r; r_prev := r_prev r; r_fresh := false |}.
Proof. exact persist_iff. Qed.

Theorem C29_uninitialised_record_panics : forall r,
  ~ (has_session (r_cur r) /\ Forall has_session (r_prev r)) -> persist r = Panic.
Proof. exact persist_panic. Qed.

(** A second save and load changes nothing any more. *)
Corollary C29_idempotent : forall r r', persist r = Ok r' -> persist r' = Ok r'.
Proof. exact persist_idempotent. Qed.

Theorem C29_state_roundtrip : forall s t, state_structure s = Ok t -> state_from_structure t = Ok s.
Proof. exact state_roundtrip. Qed.

Theorem C29_chain_roundtrip : forall c, chain_from_structure (chain_structure c) = Ok c.
Proof. exact chain_roundtrip. Qed.

Example C29_example_ok : persist alice_rec4 = Ok alice_rec4 /\ length (s_recv (r_cur alice_rec4)) = 2%nat.
Proof. vm_compute. split; reflexivity. Qed.
Example C29_example_panic : persist new_record = Panic.
Proof. reflexivity. Qed.

(** ** C30 *)

Theorem C30_prekey_reload : forall id p priv r, kp_priv p = Some priv -> new_pkr id p = Ok r ->
  let r' := pkr_from_struct (pkr_serialize r) in
  pkr_id r' = pkr_id r /\ pkr_id r' = ou_some id /\ kp_priv (kr_pair r') = Some priv /\
  (kp_pub (kr_pair r') = kp_pub p <-> kp_pub p = to_arr 32 (repeat x05 32)) /\
  abytes (kp_pub (kr_pair r')) = x05 :: firstn 31 (abytes (kp_pub p)).
Proof. exact pkr_reload. Qed.

Theorem C30_signed_prekey_reload : forall id time p priv sig r, kp_priv p = Some priv -> new_skr id time p sig = Ok r ->
  let r' := skr_from_struct (skr_serialize r) in
  zs_id (zr_struct r') = id /\ zs_time (zr_struct r') = time /\ zr_sig r' = sig /\ kp_priv (zr_pair r') = Some priv /\
  (kp_pub (zr_pair r') = kp_pub p <-> kp_pub p = to_arr 32 (repeat x05 32)) /\
  abytes (kp_pub (zr_pair r')) = x05 :: firstn 31 (abytes (kp_pub p)).
Proof. exact skr_reload. Qed.

(** The expectation "a reloaded prekey has the same public key" fails. *)
Theorem C30_public_key_preserved_refuted : exists id p r, new_pkr id p = Ok r /\
  kp_pub (kr_pair (pkr_from_struct (pkr_serialize r))) <> kp_pub p.
Proof.
  exists 7%N, (pair_of toy (tkey x71)). eexists. split; [vm_compute; reflexivity|]. vm_compute. discriminate.
Qed.
(** A key pair that meets the hypotheses. *)
Definition some_pair : ec_pair := {| kp_pub := tkey x41; kp_priv := Some (tkey x42) |}.
Example C30_example : exists r z, new_pkr 7 some_pair = Ok r /\ new_skr 9 (1500000000) some_pair (zero_arr 64) = Ok z /\ kp_priv some_pair = Some (tkey x42) /\
  abytes (kp_pub (kr_pair (pkr_from_struct (pkr_serialize r)))) = x05 :: firstn 31 (abytes (tkey x41)).
Proof.
  exists {| kr_struct := {| ks_id := 7; ks_pub := ser_pub (tkey x41); ks_priv := abytes (tkey x42) |}; kr_pair := some_pair |},
    {| zr_struct := {| zs_id := 9; zs_pub := ser_pub (tkey x41); zs_priv := abytes (tkey x42); zs_sig := abytes (zero_arr 64); zs_time := 1500000000 |}; zr_pair := some_pair; zr_sig := zero_arr 64 |}.
  split; [reflexivity|]. split; [reflexivity|]. split; [reflexivity|]. vm_compute. reflexivity.
Qed.

(** ** C31 *)

(** What loading does to one state: everything is kept, an absent private signing key becomes 32 zero bytes. *)
Definition reloaded (s : gstate) : gstate :=
  {| gs_keys := gs_keys s; gs_id := gs_id s; gs_chain := gs_chain s;
     gs_signing := {| kp_pub := kp_pub (gs_signing s);
                      kp_priv := match kp_priv (gs_signing s) with
                                 | Some k => Some k
                                 | None => Some (zero_arr 32)
                                 end |} |}.

Theorem C31_sender_key_roundtrip : forall r, grecord_from_structure (grecord_structure r) = Ok (map reloaded r).
Proof. exact grecord_roundtrip. Qed.

Corollary C31_own_record_unchanged : forall r, Forall (fun s => kp_priv (gs_signing s) <> None) r ->
  grecord_from_structure (grecord_structure r) = Ok r.
Proof. exact own_grecord_roundtrip. Qed.

Corollary C31_reload_stable : forall r r', grecord_from_structure (grecord_structure r) = Ok r' ->
  grecord_from_structure (grecord_structure r') = Ok r'.
Proof. exact grecord_reload_stable. Qed.

Example C31_example : grecord_from_structure (grecord_structure
    [new_gstate 5 3 (repeat x01 32) {| kp_pub := tkey x33; kp_priv := None |}]) =
  Ok [new_gstate 5 3 (repeat x01 32) {| kp_pub := tkey x33; kp_priv := Some (zero_arr 32) |}].
Proof. vm_compute. reflexivity. Qed.

Print Assumptions C29_record_roundtrip.
Print Assumptions C29_uninitialised_record_panics.
Print Assumptions C30_prekey_reload.
Print Assumptions C30_signed_prekey_reload.
Print Assumptions C30_public_key_preserved_refuted.
Print Assumptions C31_sender_key_roundtrip.
Print Assumptions C31_own_record_unchanged.
Print Assumptions C29_idempotent.
Print Assumptions C29_state_roundtrip.
Print Assumptions C29_chain_roundtrip.
Print Assumptions C31_reload_stable.
