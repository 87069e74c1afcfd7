(** PropertiesKeyPairs.v: C72, key pairs of Curve25519 as the library uses them: which private keys share a public key, when a shared
    secret can be zero, and public keys of small order. The primitives are the standard ones of C71. *)
From Verif Require Import Base Labels Crypto Ecc Keys X3dh Messages SessionState SessionRecord SessionBuilder SessionCipher Address World FieldSpec ScalarSpec Fp CurveSpec CurveGroup
  XedSpec XedRef Sha2 X25519 LadderProofs PropertiesStandard SessionSpec ConvSpec SerialProofs CryptoProofs OpsProofs2 KdfProofs KeyPairProofs.
From Coq Require Import ZArith NArith List Lia.
Import ListNotations.
Local Open Scope Z_scope.
Local Opaque padd popp zmul smul base_point.

(** Two private keys have the same public key exactly when the integers they stand for are equal, or add up to 8 times the order of the
    base point (so a public key has at most two clamped private keys). *)
Theorem C72_same_public_key : forall k k' : arr32, x_base standard k = x_base standard k' <->
  scalar_of (abytes k) = scalar_of (abytes k') \/ scalar_of (abytes k) + scalar_of (abytes k') = 8 * order_l.
Proof. exact same_public. Qed.

(** The secret shared by two generated key pairs is never zero. *)
Theorem C72_generated_keys_secret_nonzero : forall g p g1 h q h1,
  generate_key_pair standard g = (Ok p, g1) -> generate_key_pair standard h = (Ok q, h1) ->
  exists k, kp_priv p = Some k /\ shared_secret standard (kp_pub q) k <> zero_arr 32.
Proof.
  intros g p g1 h q h1 HP HQ. unfold generate_key_pair in *. destruct (rng_read 32 g) as [[s|] ?]; [|discriminate HP]. destruct (rng_read 32 h) as [[t|] ?]; [|discriminate HQ].
  apply (f_equal fst) in HP. apply (f_equal fst) in HQ. cbn [fst] in HP, HQ. apply ok_eq in HP. apply ok_eq in HQ. subst p q.
  exists (clamp s). split; [reflexivity|]. exact (honest_secret_nonzero (clamp s) (clamp t)).
Qed.

(** A public key that is a point of order 1, 2, 4 or 8 is not refused: the shared secret is 32 zero bytes whatever the private key. *)
Theorem C72_low_order_secret : forall their our, (exists P, on_curve P /\ zmul 8 P = pzero /\ ofZ (le_val (abytes their) mod 2 ^ 255) = mont_u P) ->
  shared_secret standard their our = zero_arr 32.
Proof. intros their our H. exact (low_order_shared their our H). Qed.

(** Neither by the key agreement: with such keys in the bundle the initiator's session keys are a constant. *)
Theorem C72_low_order_agreement : forall p k, kp_priv (sp_our_base p) = Some k -> low_order (sp_their_identity p) -> low_order (sp_their_signed p) ->
  (forall o, sp_their_one_time p = Some o -> low_order o) ->
  calculate_sender_session standard p = derive_session standard (repeat xff 32 ++ repeat x00 (if sp_their_one_time p then 128 else 96)).
Proof. exact low_order_sender. Qed.

(** Nor by ProcessBundle: there is a bundle, with a valid signature, which every user that trusts its identity key (on first contact:
    everybody) accepts, and which gives all users, whatever their keys and randomness, the same root key and the same sending chain key:
    whoever processes it can read the messages others send in that session. *)
Theorem C72_bundle_with_known_keys_refuted : exists b root ck, forall v s1 s2 g, v_trusted v (b_identity b) = true ->
  exists r es sc, process_bundle standard v b (Some s1 :: Some s2 :: g) = (Ok tt, r, es, g) /\
    s_root (r_cur r) = Some root /\ s_sender (r_cur r) = Some sc /\ ch_key sc = ck.
Proof.
  exists zero_bundle. do 2 eexists. intros v s1 s2 g HT. destruct (zero_bundle_session v s1 s2 g HT) as (r & es & sc & H & H1 & H2 & H3).
  exists r, es, sc. split; [exact H|]. split; [exact H1|]. split; [exact H2|exact H3].
Qed.

(** ** Concrete cases *)
Definition ka : arr32 := to_arr 32 [x08; x01].
Definition kb : arr32 := to_arr 32 [x10; x02].
Lemma differ : forall k k' : arr32, (scalar_of (abytes k) =? scalar_of (abytes k')) = false -> (scalar_of (abytes k) + scalar_of (abytes k') =? 8 * order_l) = false ->
  x_base standard k <> x_base standard k'.
Proof. intros k k' H1 H2 E. apply C72_same_public_key in E. apply Z.eqb_neq in H1, H2. destruct E as [E|E]; [exact (H1 E)|exact (H2 E)]. Qed.
Example C72_different : x_base standard ka <> x_base standard kb.
Proof. apply differ; vm_compute; reflexivity. Qed.
(** The bits that are masked do not count; and a pair of really different private keys with one public key. *)
Example C72_masked : x_base standard ka = x_base standard (to_arr 32 [x0f; x01]).
Proof. apply C72_same_public_key. left. vm_compute. reflexivity. Qed.
Definition km : arr32 := enc32 (8 * order_l - scalar_of (abytes ka)).
Example C72_mirrored : ka <> km /\ x_base standard ka = x_base standard km.
Proof.
  split.
  - intros E. apply (f_equal (fun a : arr32 => hd x00 (abytes a))) in E. vm_compute in E. discriminate E.
  - apply C72_same_public_key. right. vm_compute. reflexivity.
Qed.
Example C72_low_order_zero : low_order (zero_arr 32).
Proof. exact zero_low_order. Qed.
Example C72_low_order_one : low_order (to_arr 32 [x01]).
Proof. exact one_low_order. Qed.

(** C71: two strangers with standard keys, a schedule, and every hypothesis of [C71_any_schedule] met. *)
Definition std_alice : address := {| a_name := [x61]; a_device := 1 |}.
Definition std_bob : address := {| a_name := [x62]; a_device := 1 |}.
Definition std_addr (p : party) : address := match p with Alice => std_alice | Bob => std_bob end.
Definition std_key (b : byte) : arr32 := clamp (to_arr 32 [b; b]).
Definition std_world (standard : crypto) (self : byte) : world :=
  {| w_sessions := fun _ => None; w_saved := fun _ => None;
     w_prekeys := fun i => if (i =? 7)%N then Some (pair_of standard (std_key x71)) else None;
     w_signed := fun i => if (i =? 9)%N then Some (pair_of standard (std_key x72)) else None;
     w_self := {| ip_pub := x_base standard (std_key self); ip_priv := std_key self |}; w_reg := 42; w_policy := fun _ _ _ => true |}.
Definition std_bundle (standard : crypto) : bundle :=
  {| b_reg := 42; b_prekey_id := Some (ou_some 7); b_prekey := Some (x_base standard (std_key x71)); b_signed_id := 9;
     b_signed := Some (x_base standard (std_key x72)); b_sig := xed_sign standard (std_key xb0) (ser_pub (x_base standard (std_key x72))) (zero_arr 64);
     b_identity := x_base standard (std_key xb0) |}.
Definition std_evs : list cevent := [Send Alice [x68; x69]; Send Alice [x6f]; Deliver Bob 1 [Some [x21; x21]]; Deliver Bob 0 [Some [x31; x31]]].
Definition std_rng : rng := [Some [x41; x41]; Some [x51; x51]].
Lemma strangers_met_gen : forall C, strangers C std_addr (std_world C xa0) (std_world C xb0) (std_bundle C) 7 9 (std_key x72) (std_key x71).
Proof. intros C. split; try reflexivity. intros HX. discriminate HX. Qed.
Example C71_strangers_met : strangers standard std_addr (std_world standard xa0) (std_world standard xb0) (std_bundle standard) 7 9 (std_key x72) (std_key x71).
Proof. exact (strangers_met_gen standard). Qed.
Example C71_keys_met : generate_key_pair standard std_rng = (Ok (pair_of standard (std_key x41)), tl std_rng) /\
  generate_key_pair standard (tl std_rng) = (Ok (pair_of standard (std_key x51)), []).
Proof. split; reflexivity. Qed.
Lemma bundle_met_gen : forall C, (forall k m r, xed_verify C (x_base C (clamp k)) m (xed_sign C (clamp k) m r) = true) -> exists wa1 g', w_process_bundle C (std_addr Bob) (std_bundle C) std_rng (std_world C xa0) = (Ok tt, wa1, g').
Proof.
  intros C L.
  assert (HV : verify_signature C (b_identity (std_bundle C)) (ser_pub (x_base C (std_key x72))) (b_sig (std_bundle C)) = true)
    by exact (L (to_arr 32 [xb0; xb0]) _ _).
  unfold w_process_bundle, process_bundle, std_rng. cbn [v_trusted view_of std_world w_policy negb].
  change (b_signed (std_bundle C)) with (Some (x_base C (std_key x72))). cbv iota. rewrite HV. cbn [negb generate_key_pair rng_read]. clear HV.
  erewrite sender_session_explicit by reflexivity. erewrite create_chain_ok by reflexivity.
  match goal with |- context [StoreSession ?r] => assert (HP : persist r = Ok (unfresh r)) end.
  { apply persist_ok; [|constructor]. unfold initialised. cbn [set_cur r_cur set_base set_remote_reg set_local_reg set_pending set_root set_sender_chain set_sender add_receiver_chain set_recv
      set_local_id set_remote_id set_version s_local_id s_remote_id s_root s_base s_sender s_pending_kx]. do 5 (split; [intros HX; discriminate HX|]). exact I. }
  cbn [commit apply_effect]. rewrite HP. do 2 eexists. reflexivity.
Qed.
Example C71_bundle_met : exists wa1 g', w_process_bundle standard (std_addr Bob) (std_bundle standard) std_rng (std_world standard xa0) = (Ok tt, wa1, g').
Proof. exact (bundle_met_gen standard (law_sign standard C71_standard_laws)). Qed.
Example C71_fair_met : fair standard (std_key x72) (pair_of standard (std_key x51)) std_evs.
Proof.
  assert (D : forall b c, (scalar_of (abytes (std_key b)) =? scalar_of (abytes (std_key c))) = false -> (scalar_of (abytes (std_key b)) + scalar_of (abytes (std_key c)) =? 8 * order_l) = false ->
    Some (x_base standard (std_key b)) <> Some (x_base standard (std_key c))).
  { intros b c H1 H2 E. apply (differ _ _ H1 H2). apply (f_equal (fun o : option arr32 => match o with Some a => a | None => x_base standard (std_key b) end)) in E. exact E. }
  split.
  - cbn [std_evs delivery_rngs flat_map app map]. change (new_pub standard [Some [x21; x21]]) with (Some (x_base standard (std_key x21))).
    change (new_pub standard [Some [x31; x31]]) with (Some (x_base standard (std_key x31))). change (kp_pub (pair_of standard (std_key x51))) with (x_base standard (std_key x51)).
    constructor; [|constructor; [|constructor; [|constructor; [|constructor]]]]; cbn [In]; intros HI;
      repeat (destruct HI as [HI|HI]; [revert HI; apply D; vm_compute; reflexivity|]); exact HI.
  - split; [|split; [reflexivity|]].
    + intros g HI. cbn in HI. repeat (destruct HI as [<-|HI]; [intros HX; discriminate HX|]). destruct HI.
    + intros pt HI. cbn in HI. repeat (destruct HI as [<-|HI]; [reflexivity|]). destruct HI.
Qed.

Print Assumptions C72_same_public_key.
Print Assumptions C72_generated_keys_secret_nonzero.
Print Assumptions C72_low_order_secret.
Print Assumptions C72_low_order_agreement.
Print Assumptions C72_bundle_with_known_keys_refuted.
