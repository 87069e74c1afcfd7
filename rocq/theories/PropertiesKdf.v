(** PropertiesKdf.v: C58, the key schedule and the bytes on the wire are those of the Signal protocol. The right-hand
    sides are in WireFormatSpec.v, written from the public documents; the left-hand sides are the model's functions. *)
From Verif Require Import Base Labels Crypto Ecc Cbc Keys X3dh Messages Group SessionState SessionRecord SessionBuilder SessionCipher
  WireProofs CryptoProofs SessionSpec HistoryProofs InvariantProofs OpsProofs OpsProofs2 World Toy ToySession WireFormatSpec KdfProofs Field25519 FieldSpec PropertiesSession.
From Coq Require Import String List ZifyBool ZifyN ZifyNat.
Local Open Scope list_scope.

(** DeriveSecrets is HKDF-SHA256 (RFC 5869), a nil salt being 32 zero bytes, up to its limit of 255 blocks. *)
Theorem C58_derive_secrets : forall C, crypto_laws C -> forall ikm salt info n,
  (n <= N.to_nat 8160 -> exists okm, derive_secrets C ikm salt info n = Ok okm /\
     hkdf_output C (match salt with Some s => s | None => repeat x00 32 end) ikm info n okm)%nat /\
  (N.to_nat 8160 < n -> derive_secrets C ikm salt info n = Err EHkdfLimit)%nat.
Proof.
  intros C L ikm salt info n. unfold derive_secrets. split; intros H.
  - replace (N.of_nat n <=? 255 * 32)%N with true by lia. eexists. split; [reflexivity|].
    exact (hkdf_spec C (law_hmac_len C L) ikm salt info n).
  - replace (N.of_nat n <=? 255 * 32)%N with false by lia. reflexivity.
Qed.

(** The keys of the [n]-th message of a chain. *)
Theorem C58_chain : forall C, crypto_laws C -> forall ck n, let k := message_keys C (Nat.iter n (next_key C) ck) in
  message_keys_of_chain C (chain_after C n (ck_key ck)) (mk_cipher k) (mk_mac k) (mk_iv k).
Proof.
  intros C L ck n k. subst k. rewrite <- chain_after_spec. apply message_keys_spec. exact (law_hmac_len C L).
Qed.

Theorem C58_root_step : forall C, crypto_laws C -> forall root their our priv, kp_priv our = Some priv ->
  exists k, create_chain C root their our = Ok k /\ ck_index (sk_chain k) = 0%N /\
    root_step C root (abytes (x_mult C priv their)) (sk_root k) (ck_key (sk_chain k)).
Proof.
  intros C L root their our priv Hp. assert (E : exists k, create_chain C root their our = Ok k).
  { unfold create_chain. rewrite Hp, derive_secrets_64. eexists. reflexivity. }
  destruct E as [k E]. exists k. split; [exact E|].
  destruct (create_chain_spec C (law_hmac_len C L) root their our priv k Hp E). auto.
Qed.

(** X3DH, as seen by the initiator ... *)
Theorem C58_x3dh_initiator : forall C, crypto_laws C -> forall p base, kp_priv (sp_our_base p) = Some base ->
  exists k, calculate_sender_session C p = Ok k /\ ck_index (sk_chain k) = 0%N /\
    x3dh_output C (x3dh_secret (x_mult C (ip_priv (sp_our_identity p)) (sp_their_signed p)) (x_mult C base (sp_their_identity p))
                     (x_mult C base (sp_their_signed p)) (option_map (x_mult C base) (sp_their_one_time p)))
                (sk_root k) (ck_key (sk_chain k)).
Proof.
  intros C L p base Hp. assert (E : calculate_sender_session C p = derive_session C
     (x3dh_secret (x_mult C (ip_priv (sp_our_identity p)) (sp_their_signed p)) (x_mult C base (sp_their_identity p))
                     (x_mult C base (sp_their_signed p)) (option_map (x_mult C base) (sp_their_one_time p)))).
  { unfold calculate_sender_session, priv_of. rewrite Hp. cbn [bind]. destruct (sp_their_one_time p); reflexivity. }
  rewrite E. destruct (derive_session C _) as [k| |] eqn:ED; [|discriminate ED|discriminate ED].
  exists k. split; [reflexivity|]. destruct (derive_session_spec C (law_hmac_len C L) _ _ ED). auto.
Qed.

(** ... and by the responder. *)
Theorem C58_x3dh_responder : forall C, crypto_laws C -> forall p signed otk, kp_priv (rp_our_signed p) = Some signed ->
  option_map kp_priv (rp_our_one_time p) = option_map Some otk ->
  exists k, calculate_receiver_session C p = Ok k /\ ck_index (sk_chain k) = 0%N /\
    x3dh_output C (x3dh_secret (x_mult C signed (rp_their_identity p)) (x_mult C (ip_priv (rp_our_identity p)) (rp_their_base p))
                     (x_mult C signed (rp_their_base p)) (option_map (fun o => x_mult C o (rp_their_base p)) otk))
                (sk_root k) (ck_key (sk_chain k)).
Proof.
  intros C L p signed otk Hp Ho. assert (E : calculate_receiver_session C p = derive_session C
     (x3dh_secret (x_mult C signed (rp_their_identity p)) (x_mult C (ip_priv (rp_our_identity p)) (rp_their_base p))
                     (x_mult C signed (rp_their_base p)) (option_map (fun o => x_mult C o (rp_their_base p)) otk))).
  { unfold calculate_receiver_session, priv_of. rewrite Hp. cbn [bind].
    destruct (rp_our_one_time p) as [o|]; destruct otk as [x|]; cbn [option_map] in Ho; try discriminate; [|reflexivity].
    injection Ho as ->. reflexivity. }
  rewrite E. destruct (derive_session C _) as [k| |] eqn:ED; [|discriminate ED|discriminate ED].
  exists k. split; [reflexivity|]. destruct (derive_session_spec C (law_hmac_len C L) _ _ ED). auto.
Qed.

(** The keys of the [n]-th group message of a sender chain; the seed they are derived from is kept. *)
Theorem C58_group_chain : forall C, crypto_laws C -> forall ck n, exists k, g_message_key C (Nat.iter n (g_next C) ck) = Ok k /\
  group_keys_of_chain C (chain_after C n (gc_key ck)) (gm_iv k) (gm_cipher k) /\
  gm_iter k = gc_iter (Nat.iter n (g_next C) ck).
Proof.
  intros C L ck n. set (c := Nat.iter n (g_next C) ck).
  assert (E : exists k, g_message_key C c = Ok k).
  { unfold g_message_key, new_gmsg_key, derive_secrets. change (N.of_nat 48 <=? 255 * 32)%N with true. cbn [bind].
    unfold Bytehelper.split_two. rewrite hkdf_bytes_length by exact (law_hmac_len C L). eexists. reflexivity. }
  destruct E as [k E]. exists k. split; [exact E|]. destruct (group_keys_spec C (law_hmac_len C L) _ _ E) as [A B].
  unfold c in A at 1. rewrite g_chain_after_spec in A. split; [exact A|exact B].
Qed.

(** Private keys: bits 0, 1, 2 and 255 clear, bit 254 set, the other bits as in the seed (RFC 7748). *)
Theorem C58_clamped_key : forall k, le_val (abytes (clamp k)) = (2 ^ 254 + 8 * ((le_val (abytes k) / 8) mod 2 ^ 251))%Z.
Proof. exact clamp_val. Qed.

(** What Encrypt puts on the wire, for every session state a live record can be in: AES-CBC under the keys of the
    sending chain, the protocol buffer, the MAC over both identities; wrapped in a prekey message until the first
    reply. *)
Theorem C58_encrypt_wire : forall C, crypto_laws C -> forall v pt ct r' es, reachable C u32_msg (v_load v) ->
  (N.of_nat (length pt) + 16 < 2 ^ 63)%N -> encrypt C v pt = (Ok ct, r', es) ->
  exists sc me you cipher mac iv body inner, let s := r_cur (v_load v) in
    s_sender s = Some sc /\ s_local_id s = Some me /\ s_remote_id s = Some you /\
    message_keys_of_chain C (ck_key (ch_key sc)) cipher mac iv /\
    cbc_ciphertext C cipher iv pt body /\
    signal_wire C mac me you (kp_pub (ch_pair sc)) (ck_index (ch_key sc)) (s_prev_counter s) body inner /\
    match s_pending s with
    | None => exists m, ct = CSignal m /\ sig_msg_bytes m = inner
    | Some p => exists m, ct = CPreKey m /\
        forall o, pp_id p = Some o -> (ou_value o < 2 ^ 32)%N -> (s_local_reg s < 2 ^ 32)%N -> (pp_signed p < 2 ^ 32)%N ->
          (N.of_nat (length inner) < 2 ^ 63)%N ->
          exists wire, pk_msg_bytes m = Ok wire /\
            prekey_wire (if ou_empty o then None else Some (ou_value o)) (pp_base p) me inner (s_local_reg s) (pp_signed p) wire
    end.
Proof.
  intros C L v pt ct r' es HR Hf H. assert (HA := reachable_ready C L _ HR). inversion HA as [|? ? HB _]; subst. clear HA HR.
  apply encrypt_cases in H. destruct H as [(HF & _)|(sc & body & lid & rid & sm & ct' & H)]; [exfalso; exact (HF ct eq_refl)|].
  cbv zeta in H. destruct H as (E1 & E2 & E3 & E4 & E5 & E6 & E7 & _ & _). injection E7 as ->.
  assert (HS : ready (r_cur (v_load v))).
  { apply sender_new_or_ready; [exact HB|]. unfold sender_key. rewrite E1. discriminate. }
  destruct HS as (HV & HP & _ & _ & lid' & rid' & root & base & sc' & priv & _ & _ & _ & _ & _ & E1' & _ & (_ & HI & _)).
  assert (sc' = sc) by congruence. subst sc'. rewrite HV in *.
  destruct (message_keys_sizes C L (ch_key sc)) as (S1 & S2 & S3 & _).
  assert (HK : aes_key_ok (mk_cipher (message_keys C (ch_key sc))) = true) by (unfold aes_key_ok; rewrite S1; reflexivity).
  assert (HB' := cbc_spec C (law_hmac_len C L) (law_aes_enc_len C L) _ _ _ _ HK S3 E2).
  assert (HFB : fits body).
  { destruct HB' as (n & p & P1 & P2 & P3 & _). unfold fits. change (2 ^ 63)%N with 9223372036854775808%N in Hf. lia. }
  change u32_modulus with (2 ^ 32)%N in *.
  exists sc, lid, rid, (mk_cipher (message_keys C (ch_key sc))), (mk_mac (message_keys C (ch_key sc))), (mk_iv (message_keys C (ch_key sc))), body, (sig_msg_bytes sm).
  cbv zeta. do 3 (split; [assumption|]). split; [apply message_keys_spec; exact (law_hmac_len C L)|]. split; [exact HB'|].
  split; [exact (signal_wire_spec C _ _ _ _ _ _ _ _ (law_hmac_len C L) HI HP HFB E5)|].
  destruct (s_pending (r_cur (v_load v))) as [p|].
  - destruct E6 as (pm & EP & ->). exists pm. split; [reflexivity|]. intros o Ho H1 H2 H3 H4. rewrite Ho in EP.
    exact (prekey_wire_spec 3 _ _ _ _ _ _ _ eq_refl H2 H3 H1 H4 EP).
  - exists sm. split; [exact E6|reflexivity].
Qed.

(** Two encoders that meet these descriptions produce the same bytes: the varint and the protocol buffer are
    determined by their fields. *)
Theorem C58_wire_determined : forall C key a b ratchet counter prev body w w',
  signal_wire C key a b ratchet counter prev body w -> signal_wire C key a b ratchet counter prev body w' -> w = w'.
Proof.
  assert (P : forall ratchet counter prev body l l', signal_proto ratchet counter prev body l -> signal_proto ratchet counter prev body l' -> l = l').
  { intros ratchet counter prev body l l' (a & b & c & A & B & D & ->) (a' & b' & c' & A' & B' & D' & ->).
    rewrite (varint_det _ _ A _ A'), (varint_det _ _ B _ B'), (varint_det _ _ D _ D'). reflexivity. }
  intros C key a b ratchet counter prev body w w' (l & H & ->) (l' & H' & ->). rewrite (P _ _ _ _ _ _ H H'). reflexivity.
Qed.

(** The toy Bob's second answer: the hypotheses of [C58_encrypt_wire] are met by a session in use. *)
Example C58_example : reachable toy u32_msg (v_load (view_of bob2 alice_addr)) /\
  exists ct r' es, encrypt toy (view_of bob2 alice_addr) (str "x"%string) = (Ok ct, r', es).
Proof.
  split; [change (v_load (view_of bob2 alice_addr)) with bob_rec2; apply C09_example|].
  destruct (encrypt toy (view_of bob2 alice_addr) (str "x"%string)) as [[o r'] es] eqn:E.
  assert (HO : exists ct, o = Ok ct) by (pose proof (f_equal (fun x => fst (fst x)) E) as F; cbn [fst] in F; rewrite <- F; eexists; vm_compute; reflexivity).
  destruct HO as [ct ->]. exists ct, r', es. reflexivity.
Qed.
Example C58_example_varint : varint 300 [xac; x02].
Proof. apply (varint_more 300 [x02]); [lia|]. apply (varint_last 2). lia. Qed.

Print Assumptions C58_derive_secrets.
Print Assumptions C58_chain.
Print Assumptions C58_root_step.
Print Assumptions C58_x3dh_initiator.
Print Assumptions C58_x3dh_responder.
Print Assumptions C58_group_chain.
Print Assumptions C58_clamped_key.
Print Assumptions C58_encrypt_wire.
Print Assumptions C58_wire_determined.
