(** PropertiesGroupWire.v: C70, group messages byte by byte, and messages of other implementations. Specification: GroupWireSpec.v. *)
From Verif Require Import Base Labels Crypto Bytehelper Ecc Cbc Wire Itoa Keys X3dh Messages SessionState SessionRecord SessionBuilder SessionCipher Address World Group WireFormatSpec GroupWireSpec
  CryptoProofs WireProofs CodecProofs CodecProofs2 SessionProofs SessionSpec HistoryProofs InvariantProofs OpsProofs OpsProofs2 KdfProofs GroupSpec GroupProofs GroupProofs2 GroupConvProofs GroupWireProofs Toy PropertiesKdf.
From Coq Require Import List Lia ZifyBool ZifyN ZifyNat.
Import ListNotations.

(** What group Encrypt puts on the wire, whatever the stored record: version byte, protocol buffer with the sender key's id, iteration
    and the AES-CBC ciphertext under the keys of the chain, and the XEdDSA signature of all that. And what it stores: the record with
    the chain key of its first sender key one step further. *)
Theorem C70_encrypt_bytes : forall C, crypto_laws C -> forall r pt g m r' es g',
  group_encrypt C (Some r) pt g = (Ok m, r', es, g') -> (N.of_nat (length pt) + 16 < 2 ^ 63)%N ->
  exists s rest priv random l, r = s :: rest /\ kp_priv (gs_signing s) = Some priv /\
    random = match fst (rng_read 64 g) with Some z => z | None => zero_arr 64 end /\
    ((gs_id s < 2 ^ 32)%N -> (gc_iter (gs_chain s) < 2 ^ 32)%N ->
      group_message C (gs_id s) (gc_iter (gs_chain s)) (gc_key (gs_chain s)) pt l /\ skm_signed m = l ++ abytes (xed_sign C priv l random)) /\
    exists s', es = [StoreSenderKey (s' :: rest)] /\ gs_id s' = gs_id s /\ gs_signing s' = gs_signing s /\ gs_keys s' = gs_keys s /\
      gc_key (gs_chain s') = chain_after C 1 (gc_key (gs_chain s)) /\ gc_iter (gs_chain s') = ((gc_iter (gs_chain s) + 1) mod 2 ^ 32)%N.
Proof.
  intros C L r pt g m r' es g' H Hpt. unfold group_encrypt in H. destruct r as [|s rest]; cbn [g_first] in H; [discriminate H|].
  rewrite (message_key_ok C L) in H. destruct (gmk_sizes C L (gs_chain s)) as [Z1 Z2].
  assert (HA : aes_key_ok (gm_cipher (gmk C (gs_chain s))) = true) by (unfold aes_key_ok; rewrite Z2; reflexivity).
  destruct (encrypt_cbc C (gm_iv (gmk C (gs_chain s))) (gm_cipher (gmk C (gs_chain s))) pt) as [body| |] eqn:EB; [|discriminate H|discriminate H].
  pose proof (cbc_spec C (law_hmac_len C L) (law_aes_enc_len C L) _ _ _ _ HA Z1 EB) as HS.
  unfold new_sender_key_message in H. destruct (kp_priv (gs_signing s)) as [priv|] eqn:EP; [|discriminate H].
  change (gm_iter (gmk C (gs_chain s))) with (gc_iter (gs_chain s)) in H.
  set (m0 := {| km_id := gs_id s; km_iter := gc_iter (gs_chain s); km_ct := Some body; km_version := 3; km_sig := None |}) in H.
  assert (ES : calculate_signature C priv (skm_unsigned m0) g =
    (xed_sign C priv (skm_unsigned m0) (match fst (rng_read 64 g) with Some z => z | None => zero_arr 64 end), snd (rng_read 64 g))).
  { unfold calculate_signature. destruct (rng_read 64 g) as [[z|] g1]; reflexivity. }
  rewrite ES in H. clear ES. exists s, rest, priv, (match fst (rng_read 64 g) with Some z => z | None => zero_arr 64 end), (skm_unsigned m0).
  split; [reflexivity|]. split; [exact EP|]. split; [reflexivity|]. split.
  - intros Hid Hit. apply (f_equal (fun x => fst (fst (fst x)))) in H. cbn [fst] in H. apply ok_eq in H. split.
    + exists (gm_iv (gmk C (gs_chain s))), (gm_cipher (gmk C (gs_chain s))), body. split; [exact (gmk_keys C L _)|]. split; [exact HS|].
      exact (unsigned_spec m0 body Hid Hit (body_fits C _ _ _ _ Hpt HS) eq_refl eq_refl).
    + rewrite <- H. erewrite signed_split; [|reflexivity]. reflexivity.
  - apply (f_equal (fun x => snd (fst x))) in H. cbn [fst snd] in H. rewrite <- H. cbn [g_upd_first]. eexists. split; [reflexivity|].
    cbn [gset_chain gs_id gs_signing gs_keys gs_chain g_next gc_key gc_iter]. do 4 (split; [reflexivity|]). reflexivity.
Qed.

(** The distribution message Create returns, for a new sender key and for an old one: the sender key at its present position. *)
Theorem C70_distribution_bytes : forall C load g d r' es g', group_create C load g = (Ok d, r', es, g') ->
  exists s rest, r' = Some (s :: rest) /\
    ((gs_id s < 2 ^ 32)%N -> (gc_iter (gs_chain s) < 2 ^ 32)%N -> (N.of_nat (length (gc_key (gs_chain s))) < 2 ^ 63)%N ->
      group_distribution (gs_id s) (gc_iter (gs_chain s)) (gc_key (gs_chain s)) (kp_pub (gs_signing s)) (skd_bytes d)) /\
    (if match load with Some (_ :: _) => true | _ => false end then load = Some (s :: rest) /\ es = [] else rest = [] /\ es = [StoreSenderKey [s]]).
Proof.
  assert (HD : forall s, (gs_id s < 2 ^ 32)%N -> (gc_iter (gs_chain s) < 2 ^ 32)%N -> (N.of_nat (length (gc_key (gs_chain s))) < 2 ^ 63)%N ->
      group_distribution (gs_id s) (gc_iter (gs_chain s)) (gc_key (gs_chain s)) (kp_pub (gs_signing s)) (skd_bytes (skd_of_state s))).
  { intros s H1 H2 H3. apply (distribution_spec (skd_of_state s) (gc_key (gs_chain s)) H1 H2); [|reflexivity]. unfold fits. change (2 ^ 63)%N with 9223372036854775808%N in H3. lia. }
  intros C load g d r' es g' H. unfold group_create in H. destruct (g_is_empty load) eqn:EE.
  - destruct (generate_key_pair C g) as [[signing| |] g1]; [|discriminate H|discriminate H].
    destruct (generate_registration_id g1) as [id g2]. destruct (generate_sender_key g2) as [key g3]. unfold g_set_state in H. cbn [g_first] in H.
    pose proof (f_equal (fun x => fst (fst (fst x))) H) as H1. pose proof (f_equal (fun x => snd (fst (fst x))) H) as H2. pose proof (f_equal (fun x => snd (fst x)) H) as H3. clear H.
    cbn [fst snd] in H1, H2, H3. apply ok_eq in H1. subst d r' es. eexists. exists []. split; [reflexivity|]. split; [apply HD|].
    destruct load as [[|x load]|]; [|discriminate EE|]; split; reflexivity.
  - destruct load as [r|]; [|discriminate H]. destruct r as [|s rest]; [discriminate EE|]. cbn [g_first] in H.
    pose proof (f_equal (fun x => fst (fst (fst x))) H) as H1. pose proof (f_equal (fun x => snd (fst (fst x))) H) as H2. pose proof (f_equal (fun x => snd (fst x)) H) as H3. clear H.
    cbn [fst snd] in H1, H2, H3. apply ok_eq in H1. subst d r' es. exists s, rest. split; [reflexivity|]. split; [apply HD|]. split; reflexivity.
Qed.

(** The description leaves no freedom: two implementations that follow it send the same bytes (before the signature). *)
Theorem C70_one_encoding : forall C id iter chain pt l l', group_message C id iter chain pt l -> group_message C id iter chain pt l' -> l = l'.
Proof.
  intros C id iter chain pt l l' (iv & c & b & HK & HB & HU) (iv' & c' & b' & HK' & HB' & HU').
  destruct (group_keys_det _ _ _ _ _ _ HK HK') as [<- <-]. rewrite (cbc_det _ _ _ _ _ _ (proj1 HK) HB' HB) in HU'.
  exact (group_unsigned_det _ _ _ _ _ HU HU').
Qed.
(** The same of the messages of sessions. *)
Theorem C70_one_encoding_session : forall C chain a b ratchet counter prev pt w w',
  session_message C chain a b ratchet counter prev pt w -> session_message C chain a b ratchet counter prev pt w' -> w = w'.
Proof.
  intros C chain a b ratchet counter prev pt w w' (c & m & i & body & HK & HB & HW) (c' & m' & i' & body' & HK' & HB' & HW').
  destruct (message_keys_det _ _ _ _ _ _ _ _ HK HK') as (<- & <- & <-). rewrite (cbc_det _ _ _ _ _ _ (proj1 (proj2 (proj2 HK))) HB' HB) in HW'.
  exact (C58_wire_determined _ _ _ _ _ _ _ _ _ _ HW HW').
Qed.

(** So what Encrypt sends in a session is the only message the description allows for its place in the conversation ... *)
Theorem C70_encrypt_is_the_only_message : forall C, crypto_laws C -> forall v pt ct r' es, reachable C u32_msg (v_load v) ->
  (N.of_nat (length pt) + 16 < 2 ^ 63)%N -> encrypt C v pt = (Ok ct, r', es) ->
  exists sc me you m, let s := r_cur (v_load v) in
    s_sender s = Some sc /\ s_local_id s = Some me /\ s_remote_id s = Some you /\
    match ct with CSignal x => m = x | CPreKey p => m = pm_message p end /\
    forall w, session_message C (ck_key (ch_key sc)) me you (kp_pub (ch_pair sc)) (ck_index (ch_key sc)) (s_prev_counter s) pt w <-> w = sig_msg_bytes m.
Proof.
  intros C L v pt ct r' es HR Hpt H. assert (HA := reachable_ready C L _ HR). inversion HA as [|? ? HB _]; subst. clear HA HR.
  apply encrypt_cases in H. destruct H as [(HF & _)|(sc & body & lid & rid & sm & ct' & H)]; [exfalso; exact (HF ct eq_refl)|].
  cbv zeta in H. destruct H as (E1 & E2 & E3 & E4 & E5 & E6 & E7 & _ & _). injection E7 as ->.
  assert (HS : ready (r_cur (v_load v))).
  { apply sender_new_or_ready; [exact HB|]. unfold sender_key. rewrite E1. discriminate. }
  destruct HS as (HV & HP & _ & _ & lid' & rid' & root & base & sc' & priv & _ & _ & _ & _ & _ & E1' & _ & (_ & HI & _)).
  assert (sc' = sc) by congruence. subst sc'. rewrite HV in *.
  destruct (message_keys_sizes C L (ch_key sc)) as (S1 & S2 & S3 & _).
  assert (HK : aes_key_ok (mk_cipher (message_keys C (ch_key sc))) = true) by (unfold aes_key_ok; rewrite S1; reflexivity).
  assert (HB' := cbc_spec C (law_hmac_len C L) (law_aes_enc_len C L) _ _ _ _ HK S3 E2).
  assert (HFB : fits body) by exact (body_fits C _ _ _ _ Hpt HB').
  change u32_modulus with (2 ^ 32)%N in *.
  assert (HM : session_message C (ck_key (ch_key sc)) lid rid (kp_pub (ch_pair sc)) (ck_index (ch_key sc)) (s_prev_counter (r_cur (v_load v))) pt (sig_msg_bytes sm)).
  { exists (mk_cipher (message_keys C (ch_key sc))), (mk_mac (message_keys C (ch_key sc))), (mk_iv (message_keys C (ch_key sc))), body.
    split; [apply message_keys_spec; exact (law_hmac_len C L)|]. split; [exact HB'|]. exact (signal_wire_spec C _ _ _ _ _ _ _ _ (law_hmac_len C L) HI HP HFB E5). }
  exists sc, lid, rid, sm. cbv zeta. do 3 (split; [assumption|]). split.
  - destruct (s_pending (r_cur (v_load v))) as [p|]; [|rewrite E6; reflexivity]. destruct E6 as (pm & E & ->). apply OpsProofs.pk_fields in E. destruct E as (_ & _ & _ & _ & _ & _ & P7). rewrite (new_signal_message_roundtrip C _ _ _ _ _ _ _ _ (law_hmac_len C L) HI HP HFB E5) in P7. apply ok_eq in P7. exact P7.
  - intros w. split; [intros HW; exact (C70_one_encoding_session _ _ _ _ _ _ _ _ _ _ HW HM)|intros ->; exact HM].
Qed.

(** ... and of group messages: anybody who follows the description and signs so that the signature is accepted is understood. A member
    that processes such a distribution message (sender key id not yet known) afterwards reads the messages made by it, delivered in any
    order, repeated or lost, exactly as [gspec] says (each once, up to 2000 ahead). *)
Theorem C70_other_implementations_read : forall C, crypto_laws C -> forall id iter chain pub dist pts wires rcv js,
  (id < 2 ^ 32)%N -> (iter + N.of_nat (length pts) < 2 ^ 32)%N -> (N.of_nat (length chain) < 2 ^ 63)%N ->
  group_distribution id iter chain pub dist ->
  length wires = length pts ->
  (forall i pt w, nth_error pts i = Some pt -> nth_error wires i = Some w -> (N.of_nat (length pt) + 16 < 2 ^ 63)%N /\
     exists l sig, w = l ++ abytes sig /\ group_message C id (iter + N.of_nat i) (chain_after C i chain) pt l /\ xed_verify C pub l sig = true) ->
  (forall s, In s (match rcv with Some r => r | None => [] end) -> gs_id s <> id) ->
  (N.of_nat (length (match rcv with Some r => r | None => [] end)) < 2000)%N ->
  exists d, skd_from_bytes dist = Ok d /\
    Forall2 agrees (grun C None (gw_process d rcv) wires (map GDeliver js)) (gspec iter pts {| gv_next := iter; gv_kept := [] |} (map GDeliver js)).
Proof.
  intros C L id iter chain pub dist pts wires rcv js Hid Hit Hch HD Hlen HW Hnew Hl.
  change (2 ^ 32)%N with 4294967296%N in Hit. change (2 ^ 63)%N with 9223372036854775808%N in Hch.
  assert (HF : fits chain) by (unfold fits; lia). assert (Hi0 : (iter < 2 ^ 32)%N) by (change (2 ^ 32)%N with 4294967296%N; lia).
  destruct (skd_fields_roundtrip id iter chain pub Hid Hi0 HF) as (d & E & D1 & D2 & D3 & D4).
  pose proof (distribution_spec (new_skd id iter chain pub) chain Hid Hi0 HF eq_refl) as HD'. cbn [new_skd dm_id dm_iter dm_sigkey] in HD'.
  rewrite (group_distribution_det _ _ _ _ _ _ HD HD'). exists d. split; [exact E|].
  destruct (process_new C d id iter chain pub rcv D1 D2 D3 D4 Hnew Hl) as (r & -> & HR).
  apply (foreign_deliveries C L js {| gc_key := chain; gc_iter := iter |} id pub); cbn [gc_iter gc_key].
  - unfold u32_modulus. exact Hit.
  - exact Hlen.
  - intros i pt w H1 H2. destruct (HW i pt w H1 H2) as (Hpt & l & sig & -> & HM & HV).
    assert (HLi : (i < length pts)%nat) by (apply nth_error_Some; intros HX; pose proof (eq_trans (eq_sym H1) HX) as HY; discriminate HY).
    apply (conforming_wire_ok C L); cbn [gc_iter gc_key]; [exact Hid|change (2 ^ 32)%N with 4294967296%N; lia|exact Hpt|exact HM|exact HV].
  - exact HR.
  - cbn [gv_next]. lia.
Qed.

(** A concrete sender: chain key of 32 bytes 0x44 at iteration 5, two messages; read out of order and once each. *)
Definition w_seed : arr32 := to_arr 32 [x07].
Definition w_state : gstate := new_gstate 300 5 (repeat x44 32) (pair_of toy (clamp w_seed)).
Definition w_send (pt : bytes) (s : gstate) : bytes * gstate :=
  match group_encrypt toy (Some [s]) pt [] with (Ok m, Some (s' :: _), _, _) => (skm_signed m, s') | _ => ([], s) end.
Definition w_one : bytes := fst (w_send [x61] w_state).
Definition w_two : bytes := fst (w_send [x62] (snd (w_send [x61] w_state))).
Definition w_dist : bytes := x33 :: x08 :: xac :: x02 :: x10 :: x05 :: x1a :: x20 :: repeat x44 32 ++ x22 :: x21 :: x05 :: abytes (x_base toy (clamp w_seed)).

Lemma w_varint300 : varint 300 [xac; x02].
Proof. apply (varint_more 300 [x02]); [lia|]. apply (varint_last 2). lia. Qed.
Example C70_dist_met : group_distribution 300 5 (repeat x44 32) (x_base toy (clamp w_seed)) w_dist.
Proof.
  exists [xac; x02], [x05], [x20]. split; [exact w_varint300|]. split; [apply (varint_last 5); lia|]. split; [apply (varint_last 32); lia|]. reflexivity.
Qed.
Definition w_ok (s : gstate) (pt : bytes) : bool := match group_encrypt toy (Some [s]) pt [] with (Ok _, _, _, _) => true | _ => false end.
Lemma w_send_spec : forall s pt, w_ok s pt = true -> gs_signing s = pair_of toy (clamp w_seed) -> (gs_id s < 2 ^ 32)%N -> (gc_iter (gs_chain s) < 2 ^ 32)%N ->
  (N.of_nat (length pt) + 16 < 2 ^ 63)%N ->
  (exists l sig, fst (w_send pt s) = l ++ abytes sig /\ group_message toy (gs_id s) (gc_iter (gs_chain s)) (gc_key (gs_chain s)) pt l /\ xed_verify toy (x_base toy (clamp w_seed)) l sig = true) /\
  snd (w_send pt s) = gset_chain (g_next toy (gs_chain s)) s.
Proof.
  intros s pt HO E1 H1 H2 H3. unfold w_ok in HO. unfold w_send. destruct (group_encrypt toy (Some [s]) pt []) as [[[o r] es] g] eqn:E.
  destruct o as [m| |]; [|discriminate HO|discriminate HO].
  destruct (C70_encrypt_bytes toy toy_laws [s] pt [] m r es g E H3) as (s0 & rest & priv & random & l & E0 & E2 & _ & HM & _).
  assert (s0 = s) by (exact (f_equal (hd s0) (eq_sym E0))). subst s0. destruct (HM H1 H2) as [HM1 HM2].
  assert (ER : r = Some [gset_chain (g_next toy (gs_chain s)) s]).
  { destruct r as [r|].
    - destruct (group_encrypt_record toy [s] pt [] (Ok m) r es g E) as [(_ & _ & HF)|(s1 & rest1 & m1 & F1 & _ & -> & _)]; [destruct (HF m eq_refl)|].
      assert (s1 = s) by (exact (f_equal (hd s1) (eq_sym F1))). assert (rest1 = []) by (exact (f_equal (@tl _) (eq_sym F1))). subst s1 rest1. reflexivity.
    - exfalso. clear - E. unfold group_encrypt in E. cbn [g_first] in E. destruct (g_message_key toy (gs_chain s)) as [k| |]; try discriminate E.
      destruct (encrypt_cbc toy _ _ pt) as [ct| |]; try discriminate E. destruct (new_sender_key_message toy _ _ ct _ []) as [[x| |] ?]; discriminate E. }
  subst r. cbn [fst snd]. split; [|reflexivity]. exists l, (xed_sign toy priv l random). split; [exact HM2|]. split; [exact HM1|].
  pose proof (eq_trans (eq_sym E2) (f_equal (@kp_priv) E1)) as E3. cbn [pair_of kp_priv] in E3. apply some_eq in E3. subst priv. apply (law_sign toy toy_laws).
Qed.
Example C70_messages_met : forall i pt w, nth_error [[x61]; [x62]] i = Some pt -> nth_error [w_one; w_two] i = Some w -> (N.of_nat (length pt) + 16 < 2 ^ 63)%N /\
  exists l sig, w = l ++ abytes sig /\ group_message toy 300 (5 + N.of_nat i) (chain_after toy i (repeat x44 32)) pt l /\ xed_verify toy (x_base toy (clamp w_seed)) l sig = true.
Proof.
  assert (B : (N.of_nat (length [x61]) + 16 < 2 ^ 63)%N) by reflexivity. assert (B' : (N.of_nat (length [x62]) + 16 < 2 ^ 63)%N) by reflexivity.
  assert (O1 : w_ok w_state [x61] = true) by (vm_compute; reflexivity).
  assert (O2 : w_ok (gset_chain (g_next toy (gs_chain w_state)) w_state) [x62] = true) by (vm_compute; reflexivity).
  destruct (w_send_spec w_state [x61] O1 eq_refl eq_refl eq_refl B) as [W1 N1].
  destruct (w_send_spec _ [x62] O2 eq_refl eq_refl eq_refl B') as [W2 _].
  intros [|[|i]] pt w H1 H2; cbn [nth_error] in H1, H2; [| |destruct i; discriminate H1].
  - apply some_eq in H1. apply some_eq in H2. subst pt w. split; [exact B|]. exact W1.
  - apply some_eq in H1. apply some_eq in H2. subst pt w. split; [exact B'|]. unfold w_two. rewrite N1. exact W2.
Qed.
Example C70_read : match skd_from_bytes w_dist with
  | Ok d => grun toy None (gw_process d None) [w_one; w_two] (map GDeliver [1; 1; 0; 0]%nat)
  | _ => [] end = [Ok [x62]; Err EGroupOldCounter; Ok [x61]; Err EGroupOldCounter].
Proof. vm_compute. reflexivity. Qed.

Print Assumptions C70_encrypt_bytes.
Print Assumptions C70_distribution_bytes.
Print Assumptions C70_one_encoding.
Print Assumptions C70_one_encoding_session.
Print Assumptions C70_encrypt_is_the_only_message.
Print Assumptions C70_other_implementations_read.
