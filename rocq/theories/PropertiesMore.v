(** PropertiesMore.v: further theorems on C10, C28, C42, C45 and C49: new receiving chains, messages without a usable one-time prekey, a longer sending
    life, histories of calls for many addresses, and crash points of the group calls. *)
From Coq Require Import String List.
From Verif Require Import Base Labels Crypto Bytehelper Ecc Cbc Itoa Keys X3dh Messages SessionState SessionRecord
  SessionBuilder SessionCipher Group Address World Toy WireProofs CodecProofs CodecProofs2 CryptoProofs SessionProofs SerialProofs
  SessionSpec HistoryProofs InvariantProofs ReplayProofs OpsProofs OpsProofs2 OpsProofs3 PropertiesCodec ToySession ToyArchive
  PropertiesSession GroupSpec GroupStoreSpec GroupConvSpec GroupThreadSpec ConvSpec ThreadSpec.
From Coq Require Import ZifyBool ZifyN ZifyNat.
Local Open Scope list_scope.

(** ** C10 *)

(** A message on a ratchet key for which the session had no receiving chain: whatever the outcome, the chain that is there afterwards has
    advanced by at most 5001 from 0, and no other chain appears. *)
Theorem C10_work_bound_new_chain : forall C r s m g o s' g' k c', stored C no_wrap r -> In s (states r) -> no_wrap m ->
  decrypt_with_state C s m g = (o, s', g') -> receiver_chain k s = None -> receiver_chain k s' = Some c' ->
  k = sm_ratchet m /\ (ck_index (ch_key c') <= 5001)%N.
Proof.
  intros C r s m g o s' g' k c' HS HI Hu H Hc Hc'. assert (HW := stored_wf C _ HS). rewrite Forall_forall in HW. specialize (HW s HI).
  apply dws_cases in H; [|unfold no_wrap in Hu; lia].
  destruct H as [(_ & ->)|(s1 & c1 & HP & _ & _ & HC)]; [congruence|].
  assert (HCH := prepared_chain _ _ _ _ _ _ _ HP).
  assert (HN : forall x, receiver_chain k s1 = Some x -> k = sm_ratchet m).
  { intros x Hx. destruct (arr_eq_dec k (sm_ratchet m)) as [->|Hk]; [reflexivity|exfalso].
    destruct HP as [(H & -> & _)|(H & root & sc & recv & send & ours & _ & _ & E1 & _ & _ & _ & ->)]; [congruence|].
    destruct (receiver_chain_after_add (sm_ratchet m) k (sk_chain recv) s (proj1 HW) Hk) as [E|E];
    change (receiver_chain k (add_receiver_chain (sm_ratchet m) (sk_chain recv) s) = Some x) in Hx; congruence. }
  assert (HZ : k = sm_ratchet m -> ck_index (ch_key c1) = 0%N).
  { intros ->. destruct HP as [(H & _)|(H & root & sc & recv & send & ours & _ & _ & E1 & _ & _ & -> & _)]; [congruence|].
    cbn [fresh_chain ch_key]. eapply create_chain_index. exact E1. }
  assert (HF : forall s2, receiver_chain k s2 = receiver_chain k s1 -> s' = s2 -> k = sm_ratchet m /\ (ck_index (ch_key c') <= 5001)%N).
  { intros s2 E ->. rewrite E in Hc'. assert (Hk := HN _ Hc'). split; [exact Hk|]. rewrite Hk, HCH in Hc'. injection Hc' as <-. rewrite (HZ Hk). lia. }
  destruct HC as [(_ & -> & _)|(mk & c2 & HR & HC)]; [apply (HF s1); reflexivity|].
  assert (HPair := chain_receive_pair _ _ _ _ _ HR).
  assert (HR' : receiver_chain k s' = receiver_chain k (upd_chain (sm_ratchet m) (fun _ => c2) s1)).
  { destruct HC as [(_ & ->)|(pt & rid & lid & _ & -> & _)]; reflexivity. }
  rewrite HR' in Hc'. destruct (arr_eq_dec k (sm_ratchet m)) as [->|Hk].
  - split; [reflexivity|]. rewrite (receiver_chain_replaced _ _ _ _ HCH HPair) in Hc'. injection Hc' as <-. specialize (HZ eq_refl).
    unfold chain_receive in HR.
    destruct (sg_counter (sm_struct m) <? ck_index (ch_key c1))%N eqn:EL; [lia|].
    destruct (max_future <? _)%N eqn:EM; [discriminate|]. cbv zeta in HR.
    match type of HR with Ok (_, ?b) = _ => assert (E2 : c2 = b) by congruence end. rewrite E2. cbn [ch_key chain_set_key].
    unfold max_future in EM. unfold no_wrap in Hu. rewrite ck_iter_index; lia.
  - rewrite (receiver_chain_replaced_other _ _ _ _ _ HCH HPair Hk) in Hc'. contradiction (Hk (HN _ Hc')).
Qed.

(** ** C28 *)

(** A pre-key message for a new session with no prekey id, with id 0xFFFFFF or with the id of a prekey that is not held is never answered with a plaintext. *)
Theorem C28_never_read : forall C v m g o r' es g',
  has_session_state (pk_version (pm_struct m)) (ser_pub (pm_base m)) (v_load v) = false ->
  (pk_prekey_id (pm_struct m) = None \/
   exists i, pk_prekey_id (pm_struct m) = Some i /\ (ou_value i = 16777215%N \/ v_prekey v (ou_value i) = None)) ->
  decrypt_message C v m g = (o, r', es, g') -> forall x, o <> Ok x.
Proof.
  intros C v m g o r' es g' HN HD H x ->.
  destruct (C27_prekey_removed_after_session _ _ _ _ _ _ _ _ H) as (id & _ & _ & HS). destruct (HS HN) as (E1 & E2 & E3).
  destruct HD as [E|(i & E & [F|F])]; rewrite E1 in E; [discriminate| |]; injection E as <-; [exact (E2 F)|exact (E3 F)].
Qed.

(** The initiator of a session from a bundle with an empty prekey id: what arrives over protobuf names prekey 0. A responder who does not hold prekey 0
    refuses it and writes nothing. *)
Theorem C28_empty_id_refused : forall C p bob a g, pk_wf (pm_struct p) -> pk_from_struct (pm_struct p) = Ok p -> pk_prekey_id (pm_struct p) = Some ou_none ->
  exists bs q, pk_msg_bytes p = Ok bs /\ pk_from_bytes bs = Ok q /\ pk_prekey_id (pm_struct q) = Some (ou_some 0) /\
    (w_policy bob (w_saved bob) a (pm_identity q) = true -> w_signed bob (pk_signed_id (pm_struct q)) <> None -> w_prekeys bob 0%N = None ->
     (forall r, w_sessions bob a = Some r -> has_session_state (pk_version (pm_struct q)) (ser_pub (pm_base q)) r = false) ->
     w_decrypt_message C a q g bob = (Err ENilOneTimePreKey, bob, g)).
Proof.
  intros C p bob a g HW HF HP. destruct (C17_absent_id_becomes_zero p HW HP HF) as (bs & q & E1 & E2 & E3). exists bs, q.
  split; [exact E1|]. split; [exact E2|]. split; [exact E3|]. intros H2 H3 H4 H1.
  unfold w_decrypt_message, decrypt_message, process.
  assert (EV : v_trusted (World.view_of bob a) (pm_identity q) = true) by exact H2. rewrite EV. cbn [negb]. unfold process_v3.
  assert (EH : has_session_state (pk_version (pm_struct q)) (ser_pub (pm_base q)) (v_load (World.view_of bob a)) = false).
  { unfold World.view_of. cbn [v_load]. destruct (w_sessions bob a) as [r|]; [apply H1; reflexivity|].
    unfold has_session_state, state_matches, base_bytes, new_record, new_state. cbn [r_cur r_prev s_base s_version existsb ser_pub bytes_eqb].
    rewrite andb_false_r. reflexivity. }
  rewrite EH. destruct (w_signed bob (pk_signed_id (pm_struct q))) as [sg|] eqn:ES; [|contradiction].
  change (v_signed (World.view_of bob a)) with (w_signed bob). rewrite ES, E3. change (v_prekey (World.view_of bob a)) with (w_prekeys bob). cbn [ou_value ou_some].
  rewrite H4. reflexivity.
Qed.

(** ** C42 *)

(** A sending life with two messages on one chain. *)
Example C42_two_messages : exists p1 p2 keys s, sending_life toy [p1; p2] keys s /\ p1 <> p2.
Proof.
  assert (HR : reachable toy u32_msg bob_rec2) by apply C09_example.
  set (v := World.view_of bob2 alice_addr).
  destruct (encrypt toy v (str "x"%string)) as [[o r'] es] eqn:E.
  assert (H : exists ct, o = Ok ct /\ (sg_counter (sm_struct (inner_msg ct)) < u32_modulus - 1)%N).
  { apply (f_equal (fun p => fst (fst p))) in E. cbn [fst] in E. rewrite <- E. eexists. split; [vm_compute; reflexivity|vm_compute; reflexivity]. }
  destruct H as (ct & -> & Hc).
  assert (HL : exists keys, sending_life toy [(sm_ratchet (inner_msg ct), sg_counter (sm_struct (inner_msg ct)))] keys (r_cur r')).
  { eexists. eapply (Life_encrypt toy [] _ v); [|exact E|exact Hc|reflexivity].
    change (v_load v) with bob_rec2. eapply Life_start; [exact HR|vm_compute; reflexivity]. }
  destruct HL as (keys & HL).
  assert (Er : r' = snd (fst (encrypt toy v (str "x"%string)))) by (rewrite E; reflexivity).
  destruct (encrypt toy (with_record v r') (str "y"%string)) as [[o2 r2] es2] eqn:E2.
  assert (H : exists ct, o2 = Ok ct /\ (sg_counter (sm_struct (inner_msg ct)) < u32_modulus - 1)%N).
  { apply (f_equal (fun p => fst (fst p))) in E2. cbn [fst] in E2. rewrite <- E2, Er. eexists. split; [vm_compute; reflexivity|vm_compute; reflexivity]. }
  destruct H as (ct2 & -> & Hc2).
  assert (HL2 : sending_life toy [(sm_ratchet (inner_msg ct2), sg_counter (sm_struct (inner_msg ct2))); (sm_ratchet (inner_msg ct), sg_counter (sm_struct (inner_msg ct)))] keys (r_cur r2)).
  { eapply (Life_encrypt toy _ _ (with_record v r')); [exact HL|exact E2|exact Hc2|reflexivity]. }
  eexists _, _, _, _. split; [exact HL2|].
  assert (HN := C42_no_position_reused toy toy_laws _ _ _ HL2). inversion HN as [|? ? HI _]. intros EQ. apply HI. left. symmetry. exact EQ.
Qed.

Example C28_never_example : has_session_state (pk_version (pm_struct pk_none)) (ser_pub (pm_base pk_none)) (v_load (World.view_of bob0 alice_addr)) = false /\
  pk_prekey_id (pm_struct pk_none) = None /\
  has_session_state (pk_version (pm_struct pk_empty)) (ser_pub (pm_base pk_empty)) (v_load (World.view_of bob0 alice_addr)) = false /\
  pk_prekey_id (pm_struct pk_empty) = Some ou_none /\ v_prekey (World.view_of bob0 alice_addr) (ou_value ou_none) = None.
Proof. split; [vm_compute; reflexivity|]. split; [reflexivity|]. split; [vm_compute; reflexivity|]. split; reflexivity. Qed.
Example C28_empty_id_example : pk_wf (pm_struct pk_empty) /\ pk_from_struct (pm_struct pk_empty) = Ok pk_empty /\ pk_prekey_id (pm_struct pk_empty) = Some ou_none /\
  w_policy bob0 (w_saved bob0) alice_addr (pm_identity pk_empty) = true /\ w_signed bob0 (pk_signed_id (pm_struct pk_empty)) <> None /\ w_prekeys bob0 0%N = None /\ w_sessions bob0 alice_addr = None.
Proof. split; [vm_compute; repeat split; intros E; discriminate E|]. split; [vm_compute; reflexivity|]. split; [reflexivity|]. split; [reflexivity|]. split; [vm_compute; discriminate|]. split; reflexivity. Qed.

(** ** C45 *)

(** Any history of calls for any addresses: the stored session and identity of an address that none of them was for are what they were; nor do the calls
    touch the signed prekeys, the identity key pair or the registration id. *)
Fixpoint all_calls (C : crypto) (l : list (address * call)) (w : world) : world :=
  match l with
  | [] => w
  | (a, c) :: rest => all_calls C rest (snd (call_alone C a c w))
  end.

Theorem C45_histories : forall C l w b, (forall a c, In (a, c) l -> a <> b) ->
  w_sessions (all_calls C l w) b = w_sessions w b /\ w_saved (all_calls C l w) b = w_saved w b /\
  w_signed (all_calls C l w) = w_signed w /\ w_self (all_calls C l w) = w_self w /\ w_reg (all_calls C l w) = w_reg w.
Proof.
  intros C l. induction l as [|[a c] l IH]; intros w b H; [repeat split|]. cbn [all_calls].
  assert (HS : same_elsewhere a w (snd (call_alone C a c w))).
  { destruct (C45_other_addresses_untouched C a w) as (A1 & A2 & A3 & A4).
    assert (HR : same_elsewhere a w w) by (repeat split).
    destruct c as [pt|k g|bd g]; cbn [call_alone].
    - destruct (w_encrypt C a pt w) as [o w'] eqn:E. exact (A1 _ _ _ E).
    - destruct k as [bs|bs]; cbn [receive].
      + destruct (sig_from_bytes bs) as [m|e|]; [|exact HR|exact HR]. destruct (w_decrypt C a m g w) as [[o w'] g'] eqn:E. exact (A2 _ _ _ _ _ E).
      + destruct (pk_from_bytes bs) as [m|e|]; [|exact HR|exact HR]. destruct (w_decrypt_message C a m g w) as [[o w'] g'] eqn:E. exact (A3 _ _ _ _ _ E).
    - destruct (w_process_bundle C a bd g w) as [[o w'] g'] eqn:E. exact (A4 _ _ _ _ _ E). }
  destruct HS as (B1 & B2 & B3 & B4 & _). destruct (IH (snd (call_alone C a c w)) b) as (D1 & D2 & D3 & D4 & D5).
  { intros a' c' HI. apply (H a' c'). right. exact HI. }
  destruct (B1 b) as [F1 F2]; [intros ->; exact (H a c (or_introl eq_refl) eq_refl)|].
  rewrite D1, D2, D3, D4, D5. auto.
Qed.
(** Two contacts, calls for one of them. *)
Definition bob_calls : list (address * call) := [(bob_addr, DoEncrypt (str "one"%string)); (bob_addr, DoBundle bob_bundle [tseed x11; tseed x12]); (bob_addr, DoEncrypt (str "two"%string))].
Example C45_histories_example : (forall a c, In (a, c) bob_calls -> a <> carol_addr) /\
  match w_sessions (all_calls toy bob_calls alice1) bob_addr with Some r => (List.length (r_prev r), option_map (fun c => ck_index (ch_key c)) (s_sender (r_cur r))) | None => (0, None) end = (1, Some 1%N).
Proof.
  split; [|vm_compute; reflexivity]. intros a c [E|[E|[E|[]]]] K; apply (f_equal fst) in E; cbn [fst] in E; rewrite <- E in K; apply (f_equal (fun x : address => hd x00 (a_name x))) in K; discriminate K.
Qed.

(** ** C49 *)

(** A group call makes at most one store write, of the whole record: at every crash point the store holds the record from before the call or the one it
    holds after the call has returned. A call that does not succeed writes nothing. *)
Definition succeeded (a : ganswer) : Prop :=
  match a with AMessage o => exists m, o = Ok m | GroupStoreSpec.APlain o => exists p, o = Ok p | AProcessed => True | ADistribution o => exists d, o = Ok d end.
Theorem C49_group_crash_points : forall C c st n,
  let writes := snd (greact C c st) in
  fst (greact C c st) = fst (gcall_run C c st) /\
  (gcommit (firstn n writes) st = st \/ gcommit (firstn n writes) st = snd (gcall_run C c st)) /\
  (writes = [] \/ (exists r, writes = [StoreSenderKey r]) /\ succeeded (fst (greact C c st))).
Proof.
  intros C c st n writes.
  assert (HL : writes = [] \/ (exists r, writes = [StoreSenderKey r]) /\ succeeded (fst (greact C c st))).
  { unfold writes. destruct c as [pt g|m|d|g]; cbn [greact].
    - destruct (group_encrypt C st pt g) as [[[o x] es] g'] eqn:E. cbn [fst snd succeeded]. unfold group_encrypt in E.
      destruct st as [r|]; [|injection E as _ _ <- _; left; reflexivity].
      destruct (g_first r) as [s|e|]; [|injection E as _ _ <- _; left; reflexivity|injection E as _ _ <- _; left; reflexivity].
      destruct (g_message_key C (gs_chain s)) as [k|e|]; [|injection E as _ _ <- _; left; reflexivity|injection E as _ _ <- _; left; reflexivity].
      destruct (encrypt_cbc C (gm_iv k) (gm_cipher k) pt) as [ct|e|]; [|injection E as _ _ <- _; left; reflexivity|injection E as _ _ <- _; left; reflexivity].
      destruct (new_sender_key_message C (gs_id s) (gm_iter k) ct (kp_priv (gs_signing s)) g) as [[m|e|] g1];
        [|injection E as _ _ <- _; left; reflexivity|injection E as _ _ <- _; left; reflexivity].
      injection E as <- _ <- _. right. split; [eexists; reflexivity|exists m; reflexivity].
    - destruct (group_decrypt C st m) as [[[o x] b] es] eqn:E. cbn [fst snd succeeded]. unfold group_decrypt in E.
      destruct st as [[|s0 r]|]; [injection E as _ _ _ <-; left; reflexivity| |injection E as _ _ _ <-; left; reflexivity].
      destruct (g_by_id (km_id m) (s0 :: r)) as [s|e|]; [|injection E as _ _ _ <-; left; reflexivity|injection E as _ _ _ <-; left; reflexivity].
      destruct (negb _); [injection E as _ _ _ <-; left; reflexivity|].
      destruct (g_get_key C s (km_iter m)) as [[k|e|] s']; [|injection E as _ _ _ <-; left; reflexivity|injection E as _ _ _ <-; left; reflexivity].
      destruct (decrypt_cbc_full C (Some (gm_iv k)) (gm_cipher k) (skm_body m)) as [[p|e|] ct'];
        [|injection E as _ _ _ <-; left; reflexivity|injection E as _ _ _ <-; left; reflexivity].
      injection E as <- _ _ <-. right. split; [eexists; reflexivity|exists p; reflexivity].
    - unfold group_process. cbn [fst snd succeeded]. right. eauto.
    - unfold group_create. destruct (g_is_empty st).
      + destruct (generate_key_pair C g) as [[k|e|] g1]; [|left; reflexivity|left; reflexivity].
        destruct (generate_registration_id g1) as [id g2]. destruct (generate_sender_key g2) as [key g3]. right. cbn. eauto.
      + left. destruct st as [r|]; [|reflexivity]. destruct (g_first r); reflexivity. }
  assert (HG : gcommit writes st = snd (gcall_run C c st) /\ fst (greact C c st) = fst (gcall_run C c st)).
  { unfold writes. destruct c as [pt g|m|d|g]; cbn [greact gcall_run]; unfold gw_encrypt, gw_decrypt, gw_process, gw_create.
    - destruct (group_encrypt C st pt g) as [[[o r] es] g']. split; reflexivity.
    - destruct (group_decrypt C st m) as [[[o r] b] es]. split; reflexivity.
    - destruct (group_process st d) as [r es]. split; reflexivity.
    - destruct (group_create C st g) as [[[o r] es] g']. split; reflexivity. }
  split; [exact (proj2 HG)|]. split; [|exact HL].
  destruct HL as [E|[[r E] _]]; rewrite E in *; [left; destruct n; reflexivity|].
  destruct n as [|n]; [left; reflexivity|right]. rewrite <- (proj1 HG). destruct n; reflexivity.
Qed.
(** Both kinds of call exist. *)
Example C49_group_example : exists c c' st, snd (greact toy c st) = [] /\ snd (greact toy c' st) <> [].
Proof.
  exists (CEncrypt [] []), (CProcess {| dm_id := 1; dm_iter := 0; dm_chain := Some []; dm_sigkey := tkey x01; dm_version := 3 |}), (Some []).
  split; [reflexivity|discriminate].
Qed.

Print Assumptions C10_work_bound_new_chain.
Print Assumptions C28_never_read.
Print Assumptions C28_empty_id_refused.
Print Assumptions C45_histories.
Print Assumptions C49_group_crash_points.
