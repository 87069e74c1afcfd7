(** PropertiesSession.v: C07-C14 (accept side), C24-C28, C42-C50.

    Vocabulary (SessionSpec.v): [stored C Q r] says that [r] can be the content of a serializing store for one
    address after any history of public calls; [reachable C Q r] says the same of any live record object;
    [no_wrap m]/[u32_msg m] bound the 32-bit counter of a received message; [states r] are all sessions of a
    record (current first); [decrypt_with_state] is the attempt to decrypt against one session,
    [decrypt_and_get_key]/[decrypt_message]/[encrypt]/[process_bundle] are the public operations, which return
    their result, the record object worked on and the ordered store writes; [w_decrypt] ... are the same
    operations executed on a party's stores. *)
From Verif Require Import Base Labels Crypto Bytehelper Ecc Cbc Itoa Keys X3dh Messages SessionState SessionRecord
  SessionBuilder SessionCipher Address World Toy WireProofs CodecProofs CodecProofs2 CryptoProofs SessionProofs SerialProofs
  SessionSpec HistoryProofs InvariantProofs ReplayProofs OpsProofs OpsProofs2 OpsProofs3 PropertiesCodec ToySession ToyArchive.
From Coq Require Import String List ZifyBool ZifyN ZifyNat.
Local Open Scope list_scope.

(** The record that the toy Bob holds after receiving and answering is in a serializing store. *)
Definition toy_view (w : world) (a : address) : view := view_of w a.

(** Used in the computed witnesses: only the result is normalised, not the stores. *)
Lemma run_ok : forall A W G (f : A * W * G) x, fst (fst f) = x -> f = (x, snd (fst f), snd f).
Proof. intros A W G [[a w] g] x <-. reflexivity. Qed.
Ltac run := eapply run_ok; vm_compute; reflexivity.

(** ** C07 *)

(** Within one session: after a message was accepted, and any number of further attempts (accepted or not),
    encryptions and saves during which its chain is kept, a message with the same ratchet key and counter is
    refused, and the refusal changes nothing. *)
Theorem C07_at_most_once : forall C r s0 m1 g1 pt mk s1 g1' s2 m2 g2 o s3 g2',
  stored C no_wrap r -> In s0 (states r) ->
  no_wrap m1 -> decrypt_with_state C s0 m1 g1 = (Ok (pt, mk), s1, g1') ->
  steps_keeping C (sm_ratchet m1) s1 s2 ->
  sm_ratchet m2 = sm_ratchet m1 -> sg_counter (sm_struct m2) = sg_counter (sm_struct m1) ->
  decrypt_with_state C s2 m2 g2 = (o, s3, g2') ->
  (forall x, o <> Ok x) /\ s3 = s2.
Proof.
  intros C r s0 m1 g1 pt mk s1 g1' s2 m2 g2 o s3 g2' HS HI. assert (HW := stored_wf C _ HS). rewrite Forall_forall in HW.
  intros. eapply at_most_once; eauto.
Qed.

(** For the public operations on a stored record: as long as no session is archived and the chain is kept, no
    second message with the same ratchet key and counter is accepted by Decrypt or DecryptMessage. *)
Theorem C07_record_at_most_once : forall C v1 m1 r3 v2 m2 r5,
  stored C no_wrap (v_load v1) -> no_wrap m1 -> accepted_now C v1 m1 r3 ->
  single_history C (sm_ratchet m1) r3 (v_load v2) ->
  sm_ratchet m2 = sm_ratchet m1 -> sg_counter (sm_struct m2) = sg_counter (sm_struct m1) ->
  accepted_now C v2 m2 r5 -> r_prev r5 <> [].
Proof. exact record_at_most_once. Qed.

Lemma bob2_stored : stored toy no_wrap bob_rec2.
Proof.
  assert (H1 : stored toy no_wrap bob_rec1).
  { destruct (decrypt_message toy (view_of bob0 alice_addr) msg1 [tseed x21]) as [[[o r'] es] g'] eqn:E.
    assert (E1 : es = [SaveIdentity (tkey xa0); StoreSession r'; RemovePreKey 7] /\ persist r' = Ok bob_rec1).
    { revert E. vm_compute. intros E. injection E as _ <- <- _. split; reflexivity. }
    destruct E1 as [E1 E2]. eapply (Stored_write toy no_wrap (view_of bob0 alice_addr)); [constructor| | |exact E2].
    - eapply Op_decrypt_message; [|exact E]. vm_compute. reflexivity.
    - rewrite E1. right. left. reflexivity. }
  destruct (encrypt toy (view_of bob1 alice_addr) (str "hi alice"%string)) as [[o r'] es] eqn:E.
  assert (E1 : es = [SaveIdentity (tkey xa0); StoreSession r'] /\ persist r' = Ok bob_rec2).
  { revert E. vm_compute. intros E. injection E as _ <- <-. split; reflexivity. }
  destruct E1 as [E1 E2]. eapply (Stored_write toy no_wrap (view_of bob1 alice_addr)); [exact H1| | |exact E2].
  - eapply Op_encrypt. exact E.
  - rewrite E1. right. left. reflexivity.
Qed.

Example C07_example : exists pt mk s1 g', decrypt_with_state toy (r_cur bob_rec2) msg3 [tseed x22] = (Ok (pt, mk), s1, g') /\
  steps_keeping toy (sm_ratchet msg3) s1 s1 /\ stored toy no_wrap bob_rec2 /\ no_wrap msg3.
Proof.
  destruct (decrypt_with_state toy (r_cur bob_rec2) msg3 [tseed x22]) as [[o s1] g'] eqn:E.
  assert (H : (exists pt mk, o = Ok (pt, mk)) /\ receiver_chain (sm_ratchet msg3) s1 <> None).
  { revert E. vm_compute. intros E. injection E as <- <- _. split; [eauto|discriminate]. }
  destruct H as [(pt & mk & ->) H]. exists pt, mk, s1, g'. split; [reflexivity|]. split; [constructor; exact H|].
  split; [exact bob2_stored|vm_compute; reflexivity].
Qed.

(** The next stored record of the same conversation, and a second delivery of the same message to it. *)
Example C07_record_example : exists r3, accepted_now toy (view_of bob2 alice_addr) msg3 r3 /\ r_prev r3 = [] /\
  single_history toy (sm_ratchet msg3) r3 r3.
Proof.
  destruct (decrypt_and_get_key toy (view_of bob2 alice_addr) msg3 [tseed x22]) as [[[o r'] es] g'] eqn:E.
  assert (H : (exists x, o = Ok x) /\ (exists r3, persist r' = Ok r3 /\ r_prev r3 = []) /\ In (StoreSession r') es).
  { revert E. vm_compute. intros E. injection E as <- <- <- _. split; [eauto|]. split; [eauto|]. right. left. reflexivity. }
  destruct H as [[x ->] [(r3 & HP & HE) HI]]. exists r3. split; [|split; [exact HE|constructor]].
  exists [tseed x22], x, r', es, g'. split; [exact HP|]. split; [exact HI|]. left. exact E.
Qed.

(** ** C08 *)

(** A message accepted by a record is refused when it is delivered again to the record then stored, provided at
    most one of the sessions of the record would accept it. *)
Theorem C08_immediate_replay_refused : forall C r m g x r' g' r3,
  stored C no_wrap r -> no_wrap m ->
  decrypt_with_record C r m g = (Ok x, r', g') ->
  (exists pre s post, states r = pre ++ s :: post /\ forall t, In t (pre ++ post) -> ~ accepts C t m) ->
  persist r' = Ok r3 ->
  forall g2 o r4 g3, decrypt_with_record C r3 m g2 = (o, r4, g3) -> forall y, o <> Ok y.
Proof.
  intros C r m g x r' g' r3 HS Hu HD HN HP g2 o r4 g3 H. apply persist_iff in HP. destruct HP as (_ & _ & ->).
  eapply record_refuses; [|exact H]. change (states (unfresh r')) with (states r').
  eapply dwr_replay; [exact Hu|exact (stored_wf C _ HS)|exact HD|exact HN].
Qed.

(** Without that proviso it fails, with a serializing store: after late messages of archived sessions the list
    of archived sessions contains a session twice, and the second copy accepts the same message again. *)
Theorem C08_replay_in_a_row_refuted : exists C, crypto_laws C /\ exists w a m g1 x1 w1 g1' g2 x2 w2 g2',
  w_decrypt_message C a m g1 w = (Ok x1, w1, g1') /\ w_decrypt_message C a m g2 w1 = (Ok x2, w2, g2').
Proof.
  exists toy. split; [exact toy_laws|]. exists by4, alice_addr, m2, [tseed x45; tseed x45; tseed x45; tseed x45].
  do 3 eexists. exists [tseed x46; tseed x46; tseed x46; tseed x46]. do 3 eexists. split; run.
Qed.

(** And a promoted session leaves a copy of itself behind that later accepts messages the current one has
    already accepted. *)
Theorem C08_stale_copy_refuted : exists C, crypto_laws C /\ exists w a late g0 x0 w0 g0' m g1 x1 w1 g1' g2 x2 w2 g2',
  w_decrypt_message C a late g0 w = (Ok x0, w0, g0') /\
  w_decrypt_message C a m g1 w0 = (Ok x1, w1, g1') /\ w_decrypt_message C a m g2 w1 = (Ok x2, w2, g2').
Proof.
  exists toy. split; [exact toy_laws|]. exists bx2, alice_addr, m2, [tseed x43; tseed x43; tseed x43; tseed x43]. do 3 eexists.
  exists m3, [tseed x45; tseed x45; tseed x45; tseed x45].
  do 3 eexists. exists [tseed x46; tseed x46; tseed x46; tseed x46]. do 3 eexists. split; [|split]; run.
Qed.

(** The proviso holds in an ordinary conversation. *)
Example C08_example : exists pre s post, states bob_rec2 = pre ++ s :: post /\ (forall t, In t (pre ++ post) -> ~ accepts toy t msg3) /\
  exists x r' g', decrypt_with_record toy bob_rec2 msg3 [tseed x22] = (Ok x, r', g') /\ exists r3, persist r' = Ok r3.
Proof.
  exists [], (r_cur bob_rec2), []. split; [vm_compute; reflexivity|]. split; [intros t []|].
  do 3 eexists. split; [vm_compute; reflexivity|]. eexists. vm_compute. reflexivity.
Qed.

(** ** C09 *)

Theorem C09_record_bounded : forall C r, reachable C u32_msg r ->
  (length (r_prev r) <= 40)%nat /\
  forall s, In s (states r) -> (length (s_recv s) <= 5)%nat /\
    forall c, In c (s_recv s) -> (length (ch_msgs c) <= Pos.to_nat 2000)%nat.
Proof.
  intros C r H. destruct (reachable_bounded C r H) as [H1 H2]. split; [exact H2|]. intros s Hs.
  rewrite Forall_forall in H1. destruct (H1 s Hs) as [H3 H4]. split; [exact H3|]. rewrite Forall_forall in H4. exact H4.
Qed.

Example C09_example : reachable toy u32_msg bob_rec2 /\ length (s_recv (r_cur bob_rec2)) = 1%nat.
Proof.
  split; [|vm_compute; reflexivity].
  assert (H : forall r, stored toy no_wrap r -> reachable toy u32_msg r).
  { intros r H. induction H as [|v r' es r'' r3 HS IH HO HI HP]; [constructor|].
    eapply Reach_saved; [|exact HP]. eapply Reach_written; [exact IH| |exact HI].
    inversion HO as [pt o r1 es1 E|m g o r1 es1 g' Hu E|p g o r1 es1 g' Hu E|b g o r1 es1 g' E]; subst.
    - eapply Op_encrypt; exact E.
    - eapply Op_decrypt; [|exact E]. unfold no_wrap, u32_msg in *. lia.
    - eapply Op_decrypt_message; [|exact E]. unfold no_wrap, u32_msg in *. lia.
    - eapply Op_process_bundle; exact E. }
  apply H. exact bob2_stored.
Qed.

(** ** C10 *)

(** More than 5000 ahead on a known chain: refused, with this error, and nothing changes. *)
Theorem C10_too_far_rejected : forall C s m g c, u32_msg m -> s_sender s <> None -> sg_version (sm_struct m) = s_version s ->
  receiver_chain (sm_ratchet m) s = Some c -> (ck_index (ch_key c) < u32_modulus)%N ->
  (ck_index (ch_key c) + 5000 < sg_counter (sm_struct m))%N ->
  decrypt_with_state C s m g = (Err ETooFarFuture, s, g).
Proof. exact jump_limit. Qed.

(** Up to exactly 5000 ahead: the key at that position is derived and only MAC and padding decide. *)
Theorem C10_within_limit_processed : forall C s m g c rid lid, u32_msg m -> s_sender s <> None -> sg_version (sm_struct m) = s_version s ->
  receiver_chain (sm_ratchet m) s = Some c -> s_remote_id s = Some rid -> s_local_id s = Some lid ->
  (ck_index (ch_key c) <= sg_counter (sm_struct m) <= ck_index (ch_key c) + 5000)%N ->
  let mk := message_keys C (ck_iter C (N.to_nat (sg_counter (sm_struct m) - ck_index (ch_key c))) (ch_key c)) in
  fst (fst (decrypt_with_state C s m g)) =
  (_ <- verify_mac C m (sg_version (sm_struct m)) rid lid (mk_mac mk) ;;
   pt <- decrypt_with_key C m mk ;; Ok (pt, mk)).
Proof. exact jump_accepted. Qed.

(** One attempt, whatever its outcome, moves any chain by at most 5001 positions, one key derivation each. *)
Theorem C10_work_bound : forall C r s m g o s' g' k c c', stored C no_wrap r -> In s (states r) -> no_wrap m ->
  decrypt_with_state C s m g = (o, s', g') -> receiver_chain k s = Some c -> receiver_chain k s' = Some c' ->
  (ck_index (ch_key c) <= ck_index (ch_key c') <= ck_index (ch_key c) + 5001)%N.
Proof.
  intros C r s m g o s' g' k c c' HS HI Hu. assert (HW := stored_wf C _ HS). rewrite Forall_forall in HW.
  intros. eapply work_bound; eauto.
Qed.

Definition far_msg (n : N) : sig_msg :=
  {| sm_struct := {| sg_ratchet := sg_ratchet (sm_struct (pm_message msg1)); sg_counter := n; sg_prev := 0;
                     sg_ct := sg_ct (sm_struct (pm_message msg1)); sg_version := 3; sg_mac := Some (repeat x00 8) |};
     sm_ratchet := sm_ratchet (pm_message msg1) |}.
Example C10_example :
  s_sender (r_cur bob_rec2) <> None /\
  (exists c, receiver_chain (sm_ratchet (far_msg 0)) (r_cur bob_rec2) = Some c /\ ck_index (ch_key c) = 1%N) /\
  fst (fst (decrypt_with_state toy (r_cur bob_rec2) (far_msg 5002) [])) = Err ETooFarFuture /\
  fst (fst (decrypt_with_state toy (r_cur bob_rec2) (far_msg 2) [])) = Err EBadMac.
Proof.
  split; [vm_compute; discriminate|]. split; [eexists; split; vm_compute; reflexivity|].
  split; vm_compute; reflexivity.
Qed.

(** ** C11 *)

Theorem C11_decrypt_error_changes_nothing : forall C a m g w e w' g', w_decrypt C a m g w = (Err e, w', g') -> w' = w.
Proof. exact w_decrypt_err. Qed.

Theorem C11_decrypt_message_error_only_saves_trusted_identity : forall C a m g w e w' g',
  w_decrypt_message C a m g w = (Err e, w', g') ->
  w' = w \/ (w_policy w (w_saved w) a (pm_identity m) = true /\
    w' = {| w_sessions := w_sessions w; w_saved := upd_addr (w_saved w) a (Some (pm_identity m));
            w_prekeys := w_prekeys w; w_signed := w_signed w; w_self := w_self w; w_reg := w_reg w; w_policy := w_policy w |}).
Proof. exact w_decrypt_message_err. Qed.

(** No write at all precedes a failing Decrypt (also a panicking one). *)
Theorem C11_decrypt_failure_no_writes : forall C v m g o r' es g', decrypt_and_get_key C v m g = (o, r', es, g') ->
  (forall x, o <> Ok x) -> es = [].
Proof. exact decrypt_failure_writes_nothing. Qed.

(** The identity write does precede some errors: a pre-key message with a valid header and a bad inner MAC. *)
Example C11_example :
  let bad := {| pm_struct := pm_struct msg1; pm_base := pm_base msg1; pm_identity := pm_identity msg1; pm_message := bad_mac (pm_message msg1) |} in
  fst (fst (w_decrypt_message toy alice_addr bad [tseed x21] bob0)) = Err ENoValidSessions /\
  w_saved (snd (fst (w_decrypt_message toy alice_addr bad [tseed x21] bob0))) alice_addr = Some (tkey xa0) /\
  fst (fst (w_decrypt toy alice_addr (bad_mac msg3) [tseed x21] bob2)) = Err ENoValidSessions.
Proof. vm_compute. repeat split. Qed.

(** ** C12 *)

(** Against a store holding live objects: whatever its MAC, a message naming a known ratchet key and a counter
    still available uses that position up, and the genuine message is then refused. *)
Theorem C12_forged_message_uses_up_position : forall C r s m g o s' g' c, stored C no_wrap r -> In s (states r) -> no_wrap m ->
  s_sender s <> None -> sg_version (sm_struct m) = s_version s ->
  receiver_chain (sm_ratchet m) s = Some c ->
  (ck_index (ch_key c) <= sg_counter (sm_struct m) <= ck_index (ch_key c) + 5000)%N \/
    In (sg_counter (sm_struct m)) (map mk_index (ch_msgs c)) ->
  decrypt_with_state C s m g = (o, s', g') ->
  forall m2 g2 o2 s2 g2', sm_ratchet m2 = sm_ratchet m -> sg_counter (sm_struct m2) = sg_counter (sm_struct m) ->
    decrypt_with_state C s' m2 g2 = (o2, s2, g2') -> forall x, o2 <> Ok x.
Proof.
  intros C r s m g o s' g' c HS HI Hu. assert (HW := stored_wf C _ HS). rewrite Forall_forall in HW.
  intros. eapply forged_blocks_genuine; eauto.
Qed.

(** So the expected property is false: two forged messages, each refused, each of which makes a genuine message
    undecryptable (the second by ratcheting with a made-up key). *)
Theorem C12_live_store_unchanged_refuted : exists C, crypto_laws C /\ exists v forged g1 e v1 g1' m g2 x v2 g2',
  run_ref_decrypt C v forged g1 = (Err e, v1, g1') /\
  run_ref_decrypt C v m g2 = (Ok x, v2, g2') /\
  fst (fst (run_ref_decrypt C v1 m g2)) = Err ENoValidSessions /\ sm_ratchet forged = sm_ratchet m.
Proof.
  exists toy. split; [exact toy_laws|]. exists bob_view, (bad_mac msg3), [tseed x62]. do 3 eexists. exists msg3, [tseed x61].
  do 3 eexists. split; [run|]. split; [run|]. split; vm_compute; reflexivity.
Qed.

Theorem C12_made_up_key_refuted : exists C, crypto_laws C /\ exists v forged g1 e v1 g1' m g2 x v2 g2',
  run_ref_decrypt C v forged g1 = (Err e, v1, g1') /\
  run_ref_decrypt C v m g2 = (Ok x, v2, g2') /\
  fst (fst (run_ref_decrypt C v1 m g2)) = Err ENoValidSessions /\ sm_ratchet forged <> sm_ratchet m.
Proof.
  exists toy. split; [exact toy_laws|]. exists bob_view, (bad_key msg3), [tseed x62]. do 3 eexists. exists msg3, [tseed x61].
  do 3 eexists. split; [run|]. split; [run|]. split; [vm_compute; reflexivity|].
  intros E. apply (f_equal abytes) in E. revert E. vm_compute. discriminate.
Qed.

(** A live record does stay as it was when the message is refused before any key is derived. *)
Theorem C12_early_refusal_unchanged : forall C s m g, u32_msg m ->
  (s_sender s = None \/ sg_version (sm_struct m) <> s_version s \/
   exists c, receiver_chain (sm_ratchet m) s = Some c /\
     (((sg_counter (sm_struct m) < ck_index (ch_key c))%N /\ ~ In (sg_counter (sm_struct m)) (map mk_index (ch_msgs c))) \/
      (ck_index (ch_key c) + 5000 < sg_counter (sm_struct m))%N)) ->
  exists e, decrypt_with_state C s m g = (Err e, s, g).
Proof. exact unchanged_on_refusal. Qed.

Example C12_example : (exists c, receiver_chain (sm_ratchet (far_msg 2)) (r_cur bob_rec2) = Some c /\ (ck_index (ch_key c) <= 2 <= ck_index (ch_key c) + 5000)%N) /\
  (exists c, receiver_chain (sm_ratchet (far_msg 0)) (r_cur bob_rec2) = Some c /\ (0 < ck_index (ch_key c))%N /\ map mk_index (ch_msgs c) = []) /\
  stored toy no_wrap bob_rec2 /\ In (r_cur bob_rec2) (states bob_rec2) /\ no_wrap (far_msg 2) /\ u32_msg (far_msg 0) /\
  s_sender (r_cur bob_rec2) <> None /\ sg_version (sm_struct (far_msg 2)) = s_version (r_cur bob_rec2) /\
  (** the first is refused, but not without a trace; the second without one *)
  fst (fst (decrypt_with_state toy (r_cur bob_rec2) (far_msg 2) [])) = Err EBadMac /\ snd (fst (decrypt_with_state toy (r_cur bob_rec2) (far_msg 2) [])) <> r_cur bob_rec2 /\
  exists e, decrypt_with_state toy (r_cur bob_rec2) (far_msg 0) [] = (Err e, r_cur bob_rec2, []).
Proof.
  split; [eexists; split; [vm_compute; reflexivity|vm_compute; split; discriminate]|]. split; [eexists; split; [vm_compute; reflexivity|split; vm_compute; reflexivity]|].
  split; [exact bob2_stored|]. split; [left; reflexivity|]. split; [vm_compute; reflexivity|]. split; [vm_compute; reflexivity|]. split; [vm_compute; discriminate|]. split; [vm_compute; reflexivity|].
  split; [vm_compute; reflexivity|]. split.
  - intros E. apply (f_equal (fun s => map (fun c => ck_index (ch_key c)) (s_recv s))) in E. revert E. vm_compute. discriminate.
  - apply C12_early_refusal_unchanged; [vm_compute; reflexivity|]. right. right. eexists. split; [vm_compute; reflexivity|]. left. split; [vm_compute; reflexivity|]. vm_compute. intros [].
Qed.

(** ** C13 *)

(** When a message is accepted through an archived session, the former current session becomes the first
    archived one in the state the failed attempt left it in ... *)
Theorem C13_former_current_after_late_message : forall C r m g x r' g' e s' g1, stored C no_wrap r ->
  decrypt_with_state C (r_cur r) m g = (Err e, s', g1) ->
  decrypt_with_record C r m g = (Ok x, r', g') -> hd_error (r_prev r') = Some s'.
Proof.
  intros C r m g x r' g' e s' g1 HS. destruct (stored_facts C r HS) as (_ & HL & _). apply late_message_shape. exact HL.
Qed.

(** ... which is its old state when the current session refused the message early, ... *)
Theorem C13_undisturbed_when_refused_early : forall C r m g x r' g', stored C no_wrap r -> u32_msg m ->
  (sg_version (sm_struct m) <> s_version (r_cur r) \/
   exists c, receiver_chain (sm_ratchet m) (r_cur r) = Some c /\
     (((sg_counter (sm_struct m) < ck_index (ch_key c))%N /\ ~ In (sg_counter (sm_struct m)) (map mk_index (ch_msgs c))) \/
      (ck_index (ch_key c) + 5000 < sg_counter (sm_struct m))%N)) ->
  decrypt_with_record C r m g = (Ok x, r', g') -> hd_error (r_prev r') = Some (r_cur r).
Proof.
  intros C r m g x r' g' HS Hu HC HD. destruct (unchanged_on_refusal C (r_cur r) m g Hu (or_intror HC)) as [e E].
  eapply C13_former_current_after_late_message; [exact HS|exact E|exact HD].
Qed.

(** ... and otherwise not: an unknown ratchet key replaces its sending ratchet key by a newly generated one. *)
Theorem C13_foreign_key_replaces_sending_ratchet : forall C, crypto_laws C -> forall r m seed g x r' g' e s' g1,
  reachable C u32_msg r -> (length (r_prev r) <= 40)%nat -> s_sender (r_cur r) <> None ->
  u32_msg m -> sg_version (sm_struct m) = s_version (r_cur r) -> receiver_chain (sm_ratchet m) (r_cur r) = None ->
  decrypt_with_state C (r_cur r) m (Some seed :: g) = (Err e, s', g1) ->
  decrypt_with_record C r m (Some seed :: g) = (Ok x, r', g') ->
  hd_error (r_prev r') = Some s' /\ sender_key s' = Some (x_base C (clamp (to_arr 32 seed))) /\
  receiver_chain (sm_ratchet m) s' <> None.
Proof.
  intros C L r m seed g x r' g' e s' g1 HR HL Hs Hu Hv Hn HD HW. split; [eapply late_message_shape; eassumption|].
  assert (HA := reachable_ready C L _ HR). inversion HA as [|? ? HB _]; subst.
  eapply foreign_key_ratchets; [exact Hu| |exact Hv|exact Hn|exact HD].
  apply sender_new_or_ready; [exact HB|]. unfold sender_key. destruct (s_sender (r_cur r)); [discriminate|congruence].
Qed.

(** The consequence: one late message, read correctly, and the peer can no longer read what is sent in the
    current session, although he could without it. *)
Theorem C13_late_message_breaks_current_session_refuted : exists C, crypto_laws C /\
  exists (bob alice : world) (late next : pk_msg) g g1 g2 x0 b0 h0 x1 b1 h1 x2 b2 h2 ct ct' y,
  (** Bob reads the late message of an archived session and then the next one of the current session *)
  w_decrypt_message C alice_addr late g bob = (Ok x0, b0, h0) /\
  w_decrypt_message C alice_addr next g1 b0 = (Ok x1, b1, h1) /\
  fst (w_encrypt C alice_addr (str "answer"%string) b1) = Ok (CSignal ct) /\
  (** or only the latter *)
  w_decrypt_message C alice_addr next g1 bob = (Ok x2, b2, h2) /\
  fst (w_encrypt C alice_addr (str "answer"%string) b2) = Ok (CSignal ct') /\
  (** Alice reads the answer only in the second case *)
  fst (fst (w_decrypt C bob_addr ct g2 alice)) = Err ENoValidSessions /\
  fst (fst (w_decrypt C bob_addr ct' g2 alice)) = Ok (str "answer"%string, y).
Proof.
  exists toy. split; [exact toy_laws|]. exists bx2, (snd ax8), m2, n2, [tseed x43; tseed x43; tseed x43; tseed x43].
  exists [tseed x44; tseed x44; tseed x44; tseed x44], [tseed x51; tseed x52; tseed x53; tseed x54].
  do 9 eexists. exists with_late, without_late. eexists.
  split; [run|]. split; [run|]. split; [vm_compute; reflexivity|]. split; [run|]. split; [vm_compute; reflexivity|]. split; vm_compute; reflexivity.
Qed.

(** Bob's record with two sessions of Alice's, and a late message of the archived one. *)
Definition late_rec : record := Eval vm_compute in rec_of bx2 alice_addr.
Lemma stored_after : forall (v : view) (p : pk_msg) (g : rng) r3, stored toy no_wrap (v_load v) -> no_wrap (pm_message p) ->
  match decrypt_message toy v p g with (_, r', es, _) => persist r' = Ok r3 /\ In (StoreSession r') es end -> stored toy no_wrap r3.
Proof.
  intros v p g r3 HS HW H. destruct (decrypt_message toy v p g) as [[[o r'] es] g'] eqn:E. destruct H as [HP HI].
  eapply (Stored_write toy no_wrap v); [exact HS| |exact HI|exact HP]. eapply Op_decrypt_message; [exact HW|exact E].
Qed.
Lemma late_rec_stored : stored toy no_wrap late_rec.
Proof.
  assert (H1 : stored toy no_wrap (rec_of bx1 alice_addr)).
  { apply (stored_after (view_of bobx0 alice_addr) m1 [tseed x41; tseed x41; tseed x41; tseed x41]); [constructor|vm_compute; reflexivity|]. vm_compute. split; [reflexivity|]. right. left. reflexivity. }
  apply (stored_after (view_of bx1 alice_addr) n1 [tseed x42; tseed x42; tseed x42; tseed x42]); [exact H1|vm_compute; reflexivity|]. vm_compute. split; [reflexivity|]. right. left. reflexivity.
Qed.
Example C13_example : exists e s' g1 x r' g', decrypt_with_state toy (r_cur late_rec) (pm_message m2) [tseed x43; tseed x43] = (Err e, s', g1) /\
  decrypt_with_record toy late_rec (pm_message m2) [tseed x43; tseed x43] = (Ok x, r', g') /\ hd_error (r_prev r') = Some s' /\ s' <> r_cur late_rec.
Proof.
  assert (Y : (match decrypt_with_state toy (r_cur late_rec) (pm_message m2) [tseed x43; tseed x43] with (Err _, s, _) => Some (map (fun c => abytes (kp_pub (ch_pair c))) (s_recv s)) | _ => None end) <>
    Some (map (fun c => abytes (kp_pub (ch_pair c))) (s_recv (r_cur late_rec)))) by (vm_compute; discriminate).
  destruct (decrypt_with_state toy (r_cur late_rec) (pm_message m2) [tseed x43; tseed x43]) as [[[y|e|] s'] g1] eqn:E1.
  1,3: exfalso; assert (X : match decrypt_with_state toy (r_cur late_rec) (pm_message m2) [tseed x43; tseed x43] with (Err _, _, _) => true | _ => false end = true) by (vm_compute; reflexivity); rewrite E1 in X; discriminate X.
  assert (X : match decrypt_with_record toy late_rec (pm_message m2) [tseed x43; tseed x43] with (Ok _, _, _) => true | _ => false end = true) by (vm_compute; reflexivity).
  destruct (decrypt_with_record toy late_rec (pm_message m2) [tseed x43; tseed x43]) as [[[x|e2|] r'] g'] eqn:E2; [|discriminate X|discriminate X].
  exists e, s', g1, x, r', g'. split; [reflexivity|]. split; [reflexivity|]. split; [exact (C13_former_current_after_late_message toy late_rec (pm_message m2) _ x r' g' e s' g1 late_rec_stored E1 E2)|].
  intros E. apply Y. rewrite E. reflexivity.
Qed.

(** ** C14, accept side *)

Theorem C14_accepted_message_has_valid_mac : forall C, crypto_laws C -> forall r s m g pt mk s' g',
  reachable C u32_msg r -> In s (states r) -> u32_msg m -> sig_from_struct (sm_struct m) = Ok m ->
  decrypt_with_state C s m g = (Ok (pt, mk), s', g') ->
  exists rid lid, s_remote_id s = Some rid /\ s_local_id s = Some lid /\
    match sg_mac (sm_struct m) with Some x => x | None => [] end =
      firstn 8 (hmac C (mk_mac mk) (authenticated_bytes rid lid (sm_struct m))) /\
    decrypt_with_key C m mk = Ok pt.
Proof.
  intros C L r s m g pt mk s' g' HR HI Hu Hm H.
  assert (HA := reachable_ready C L _ HR). rewrite Forall_forall in HA. destruct (HA s HI) as [->|HB]; [cbn in H; discriminate|].
  destruct (accepted_mac C _ _ _ _ _ _ _ Hu H) as (rid & lid & E1 & E2 & E3 & E4 & E5). exists rid, lid.
  split; [exact E1|]. split; [exact E2|]. split; [|exact E5].
  destruct HB as (Hv & _). rewrite Hv in E4. apply (C14_verify_mac_exact C m rid lid (mk_mac mk) (law_hmac_len C L) Hm). exact E4.
Qed.

(** ** C24, C53 *)

Theorem C24_bundle_refusals : forall C v b g,
  (v_trusted v (b_identity b) = false -> process_bundle C v b g = (Err EUntrusted, v_load v, [], g)) /\
  (v_trusted v (b_identity b) = true -> b_signed b = None -> process_bundle C v b g = (Err ENoSignedPreKey, v_load v, [], g)) /\
  (forall signed, v_trusted v (b_identity b) = true -> b_signed b = Some signed ->
     verify_signature C (b_identity b) (ser_pub signed) (b_sig b) = false ->
     process_bundle C v b g = (Err EInvalidSignature, v_load v, [], g)).
Proof. exact bundle_refusals. Qed.

(** Any write implies all three checks passed. *)
Theorem C24_bundle_gate : forall C v b g o r' es g', process_bundle C v b g = (o, r', es, g') -> es <> [] ->
  v_trusted v (b_identity b) = true /\ exists signed, b_signed b = Some signed /\
    verify_signature C (b_identity b) (ser_pub signed) (b_sig b) = true.
Proof. intros C v b g o r' es g' H HN. destruct (bundle_gate C _ _ _ _ _ _ _ H) as [X|X]; [contradiction|exact X]. Qed.

Theorem C24_bundle_success : forall C v b g o r' es g', process_bundle C v b g = (Ok o, r', es, g') ->
  es = [StoreSession r'; SaveIdentity (b_identity b)] /\
  s_remote_id (r_cur r') = Some (b_identity b) /\ s_local_id (r_cur r') = Some (ip_pub (v_identity v)) /\
  s_remote_reg (r_cur r') = b_reg b /\ s_local_reg (r_cur r') = v_reg v /\ s_version (r_cur r') = 3%Z /\
  exists base, s_base (r_cur r') = Some base /\
    s_pending (r_cur r') = Some {| pp_id := b_prekey_id b; pp_signed := b_signed_id b; pp_base := base |}.
Proof. exact bundle_success. Qed.

(** The three checks are the only ones: with working randomness everything else succeeds. *)
Theorem C24_bundle_accepted : forall C v b signed s1 s2 g, v_trusted v (b_identity b) = true -> b_signed b = Some signed ->
  verify_signature C (b_identity b) (ser_pub signed) (b_sig b) = true ->
  exists r' es, process_bundle C v b (Some s1 :: Some s2 :: g) = (Ok tt, r', es, g).
Proof. exact bundle_accepts. Qed.

Example C24_example : v_trusted (view_of alice0 bob_addr) (b_identity bob_bundle) = true /\
  verify_signature toy (b_identity bob_bundle) (ser_pub (tkey x72)) (b_sig bob_bundle) = true /\
  verify_signature toy (b_identity bob_bundle) (ser_pub (tkey x73)) (b_sig bob_bundle) = false.
Proof. vm_compute. repeat split. Qed.

(** ** C25, C26 *)

Theorem C25_untrusted_prekey_message_refused : forall C v m g, v_trusted v (pm_identity m) = false ->
  decrypt_message C v m g = (Err EUntrusted, v_load v, [], g).
Proof. exact untrusted_refused. Qed.

Theorem C25_untrusted_world : forall C a m g w, w_policy w (w_saved w) a (pm_identity m) = false ->
  w_decrypt_message C a m g w = (Err EUntrusted, w, g).
Proof. intros C a m g w H. unfold w_decrypt_message. rewrite untrusted_refused by exact H. reflexivity. Qed.

Definition distrusting (w : world) : world :=
  {| w_sessions := w_sessions w; w_saved := w_saved w; w_prekeys := w_prekeys w; w_signed := w_signed w;
     w_self := w_self w; w_reg := w_reg w; w_policy := fun _ _ _ => false |}.

Example C25_example : fst (fst (w_decrypt_message toy alice_addr msg2 [] (distrusting bob2))) = Err EUntrusted.
Proof. vm_compute. reflexivity. Qed.

(** Encrypt and Decrypt do the same under every trust policy ... *)
Theorem C26_trust_not_consulted : forall C v t pt m g, encrypt C (with_trust t v) pt = encrypt C v pt /\
  decrypt_and_get_key C (with_trust t v) m g = decrypt_and_get_key C v m g.
Proof. exact trust_ignored. Qed.

(** ... and record the identity of the session as saved. *)
Theorem C26_identity_saved_unconditionally : forall C v pt ct r' es m g x r2 es2 g',
  (encrypt C v pt = (Ok ct, r', es) -> exists rid, s_remote_id (r_cur r') = Some rid /\ In (SaveIdentity rid) es) /\
  (decrypt_and_get_key C v m g = (Ok x, r2, es2, g') -> exists rid, s_remote_id (r_cur r2) = Some rid /\ In (SaveIdentity rid) es2).
Proof.
  intros C v pt ct r' es m g x r2 es2 g'. split; intros H.
  - apply encrypt_cases in H. destruct H as [(HF & _)|(sc & body & lid & rid & sm & ct' & H)]; [exfalso; exact (HF ct eq_refl)|].
    cbv zeta in H. destruct H as (E1 & _ & _ & E4 & _ & _ & _ & -> & ->). exists rid. split; [|left; reflexivity].
    cbn [r_cur set_cur]. unfold set_sender_chain_key. rewrite E1. exact E4.
  - destruct (decrypt_success_writes C _ _ _ _ _ _ _ H) as (rid & E1 & ->). exists rid. split; [exact E1|left; reflexivity].
Qed.

(** So sending to an identity the policy rejects is not refused. *)
Theorem C26_untrusted_send_refuted : exists C, crypto_laws C /\ exists w a pt ct w',
  (forall k, w_policy w (w_saved w) a k = false) /\ w_encrypt C a pt w = (Ok ct, w').
Proof.
  exists toy. split; [exact toy_laws|]. exists (distrusting bob2), alice_addr, (str "secret"%string). do 2 eexists.
  split; [intros k; reflexivity|vm_compute; reflexivity].
Qed.

Example C26_example : v_trusted (with_trust (fun _ => false) (view_of bob2 alice_addr)) (tkey xa0) = false /\
  (exists ct r' es, encrypt toy (with_trust (fun _ => false) (view_of bob2 alice_addr)) (str "secret"%string) = (Ok ct, r', es)) /\
  (exists x r' es g', decrypt_and_get_key toy (with_trust (fun _ => false) (view_of bob2 alice_addr)) msg3 [tseed x22] = (Ok x, r', es, g')).
Proof.
  split; [reflexivity|]. split.
  - assert (X : match encrypt toy (with_trust (fun _ => false) (view_of bob2 alice_addr)) (str "secret"%string) with (Ok _, _, _) => true | _ => false end = true) by (vm_compute; reflexivity).
    destruct (encrypt toy (with_trust (fun _ => false) (view_of bob2 alice_addr)) (str "secret"%string)) as [[[ct|e|] r'] es]; [exists ct, r', es; reflexivity|discriminate X|discriminate X].
  - assert (X : match decrypt_and_get_key toy (with_trust (fun _ => false) (view_of bob2 alice_addr)) msg3 [tseed x22] with (Ok _, _, _, _) => true | _ => false end = true) by (vm_compute; reflexivity).
    destruct (decrypt_and_get_key toy (with_trust (fun _ => false) (view_of bob2 alice_addr)) msg3 [tseed x22]) as [[[[x|e|] r'] es] g']; [exists x, r', es, g'; reflexivity|discriminate X|discriminate X].
Qed.

(** ** C27 *)

Theorem C27_prekey_removed_after_session : forall C v m g x r' es g', decrypt_message C v m g = (Ok x, r', es, g') ->
  exists id, es = SaveIdentity (pm_identity m) :: StoreSession r' ::
                    (if ou_empty id then [] else [RemovePreKey (ou_value id)]) /\
    (has_session_state (pk_version (pm_struct m)) (ser_pub (pm_base m)) (v_load v) = true -> id = ou_none) /\
    (has_session_state (pk_version (pm_struct m)) (ser_pub (pm_base m)) (v_load v) = false ->
     pk_prekey_id (pm_struct m) = Some id /\ (ou_value id <> medium_max)%N /\ v_prekey v (ou_value id) <> None).
Proof. exact decrypt_message_success. Qed.

(** After a crash between the two writes the session is recognised, so redelivery does not look at the prekeys
    and removes none. *)
Theorem C27_redelivery_after_crash : forall C v m g x r' es g' r3 v2, u32_msg (pm_message m) -> pk_version (pm_struct m) = 3%Z ->
  decrypt_message C v m g = (Ok x, r', es, g') ->
  has_session_state 3 (ser_pub (pm_base m)) (v_load v) = false ->
  persist r' = Ok r3 -> v_load v2 = r3 ->
  (forall g2 p, decrypt_message C (with_prekeys p v2) m g2 = decrypt_message C v2 m g2) /\
  (forall g2 o r4 es2 g3, decrypt_message C v2 m g2 = (o, r4, es2, g3) -> forall i, ~ In (RemovePreKey i) es2).
Proof.
  intros C v m g x r' es g' r3 v2 Hu Hv H HN HP HL.
  assert (HH : has_session_state (pk_version (pm_struct m)) (ser_pub (pm_base m)) (v_load v2) = true).
  { rewrite Hv, HL. eapply setup_recognised; eassumption. }
  split; [intros g2 p; apply recognised_ignores_prekeys; exact HH|]. intros g2 o r4 es2 g3 H2. eapply recognised_removes_none; eassumption.
Qed.

Example C27_example : exists x r' es g', decrypt_message toy (view_of bob0 alice_addr) msg1 [tseed x21] = (Ok x, r', es, g') /\
  es = [SaveIdentity (tkey xa0); StoreSession r'; RemovePreKey 7] /\ persist r' = Ok bob_rec1 /\
  has_session_state 3 (ser_pub (pm_base msg1)) (v_load (view_of bob0 alice_addr)) = false /\ pk_version (pm_struct msg1) = 3%Z /\
  w_prekeys bob0 7 <> None /\ w_prekeys bob1 7 = None.
Proof.
  do 4 eexists. split; [vm_compute; reflexivity|]. split; [vm_compute; reflexivity|]. split; [vm_compute; reflexivity|].
  repeat split; vm_compute; try reflexivity. discriminate.
Qed.

(** ** C28 *)

(** No prekey id, or the reserved one, and a message that decrypts: the session is stored, then a panic. *)
Theorem C28_no_prekey_id_panics_after_store : forall C v m g x r1 r' g',
  process C v (v_load v) m = (Ok None, r1, [SaveIdentity (pm_identity m)]) ->
  decrypt_with_record C r1 (pm_message m) g = (Ok x, r', g') ->
  decrypt_message C v m g = (Panic, r', [SaveIdentity (pm_identity m); StoreSession r'], g').
Proof. exact no_prekey_id_panics. Qed.

Theorem C28_no_prekey_id_cases : forall C v r m r1 ef, process C v r m = (Ok None, r1, ef) ->
  pk_prekey_id (pm_struct m) = None \/ exists o, pk_prekey_id (pm_struct m) = Some o /\ ou_value o = medium_max.
Proof. exact process_none_iff. Qed.

(** So the expectation is false: a bundle without one-time prekey, processed by the initiator; the responder
    given the message object panics with the session stored; the message cannot be serialized (nil id), and with
    an empty id it is read back as naming prekey 0, which the responder does not have. *)
Theorem C28_bundle_without_prekey_refuted : exists C, crypto_laws C /\ exists (b b' : bundle) w1 w2 bob p p' w' g',
  b_prekey b = None /\ b_prekey_id b = None /\ b_prekey b' = None /\ b_prekey_id b' = Some ou_none /\
  fst (w_encrypt C bob_addr (str "hi"%string) w1) = Ok (CPreKey p) /\ fst (w_encrypt C bob_addr (str "hi"%string) w2) = Ok (CPreKey p') /\
  w1 = snd (fst (w_process_bundle C bob_addr b [tseed x11; tseed x12] alice0)) /\
  w2 = snd (fst (w_process_bundle C bob_addr b' [tseed x11; tseed x12] alice0)) /\
  w_decrypt_message C alice_addr p [tseed x21] bob = (Panic, w', g') /\ w_sessions w' alice_addr <> None /\
  pk_msg_bytes p = Panic /\
  (q <- pk_msg_bytes p' ;; r <- pk_from_bytes q ;; fst (fst (w_decrypt_message C alice_addr r [tseed x21] bob))) = Err ENilOneTimePreKey.
Proof.
  exists toy. split; [exact toy_laws|]. exists bundle_none, bundle_empty. do 2 eexists. exists bob0, pk_none, pk_empty. do 2 eexists.
  split; [reflexivity|]. split; [reflexivity|]. split; [reflexivity|]. split; [reflexivity|].
  split; [|split; [|split; [reflexivity|split; [reflexivity|]]]].
  - vm_compute. reflexivity.
  - vm_compute. reflexivity.
  - split; [run|]. split; [vm_compute; discriminate|]. split; vm_compute; reflexivity.
Qed.

Example C28_example : exists r1 x r' g', process toy (view_of bob0 alice_addr) (v_load (view_of bob0 alice_addr)) pk_none = (Ok None, r1, [SaveIdentity (pm_identity pk_none)]) /\
  decrypt_with_record toy r1 (pm_message pk_none) [tseed x21] = (Ok x, r', g').
Proof.
  set (p := process toy (view_of bob0 alice_addr) (v_load (view_of bob0 alice_addr)) pk_none).
  assert (X : match p with (Ok None, r1, [SaveIdentity k]) => bytes_eqb (abytes k) (abytes (pm_identity pk_none)) && match decrypt_with_record toy r1 (pm_message pk_none) [tseed x21] with (Ok _, _, _) => true | _ => false end | _ => false end = true) by (vm_compute; reflexivity).
  destruct p as [[[[j|]|e|] r1] [|[r0|k|i] [|e2 l]]]; try discriminate X. apply andb_prop in X. destruct X as [X Y]. apply bytes_eqb_eq in X. apply arr_eq in X. subst k.
  destruct (decrypt_with_record toy r1 (pm_message pk_none) [tseed x21]) as [[[x|e|] r'] g'] eqn:D; [exists r1, x, r', g'; split; [reflexivity|exact D]|discriminate Y|discriminate Y].
Qed.

(** ** C42 *)

(** In any sequential life of a session (encryptions, decrypt attempts, saves) no two messages carry the same
    ratchet key and counter. *)
Theorem C42_no_position_reused : forall C, crypto_laws C -> forall sent keys s, sending_life C sent keys s -> NoDup sent.
Proof. intros C L sent keys s H. destruct (life_fresh C L _ _ _ H) as (_ & HN & _). exact HN. Qed.

(** Two Encrypts that both loaded the same stored record use the same position and the same keys. *)
Theorem C42_concurrent_encrypts_refuted : exists C, crypto_laws C /\ exists v pt1 pt2 c1 c2 r1 r2 es1 es2,
  pt1 <> pt2 /\ encrypt C v pt1 = (Ok (CSignal c1), r1, es1) /\ encrypt C v pt2 = (Ok (CSignal c2), r2, es2) /\
  sm_ratchet c1 = sm_ratchet c2 /\ sg_counter (sm_struct c1) = sg_counter (sm_struct c2) /\
  sg_ct (sm_struct c1) <> sg_ct (sm_struct c2) /\ r1 = r2.
Proof.
  exists toy. split; [exact toy_laws|]. exists (view_of bob1 alice_addr), (str "a"%string), (str "b"%string). do 6 eexists.
  split; [discriminate|]. split; [vm_compute; reflexivity|]. split; [vm_compute; reflexivity|].
  repeat split; vm_compute; try reflexivity. discriminate.
Qed.

(** In general: which keys Encrypt uses depends only on the loaded record, not on the plaintext. *)
Theorem C42_position_from_loaded_record : forall C, crypto_laws C -> forall v1 v2 pt1 pt2 c1 c2 r1 r2 es1 es2,
  reachable C u32_msg (v_load v1) -> v_load v2 = v_load v1 ->
  (N.of_nat (length pt1) + 16 < 9223372036854775808)%N -> (N.of_nat (length pt2) + 16 < 9223372036854775808)%N ->
  encrypt C v1 pt1 = (Ok c1, r1, es1) -> encrypt C v2 pt2 = (Ok c2, r2, es2) ->
  sm_ratchet (inner_msg c1) = sm_ratchet (inner_msg c2) /\
  sg_counter (sm_struct (inner_msg c1)) = sg_counter (sm_struct (inner_msg c2)) /\ r1 = r2.
Proof.
  intros C L v1 v2 pt1 pt2 c1 c2 r1 r2 es1 es2 HR HE Hf1 Hf2 H1 H2.
  assert (HA := reachable_ready C L _ HR). inversion HA as [|? ? HB _]; subst.
  destruct (encrypt_current C _ _ _ _ _ H1) as (sc1 & E1 & F1). destruct (encrypt_current C _ _ _ _ _ H2) as (sc2 & E2 & F2).
  assert (HB1 : ready (r_cur (v_load v1))) by (apply sender_new_or_ready; [exact HB|unfold sender_key; rewrite E1; discriminate]).
  assert (HB2 : ready (r_cur (v_load v2))) by (rewrite HE; exact HB1).
  destruct (encrypt_inner C L _ _ _ _ _ HB1 Hf1 H1) as (x1 & A1 & A2 & A3 & _).
  destruct (encrypt_inner C L _ _ _ _ _ HB2 Hf2 H2) as (x2 & B1 & B2 & B3 & _).
  rewrite HE in B1. assert (x2 = x1) by congruence. subst x2. split; [congruence|]. split; [congruence|].
  apply encrypt_cases in H1. destruct H1 as [(HF & _)|(sc & body & lid & rid & sm & ct' & H1)]; [exfalso; exact (HF _ eq_refl)|].
  apply encrypt_cases in H2. destruct H2 as [(HF & _)|(sc' & body' & lid' & rid' & sm' & ct'' & H2)]; [exfalso; exact (HF _ eq_refl)|].
  cbv zeta in H1, H2. destruct H1 as (D1 & _ & _ & _ & _ & _ & _ & -> & _). destruct H2 as (D2 & _ & _ & _ & _ & _ & _ & -> & _).
  rewrite HE in *. congruence.
Qed.

Example C42_example : exists sent keys s, sending_life toy sent keys s /\ length sent = 1%nat.
Proof.
  assert (HR : reachable toy u32_msg bob_rec2) by apply C09_example.
  destruct (encrypt toy (view_of bob2 alice_addr) (str "x"%string)) as [[o r'] es] eqn:E.
  assert (H : exists ct, o = Ok ct /\ (sg_counter (sm_struct (inner_msg ct)) < u32_modulus - 1)%N).
  { apply (f_equal (fun p => fst (fst p))) in E. cbn [fst] in E. rewrite <- E. eexists. split; [vm_compute; reflexivity|vm_compute; reflexivity]. }
  destruct H as (ct & -> & Hc). do 3 eexists. split; [|shelve].
  eapply (Life_encrypt toy [] _ (view_of bob2 alice_addr)); [|exact E|exact Hc|reflexivity].
  change (v_load (view_of bob2 alice_addr)) with bob_rec2. eapply Life_start; [exact HR|vm_compute; reflexivity].
  Unshelve. reflexivity.
Qed.

(** ** C43 *)

(** The announced previous counter: set when the sending ratchet is replaced, from the position the previous
    sending chain had reached, with wrap-around at 0; it is what every message of the new chain announces. *)
Theorem C43_previous_counter : forall C s m g o s' g', u32_msg m -> decrypt_with_state C s m g = (o, s', g') ->
  (s_sender s' = s_sender s /\ s_prev_counter s' = s_prev_counter s) \/
  exists old new, s_sender s = Some old /\ s_sender s' = Some new /\ ck_index (ch_key new) = 0%N /\
    ((ck_index (ch_key old) < u32_modulus)%N ->
     s_prev_counter s' = if (ck_index (ch_key old) =? 0)%N then 4294967295%N else (ck_index (ch_key old) - 1)%N).
Proof.
  intros C s m g o s' g' Hu H. destruct (dws_sender C _ _ _ _ _ _ Hu H) as [(A & B & _)|(_ & sc & ours & ck & A & B & D & _ & E & _)]; [auto|].
  right. exists sc. eexists. split; [exact A|]. split; [exact B|]. split; [exact D|]. intros Hi. rewrite E. apply prev_counter_value. exact Hi.
Qed.

Theorem C43_announced : forall C, crypto_laws C -> forall v pt ct r' es, reachable C u32_msg (v_load v) ->
  (N.of_nat (length pt) + 16 < 9223372036854775808)%N ->
  encrypt C v pt = (Ok ct, r', es) ->
  sg_prev (sm_struct (inner_msg ct)) = s_prev_counter (r_cur (v_load v)) /\
  s_prev_counter (r_cur r') = s_prev_counter (r_cur (v_load v)).
Proof.
  intros C L v pt ct r' es HR Hf H. assert (HA := reachable_ready C L _ HR). inversion HA as [|? ? HB _]; subst.
  destruct (encrypt_current C _ _ _ _ _ H) as (sc & E1 & E2).
  assert (HB1 : ready (r_cur (v_load v))) by (apply sender_new_or_ready; [exact HB|unfold sender_key; rewrite E1; discriminate]).
  destruct (encrypt_inner C L _ _ _ _ _ HB1 Hf H) as (x1 & A1 & A2 & A3 & A4). split; [exact A4|].
  rewrite E2. unfold set_sender_chain_key. rewrite E1. reflexivity.
Qed.

(** A chain that sent nothing: Bob, having sent nothing yet, answers the first message with 2^32-1. *)
Theorem C43_unused_chain_refuted : exists C, crypto_laws C /\ exists w a m g x w' g' ct,
  w_decrypt_message C a m g w = (Ok x, w', g') /\ w_sessions w a = None /\
  fst (w_encrypt C a (str "hi alice"%string) w') = Ok (CSignal ct) /\ sg_prev (sm_struct ct) = 4294967295%N.
Proof.
  exists toy. split; [exact toy_laws|]. exists bob0, alice_addr, msg1, [tseed x21]. do 3 eexists. exists reply1.
  split; [run|]. split; [reflexivity|]. split; vm_compute; reflexivity.
Qed.

(** ** C44 *)

Theorem C44_bundle_archives_current : forall C v b g r' es g', (length (r_prev (v_load v)) <= 40)%nat ->
  process_bundle C v b g = (Ok tt, r', es, g') ->
  (r_fresh (v_load v) = false -> r_prev r' = firstn 40 (r_cur (v_load v) :: r_prev (v_load v))) /\
  (r_fresh (v_load v) = true -> r_prev r' = r_prev (v_load v)).
Proof. exact bundle_archives. Qed.

Theorem C44_prekey_message_archives_current : forall C v m id r' ef, (length (r_prev (v_load v)) <= 40)%nat ->
  process C v (v_load v) m = (Ok id, r', ef) ->
  (has_session_state (pk_version (pm_struct m)) (ser_pub (pm_base m)) (v_load v) = true -> r' = v_load v) /\
  (has_session_state (pk_version (pm_struct m)) (ser_pub (pm_base m)) (v_load v) = false ->
    (r_fresh (v_load v) = false -> r_prev r' = firstn 40 (r_cur (v_load v) :: r_prev (v_load v))) /\
    (r_fresh (v_load v) = true -> r_prev r' = r_prev (v_load v))).
Proof. exact prekey_message_archives. Qed.

(** A stored record is never fresh once it has a session, so with a serializing store the old session is kept. *)
Theorem C44_stored_record_not_fresh : forall C r, stored C no_wrap r -> r_fresh r = true -> r = new_record.
Proof. intros C r H. apply (stored_facts C r H). Qed.

(** With live objects it is lost: two bundles processed in a row on the same object. *)
Theorem C44_fresh_record_overwritten_refuted : exists C, crypto_laws C /\ exists v b1 b2 r1 es1 r2 es2 g1 g2,
  process_bundle C v b1 g1 = (Ok tt, r1, es1, []) /\ process_bundle C (with_record v r1) b2 g2 = (Ok tt, r2, es2, []) /\
  s_base (r_cur r1) <> s_base (r_cur r2) /\ r_prev r2 = [].
Proof.
  exists toy. split; [exact toy_laws|]. exists (view_of alice0 bob_addr), bob_bundle, bob_bundle. do 4 eexists.
  exists [tseed x11; tseed x12], [tseed x13; tseed x14]. split; [vm_compute; reflexivity|]. split; [vm_compute; reflexivity|].
  split; [|reflexivity]. vm_compute. intros E. injection E as E. discriminate.
Qed.

Example C44_example : r_fresh (rec_of (snd ax4) bob_addr) = false /\ r_prev (rec_of ax5 bob_addr) = [r_cur (rec_of (snd ax4) bob_addr)].
Proof. split; vm_compute; reflexivity. Qed.

(** ** C45 *)

Definition same_elsewhere (a : address) (w w' : world) : Prop :=
  (forall b, b <> a -> w_sessions w' b = w_sessions w b /\ w_saved w' b = w_saved w b) /\
  w_signed w' = w_signed w /\ w_self w' = w_self w /\ w_reg w' = w_reg w /\ w_policy w' = w_policy w.

Theorem C45_other_addresses_untouched : forall C a w,
  (forall pt o w', w_encrypt C a pt w = (o, w') -> same_elsewhere a w w') /\
  (forall m g o w' g', w_decrypt C a m g w = (o, w', g') -> same_elsewhere a w w') /\
  (forall m g o w' g', w_decrypt_message C a m g w = (o, w', g') -> same_elsewhere a w w') /\
  (forall b g o w' g', w_process_bundle C a b g w = (o, w', g') -> same_elsewhere a w w').
Proof.
  intros C a w. repeat split.
  all: try match goal with H : w_encrypt _ _ _ _ = _ |- _ => unfold w_encrypt in H; destruct (encrypt _ _ _) as [[? ?] es] end.
  all: try match goal with H : w_decrypt _ _ _ _ _ = _ |- _ => unfold w_decrypt in H; destruct (decrypt_and_get_key _ _ _ _) as [[[? ?] es] ?] end.
  all: try match goal with H : w_decrypt_message _ _ _ _ _ = _ |- _ => unfold w_decrypt_message in H; destruct (decrypt_message _ _ _ _) as [[[? ?] es] ?] end.
  all: try match goal with H : w_process_bundle _ _ _ _ _ = _ |- _ => unfold w_process_bundle in H; destruct (process_bundle _ _ _ _) as [[[? ?] es] ?] end.
  all: destruct (commit a es w) as [w1 ok] eqn:EC; destruct (commit_sessions _ _ _ _ _ EC) as (A & B & D & E & F);
    match goal with H : (_, _) = (_, _) |- _ => inversion H; subst; clear H end;
    solve [auto | apply A; assumption].
Qed.

(** And what happens at one address does not depend on the sessions of the others. *)
Theorem C45_other_sessions_irrelevant : forall w1 w2 a, w_sessions w1 a = w_sessions w2 a -> w_saved w1 = w_saved w2 ->
  w_prekeys w1 = w_prekeys w2 -> w_signed w1 = w_signed w2 -> w_self w1 = w_self w2 -> w_reg w1 = w_reg w2 ->
  w_policy w1 = w_policy w2 -> view_of w1 a = view_of w2 a.
Proof. intros w1 w2 a H1 H2 H3 H4 H5 H6 H7. unfold view_of. rewrite H1, H2, H3, H4, H5, H6, H7. reflexivity. Qed.

(** A second contact of Alice's. *)
Definition carol_addr : address := {| a_name := [x63]; a_device := 1 |}.
Definition carol_steps := w_process_bundle toy carol_addr bob_bundle [tseed x11; tseed x12] alice2.
Example C45_example : fst (fst carol_steps) = Ok tt /\ match w_sessions (snd (fst carol_steps)) carol_addr with Some r => s_sender (r_cur r) <> None | None => False end /\
  w_sessions alice2 carol_addr = None /\ w_sessions alice2 bob_addr <> None /\ w_sessions (snd (fst carol_steps)) bob_addr = w_sessions alice2 bob_addr.
Proof.
  split; [vm_compute; reflexivity|]. split; [vm_compute; discriminate|]. split; [reflexivity|]. split; [discriminate|]. unfold carol_steps.
  destruct (w_process_bundle toy carol_addr bob_bundle [tseed x11; tseed x12] alice2) as [[o w'] g'] eqn:E. cbn [fst snd].
  destruct (C45_other_addresses_untouched toy carol_addr alice2) as (_ & _ & _ & B). destruct (B _ _ _ _ _ E) as [A _]. apply A. intros H. discriminate H.
Qed.

(** ** C46 *)

Theorem C46_message_kind : forall C v pt ct r' es, encrypt C v pt = (Ok ct, r', es) ->
  match s_pending (r_cur (v_load v)) with
  | None => exists sm, ct = CSignal sm
  | Some p => exists pm, ct = CPreKey pm /\ pk_prekey_id (pm_struct pm) = pp_id p /\ pk_signed_id (pm_struct pm) = pp_signed p /\
      pm_base pm = pp_base p /\ Some (pm_identity pm) = s_local_id (r_cur (v_load v)) /\
      pk_reg (pm_struct pm) = s_local_reg (r_cur (v_load v))
  end /\ s_pending (r_cur r') = s_pending (r_cur (v_load v)).
Proof. exact encrypt_kind. Qed.

(** A decrypt attempt ends the pre-key phase of a session exactly when it succeeds. *)
Theorem C46_first_reply_ends_it : forall C s m g o s' g', u32_msg m -> decrypt_with_state C s m g = (o, s', g') ->
  ((forall x, o <> Ok x) /\ s_pending s' = s_pending s) \/ ((exists x, o = Ok x) /\ s_pending s' = None).
Proof. exact decrypt_pending. Qed.

(** And it never comes back in that session. *)
Theorem C46_never_again : forall C s s', state_step C s s' -> s_pending s = None -> s_pending s' = None.
Proof. exact acknowledged_forever. Qed.

Example C46_example : (exists p, fst a_send1 = Ok (CPreKey p)) /\ (exists p, fst a_send2 = Ok (CPreKey p)) /\ (exists m, fst a_send3 = Ok (CSignal m)).
Proof. repeat split; eexists; vm_compute; reflexivity. Qed.

(** ** C47 *)

Theorem C47_every_key_has_its_size : forall C, crypto_laws C -> forall r s, reachable C u32_msg r -> In s (states r) -> s_sender s <> None ->
  (exists root, s_root s = Some root /\ length root = 32%nat) /\
  (forall c, s_sender s = Some c \/ In c (s_recv s) -> length (ck_key (ch_key c)) = 32%nat /\ (ck_index (ch_key c) < u32_modulus)%N /\
     forall k, In k (ch_msgs c) -> length (mk_cipher k) = 32%nat /\ length (mk_mac k) = 32%nat /\ length (mk_iv k) = 16%nat).
Proof.
  intros C L r s HR HI Hs. assert (HA := reachable_ready C L _ HR). rewrite Forall_forall in HA.
  destruct (HA s HI) as [->|HB]; [exfalso; apply Hs; reflexivity|].
  destruct HB as (_ & _ & _ & HF & lid & rid & root & base & sc & priv & _ & _ & H3 & H4 & _ & H6 & _ & H8).
  split; [eauto|]. intros c [Hc|Hc].
  - assert (c = sc) by congruence. subst c. destruct H8 as (A & B & D). rewrite Forall_forall in D. auto.
  - rewrite Forall_forall in HF. destruct (HF c Hc) as (A & B & D). rewrite Forall_forall in D. auto.
Qed.

Theorem C47_encrypt_succeeds : forall C, crypto_laws C -> forall v pt, reachable C u32_msg (v_load v) ->
  s_sender (r_cur (v_load v)) <> None -> (N.of_nat (length pt) + 16 < 9223372036854775808)%N ->
  exists ct r' es, encrypt C v pt = (Ok ct, r', es).
Proof.
  intros C L v pt HR Hs Hf. assert (HA := reachable_ready C L _ HR). inversion HA as [|? ? HB _]; subst.
  apply encrypt_ready; [exact L| |exact Hf]. apply sender_new_or_ready; [exact HB|].
  unfold sender_key. destruct (s_sender (r_cur (v_load v))); [discriminate|congruence].
Qed.

Example C47_example : reachable toy u32_msg bob_rec2 /\ In (r_cur bob_rec2) (states bob_rec2) /\ s_sender (r_cur bob_rec2) <> None.
Proof. split; [exact (proj1 C09_example)|]. split; [left; reflexivity|vm_compute; discriminate]. Qed.

(** ** C48 *)

Theorem C48_returned_keys_decrypt_later : forall C v m g pt mk r' es g', u32_msg m ->
  decrypt_and_get_key C v m g = (Ok (pt, mk), r', es, g') -> decrypt_with_key C m mk = Ok pt.
Proof. exact returned_keys_decrypt. Qed.

Theorem C48_returned_keys_decrypt_prekey_later : forall C v m g pt mk r' es g', u32_msg (pm_message m) ->
  decrypt_message C v m g = (Ok (pt, mk), r', es, g') -> decrypt_with_key C (pm_message m) mk = Ok pt.
Proof. exact returned_keys_decrypt_prekey. Qed.

Example C48_example : exists pt mk r' es g', decrypt_and_get_key toy (view_of bob2 alice_addr) msg3 [tseed x22] = (Ok (pt, mk), r', es, g') /\
  decrypt_with_key toy msg3 mk = Ok (str "third"%string).
Proof. do 5 eexists. split; vm_compute; reflexivity. Qed.

(** ** C49 *)

(** A crash after the first [n] writes of an operation: the session of the address is the old or the new one, and
    a prekey is gone only if the new session is stored. *)
Theorem C49_crash_points : forall C Q w a r' es r3 n w1 ok, session_op C Q (view_of w a) r' es -> persist r' = Ok r3 ->
  commit a (firstn n es) w = (w1, ok) ->
  (w_sessions w1 a = w_sessions w a \/ w_sessions w1 a = Some r3) /\
  ((forall i, w_prekeys w1 i = w_prekeys w i) \/ w_sessions w1 a = Some r3).
Proof. exact crash_points. Qed.

(** Before the session is stored DecryptMessage has at most saved the identity; if the policy still trusts it,
    a redelivery gives the same result. *)
Theorem C49_retry_before_store : forall C w a m g w1, w_policy w (w_saved w) a (pm_identity m) = true ->
  apply_effect a (SaveIdentity (pm_identity m)) w = Some w1 ->
  w_policy w1 (w_saved w1) a (pm_identity m) = true ->
  decrypt_message C (view_of w1 a) m g = decrypt_message C (view_of w a) m g.
Proof.
  intros C w a m g w1 HT HA HT1. cbn [apply_effect] in HA. injection HA as <-. cbn in HT1.
  unfold decrypt_message, process. cbn [view_of v_load v_trusted w_sessions w_saved w_policy]. rewrite HT, HT1. reflexivity.
Qed.

(** A message is returned by Encrypt only after the advanced sending chain is stored. *)
Theorem C49_message_returned_after_store : forall C a pt w ct w', w_encrypt C a pt w = (Ok ct, w') ->
  exists sc r3, s_sender (r_cur (v_load (view_of w a))) = Some sc /\ w_sessions w' a = Some r3 /\
    s_sender (r_cur r3) = Some {| ch_pair := ch_pair sc; ch_key := next_key C (ch_key sc); ch_msgs := ch_msgs sc |}.
Proof.
  intros C a pt w ct w' H. unfold w_encrypt in H. destruct (encrypt C (view_of w a) pt) as [[o r'] es] eqn:E.
  destruct (commit a es w) as [w1 ok] eqn:EC. injection H as HO <-. unfold seal in HO. destruct ok; [|discriminate]. subst o.
  destruct (encrypt_header C _ _ _ _ _ E) as (sc & sm & A1 & _ & _ & _ & _ & A6 & _).
  apply encrypt_cases in E. destruct E as [(HF & _)|(sc' & body & lid & rid & sm' & ct' & E)]; [exfalso; exact (HF ct eq_refl)|].
  cbv zeta in E. destruct E as (_ & _ & _ & _ & _ & _ & _ & _ & ->). cbn [commit apply_effect] in EC.
  destruct (persist r') as [r3| |] eqn:EP; try discriminate. injection EC as <-. exists sc, r3. split; [exact A1|].
  cbn [w_sessions]. unfold upd_addr. replace (address_eqb a a) with true by (symmetry; apply address_eqb_eq; reflexivity).
  split; [reflexivity|]. apply persist_iff in EP. destruct EP as (_ & _ & ->). exact A6.
Qed.

Example C49_example : exists r' es, session_op toy no_wrap (view_of bob0 alice_addr) r' es /\ length es = 3%nat /\ persist r' = Ok bob_rec1.
Proof.
  destruct (decrypt_message toy (view_of bob0 alice_addr) msg1 [tseed x21]) as [[[o r'] es] g'] eqn:E. exists r', es.
  split; [eapply Op_decrypt_message; [|exact E]; vm_compute; reflexivity|].
  revert E. vm_compute. intros E. injection E as _ <- <- _. split; reflexivity.
Qed.

(** ** C50 *)

Theorem C50_next_index : forall C ck, (ck_index ck < u32_modulus)%N ->
  ck_index (next_key C ck) = if (ck_index ck =? u32_modulus - 1)%N then 0%N else (ck_index ck + 1)%N.
Proof. exact next_index. Qed.

(** Accepting counter 2^32-1 takes the chain back to position 0 ... *)
Theorem C50_wrap_on_receive : forall C s m g x s' g', sg_counter (sm_struct m) = (u32_modulus - 1)%N ->
  (forall c, receiver_chain (sm_ratchet m) s = Some c ->
     (ck_index (ch_key c) < u32_modulus)%N /\ ~ In (u32_modulus - 1)%N (map mk_index (ch_msgs c))) ->
  decrypt_with_state C s m g = (Ok x, s', g') ->
  exists c', receiver_chain (sm_ratchet m) s' = Some c' /\ ck_index (ch_key c') = 0%N.
Proof. exact wrap_receive. Qed.

(** ... from where counters 0 to 5000, already used on that chain, are processed again (with other keys). *)
Theorem C50_old_counters_processed_again : forall C s m g c rid lid, u32_msg m -> s_sender s <> None ->
  sg_version (sm_struct m) = s_version s ->
  receiver_chain (sm_ratchet m) s = Some c -> ck_index (ch_key c) = 0%N -> s_remote_id s = Some rid -> s_local_id s = Some lid ->
  (sg_counter (sm_struct m) <= 5000)%N ->
  let mk := message_keys C (ck_iter C (N.to_nat (sg_counter (sm_struct m))) (ch_key c)) in
  fst (fst (decrypt_with_state C s m g)) =
  (_ <- verify_mac C m (sg_version (sm_struct m)) rid lid (mk_mac mk) ;; pt <- decrypt_with_key C m mk ;; Ok (pt, mk)).
Proof.
  intros C s m g c rid lid Hu Hs Hv Hc Hi Hr Hl Hn. assert (H := jump_accepted C s m g c rid lid Hu Hs Hv Hc Hr Hl).
  rewrite Hi, N.sub_0_r in H. apply H. lia.
Qed.

Example C50_example : ck_index (next_key toy {| ck_key := repeat x01 32; ck_index := 4294967295 |}) = 0%N.
Proof. vm_compute. reflexivity. Qed.

Print Assumptions C07_at_most_once.
Print Assumptions C07_record_at_most_once.
Print Assumptions C08_immediate_replay_refused.
Print Assumptions C08_replay_in_a_row_refuted.
Print Assumptions C08_stale_copy_refuted.
Print Assumptions C09_record_bounded.
Print Assumptions C10_too_far_rejected.
Print Assumptions C10_within_limit_processed.
Print Assumptions C10_work_bound.
Print Assumptions C11_decrypt_error_changes_nothing.
Print Assumptions C11_decrypt_message_error_only_saves_trusted_identity.
Print Assumptions C11_decrypt_failure_no_writes.
Print Assumptions C12_forged_message_uses_up_position.
Print Assumptions C12_live_store_unchanged_refuted.
Print Assumptions C12_made_up_key_refuted.
Print Assumptions C12_early_refusal_unchanged.
Print Assumptions C13_former_current_after_late_message.
Print Assumptions C13_undisturbed_when_refused_early.
Print Assumptions C13_foreign_key_replaces_sending_ratchet.
Print Assumptions C13_late_message_breaks_current_session_refuted.
Print Assumptions C14_accepted_message_has_valid_mac.
Print Assumptions C24_bundle_refusals.
Print Assumptions C24_bundle_gate.
Print Assumptions C24_bundle_success.
Print Assumptions C24_bundle_accepted.
Print Assumptions C25_untrusted_prekey_message_refused.
Print Assumptions C25_untrusted_world.
Print Assumptions C26_trust_not_consulted.
Print Assumptions C26_identity_saved_unconditionally.
Print Assumptions C26_untrusted_send_refuted.
Print Assumptions C27_prekey_removed_after_session.
Print Assumptions C27_redelivery_after_crash.
Print Assumptions C28_no_prekey_id_panics_after_store.
Print Assumptions C28_no_prekey_id_cases.
Print Assumptions C28_bundle_without_prekey_refuted.
Print Assumptions C42_no_position_reused.
Print Assumptions C42_concurrent_encrypts_refuted.
Print Assumptions C42_position_from_loaded_record.
Print Assumptions C43_previous_counter.
Print Assumptions C43_announced.
Print Assumptions C43_unused_chain_refuted.
Print Assumptions C44_bundle_archives_current.
Print Assumptions C44_prekey_message_archives_current.
Print Assumptions C44_stored_record_not_fresh.
Print Assumptions C44_fresh_record_overwritten_refuted.
Print Assumptions C45_other_addresses_untouched.
Print Assumptions C45_other_sessions_irrelevant.
Print Assumptions C46_message_kind.
Print Assumptions C46_first_reply_ends_it.
Print Assumptions C46_never_again.
Print Assumptions C47_every_key_has_its_size.
Print Assumptions C47_encrypt_succeeds.
Print Assumptions C48_returned_keys_decrypt_later.
Print Assumptions C48_returned_keys_decrypt_prekey_later.
Print Assumptions C49_crash_points.
Print Assumptions C49_retry_before_store.
Print Assumptions C49_message_returned_after_store.
Print Assumptions C50_next_index.
Print Assumptions C50_wrap_on_receive.
Print Assumptions C50_old_counters_processed_again.
