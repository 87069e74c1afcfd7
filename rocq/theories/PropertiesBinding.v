(** PropertiesBinding.v: a session stays bound to the identity keys of its set-up (C73); what a forged first message does under trust on
    first use (C74); the counter a new session announces (C43). The vocabulary is in BindingSpec.v. *)
From Verif Require Import Base Labels Crypto Ecc Keys X3dh Messages SessionState SessionRecord SessionBuilder SessionCipher Address World Toy ToySession
  SessionSpec SessionProofs SerialProofs BindingSpec BindingProofs.
From Coq Require Import ZArith NArith List Lia String.
Import ListNotations.
Local Open Scope list_scope.

(** ** C73 *)

(** Every session a record ever holds, current or archived, was set up by one of the calls made with the record, with an identity key
    that was trusted at that moment, and still carries the keys and registration ids of that set-up. *)
Theorem C73_sessions_bound : forall C H r s, history C H r -> In s (states r) -> blank s \/ exists x, In x H /\ bound_to C x s.
Proof. intros C H r s HH I. pose proof (history_inv C H r HH) as F. rewrite Forall_forall in F. exact (proj1 (F s I)). Qed.

(** A session that announces itself with prekey ids announces those of a bundle processed with this record. *)
Theorem C73_pending_prekeys : forall C H r s p, history C H r -> In s (states r) -> s_pending s = Some p ->
  exists v b, In (Started v b) H /\ pp_id p = b_prekey_id b /\ pp_signed p = b_signed_id b.
Proof. intros C H r s p HH I E. pose proof (history_inv C H r HH) as F. rewrite Forall_forall in F. exact (proj2 (F s I) p E). Qed.

(** An accepted message was authenticated with the two identity keys of one of the set-ups, and its session is the current one afterwards. *)
Theorem C73_accepted_authenticated : forall C H v m g pt mk r' es g', history C H (v_load v) -> u32_msg m ->
  decrypt_and_get_key C v m g = (Ok (pt, mk), r', es, g') ->
  exists x rid lid, In x H /\ bound_to C x (r_cur r') /\ s_remote_id (r_cur r') = Some rid /\ s_local_id (r_cur r') = Some lid /\
    verify_mac C m (sg_version (sm_struct m)) rid lid (mk_mac mk) = Ok tt.
Proof.
  intros C H v m g pt mk r' es g' HH U E. unfold decrypt_and_get_key in E. destruct (negb (v_contains v)); [discriminate E|].
  destruct (decrypt_with_record C (v_load v) m g) as [[[x|e|] r1] g1] eqn:D; [|discriminate E|discriminate E].
  assert (X : x = (pt, mk) /\ r1 = r') by (destruct (s_remote_id (r_cur r1)); [injection E as -> -> _ _; split; reflexivity|discriminate E]). destruct X as (-> & ->).
  exact (accepted C H _ _ _ _ _ _ (history_inv C H _ HH) U D).
Qed.

(** A message that was encrypted is authenticated for the identity keys of one of the set-ups. *)
Theorem C73_encrypted_bound : forall C H v pt ct r' es, history C H (v_load v) -> encrypt C v pt = (Ok ct, r', es) ->
  exists x, In x H /\ bound_to C x (r_cur r').
Proof.
  intros C H v pt ct r' es HH E. pose proof (Hist_encrypt C H v pt _ _ _ HH E) as HH'.
  destruct (C73_sessions_bound C H r' (r_cur r') HH' (or_introl eq_refl)) as [(B & _)|X]; [|exact X]. exfalso.
  apply HistoryProofs.encrypt_cases in E. destruct E as [(X & _)|(sc & body & lid & rid & sm & ct' & E)]; [exact (X ct eq_refl)|]. cbv zeta in E. destruct E as (E1 & _ & _ & E4 & _ & _ & _ & -> & _).
  cbn [r_cur set_cur] in B. unfold set_sender_chain_key in B. rewrite E1 in B. cbn in B. rewrite E4 in B. discriminate B.
Qed.

Definition alice_v : view := view_of alice0 bob_addr.
Definition bob_v : view := view_of bob0 alice_addr.
Definition alice_step := Eval vm_compute in process_bundle toy alice_v bob_bundle [tseed x11; tseed x12].
Definition bob_step := Eval vm_compute in decrypt_message toy bob_v msg1 [tseed x21].
Definition alice_r : record := Eval vm_compute in snd (fst (fst alice_step)).
Definition bob_r : record := Eval vm_compute in snd (fst (fst bob_step)).
Lemma split4 : forall A B D E (x : A * B * D * E), x = (fst (fst (fst x)), snd (fst (fst x)), snd (fst x), snd x).
Proof. intros A B D E [[[a b] d] e]. reflexivity. Qed.
Example C73_alice : history toy [Started alice_v bob_bundle] alice_r /\ bound_to toy (Started alice_v bob_bundle) (r_cur alice_r) /\ s_pending (r_cur alice_r) <> None.
Proof.
  assert (E : process_bundle toy alice_v bob_bundle [tseed x11; tseed x12] = alice_step) by (vm_compute; reflexivity).
  split; [eapply Hist_start; [exact (Hist_new toy)|exact (eq_trans E (split4 _ _ _ _ alice_step))]|]. split; [|discriminate].
  split; [reflexivity|]. split; [exists (tkey x72); split; [reflexivity|vm_compute; reflexivity]|]. repeat split; reflexivity.
Qed.
Example C73_bob : history toy [Answered bob_v msg1] bob_r /\ bound_to toy (Answered bob_v msg1) (r_cur bob_r).
Proof.
  assert (E : decrypt_message toy bob_v msg1 [tseed x21] = bob_step) by (vm_compute; reflexivity).
  split; [eapply Hist_answer; [exact (Hist_new toy)|vm_compute; reflexivity|exact (eq_trans E (split4 _ _ _ _ bob_step))]|].
  split; [reflexivity|]. repeat split; reflexivity.
Qed.
Definition bob_v2 : view := {| v_load := bob_r; v_contains := true; v_trusted := v_trusted bob_v; v_identity := v_identity bob_v; v_reg := v_reg bob_v; v_prekey := v_prekey bob_v; v_signed := v_signed bob_v |}.
Example C73_accepting : match decrypt_and_get_key toy bob_v2 (pm_message msg2) [] with (Ok (p, _), _, _, _) => p = str "again"%string | _ => False end.
Proof. vm_compute. reflexivity. Qed.

(** ** C43: the counter announced by a new session *)

(** Before the first change of ratchet key a session announces 0. (The condition holds of a record that was saved and loaded since it was
    created, and of one that was never used.) *)
Theorem C43_new_session : forall C v b g r' es g', (r_fresh (v_load v) = true -> r_cur (v_load v) = new_state) ->
  process_bundle C v b g = (Ok tt, r', es, g') -> s_prev_counter (r_cur r') = 0%N.
Proof. intros C v b g r' es g' F. apply bundle_counter. intros E. rewrite (F E). reflexivity. Qed.
Theorem C43_new_session_received : forall C v m id r' ef, (r_fresh (v_load v) = true -> r_cur (v_load v) = new_state) ->
  has_session_state (pk_version (pm_struct m)) (ser_pub (pm_base m)) (v_load v) = false ->
  process C v (v_load v) m = (Ok id, r', ef) -> s_prev_counter (r_cur r') = 0%N.
Proof. intros C v m id r' ef F. apply answer_counter. intros E. rewrite (F E). reflexivity. Qed.
(** A record object that is used again without having been loaded keeps the counter of the session that the new one replaces. *)
Definition used_up : record := set_cur (set_prev_counter 5 (r_cur alice_r)) alice_r.
Definition reused_v : view := {| v_load := used_up; v_contains := true; v_trusted := v_trusted alice_v; v_identity := v_identity alice_v; v_reg := v_reg alice_v; v_prekey := v_prekey alice_v; v_signed := v_signed alice_v |}.
Example C43_reused_object : match process_bundle toy reused_v bob_bundle [tseed x31; tseed x32] with (Ok tt, r, _, _) => s_prev_counter (r_cur r) = 5%N | _ => False end.
Proof. vm_compute. reflexivity. Qed.

(** ** C74 *)

(** A first message that names prekeys we have, from whoever and with whatever content: if it cannot be decrypted, one thing is kept of it,
    its claimed identity key. *)
Theorem C74_failed_first_message_saves_key : forall C a f g w id r ef o w' g',
  process C (view_of w a) (v_load (view_of w a)) f = (Ok id, r, ef) ->
  w_decrypt_message C a f g w = (o, w', g') -> failed o -> o <> Panic ->
  w_saved w' a = Some (pm_identity f) /\ w_sessions w' = w_sessions w /\ w_prekeys w' = w_prekeys w /\ w_policy w' = w_policy w.
Proof.
  intros C a f g w id r ef o w' g' P H F N. destruct (failed_first_message C a f g w id r ef w' g' o P H F N) as (e & _ & ->). cbn [w_saved w_sessions w_prekeys w_policy].
  split; [|repeat split]. unfold upd_addr. rewrite (proj2 (address_eqb_eq a a) eq_refl). reflexivity.
Qed.
(** So with trust on first use the address belongs to that key from then on: messages and bundles with any other identity key are refused,
    and change nothing, until the application removes the saved key. *)
Theorem C74_pinned : forall C a w k, first_use w -> w_saved w a = Some k ->
  (forall m g, pm_identity m <> k -> w_decrypt_message C a m g w = (Err EUntrusted, w, g)) /\
  (forall b g, b_identity b <> k -> w_process_bundle C a b g w = (Err EUntrusted, w, g)).
Proof. intros C a w k T S. split; [intros m g; apply other_key_refused; assumption|intros b g; apply other_bundle_refused; assumption]. Qed.

(** A user could expect that a message that fails leaves genuine messages readable. It does not: here the genuine first message is accepted,
    but not after a forged one that no session could decrypt. The forger needs only the published prekey ids. *)
Definition tofu (saved : address -> option arr32) (a : address) (k : arr32) : bool := match saved a with None => true | Some k' => bytes_eqb (abytes k') (abytes k) end.
Definition bob_tofu : world := {| w_sessions := w_sessions bob0; w_saved := w_saved bob0; w_prekeys := w_prekeys bob0; w_signed := w_signed bob0; w_self := w_self bob0;
  w_reg := w_reg bob0; w_policy := tofu |}.
Lemma tofu_first_use : first_use bob_tofu.
Proof.
  intros saved a k. cbn [bob_tofu w_policy]. unfold tofu. destruct (saved a) as [k'|]; [|split; [left; reflexivity|reflexivity]]. rewrite bytes_eqb_eq. split.
  - intros E. right. f_equal. apply arr_eq. exact E.
  - intros [E|E]; [discriminate E|]. injection E as ->. reflexivity.
Qed.
Definition forged : pk_msg := {| pm_struct := pm_struct msg1; pm_base := tkey x66; pm_identity := tkey x66; pm_message := pm_message msg1 |}.
Theorem C74_forgery_harmless_refuted : exists C, crypto_laws C /\ exists w a f m g, first_use w /\
  (exists pt mk w' g', w_decrypt_message C a m g w = (Ok (pt, mk), w', g')) /\
  exists e w1 g1, w_decrypt_message C a f g w = (Err e, w1, g1) /\ forall g2, w_decrypt_message C a m g2 w1 = (Err EUntrusted, w1, g2).
Proof.
  exists toy. split; [exact toy_laws|]. exists bob_tofu, alice_addr, forged, msg1, [tseed x21]. split; [exact tofu_first_use|]. split.
  - assert (X : match fst (fst (w_decrypt_message toy alice_addr msg1 [tseed x21] bob_tofu)) with Ok _ => true | _ => false end = true) by (vm_compute; reflexivity).
    destruct (w_decrypt_message toy alice_addr msg1 [tseed x21] bob_tofu) as [[[[pt mk]|e|] w'] g']; [exists pt, mk, w', g'; reflexivity|discriminate X|discriminate X].
  - assert (X : match w_decrypt_message toy alice_addr forged [tseed x21] bob_tofu with (Err _, _, _) => true | _ => false end = true) by (vm_compute; reflexivity).
    assert (Y : match process toy (view_of bob_tofu alice_addr) (v_load (view_of bob_tofu alice_addr)) forged with (Ok _, _, _) => true | _ => false end = true) by (vm_compute; reflexivity).
    destruct (process toy (view_of bob_tofu alice_addr) (v_load (view_of bob_tofu alice_addr)) forged) as [[[id|e|] r] ef] eqn:P; [|discriminate Y|discriminate Y].
    destruct (w_decrypt_message toy alice_addr forged [tseed x21] bob_tofu) as [[[x|e|] w1] g1] eqn:D; [discriminate X| |discriminate X]. exists e, w1, g1. split; [reflexivity|].
    destruct (C74_failed_first_message_saves_key toy _ _ _ _ _ _ _ _ _ _ P D ltac:(intros y; discriminate) ltac:(discriminate)) as (S & _ & _ & PW).
    intros g2. apply (proj1 (C74_pinned toy alice_addr w1 (tkey x66) ltac:(unfold first_use; rewrite PW; exact tofu_first_use) S)).
    intros E. apply (f_equal (fun a : arr32 => hd x00 (abytes a))) in E. vm_compute in E. discriminate E.
Qed.

Print Assumptions C73_sessions_bound.
Print Assumptions C73_pending_prekeys.
Print Assumptions C73_accepted_authenticated.
Print Assumptions C73_encrypted_bound.
Print Assumptions C43_new_session.
Print Assumptions C43_new_session_received.
Print Assumptions C74_failed_first_message_saves_key.
Print Assumptions C74_pinned.
Print Assumptions C74_forgery_harmless_refuted.
