(** OpsProofs.v: what single operations do (C10-C14, C24-C28, C43, C44, C46, C48, C50). *)
From Verif Require Import Base Labels Crypto Bytehelper Ecc Cbc Keys X3dh Messages SessionState SessionRecord
  SessionBuilder SessionCipher Address World Toy WireProofs CodecProofs CodecProofs2 CryptoProofs SessionProofs SerialProofs SessionSpec
  HistoryProofs InvariantProofs ReplayProofs.
From Coq Require Import ZifyBool ZifyN ZifyNat.

Section O.
Context (C : crypto).

(** * Decrypt on a record: which state answers *)

(** [first_accepting]: the archived states before position [i] refuse the message, the one at [i] accepts it. *)
Lemma try_prev_ok : forall l m g i x l' g', try_prev C l m g = (Ok (i, x), l', g') ->
  exists pre s post pre' s' g1 g2, l = pre ++ s :: post /\ length pre = i /\ l' = pre' ++ s' :: post /\ length pre' = length pre /\
    decrypt_with_state C s m g1 = (Ok x, s', g2) /\ g' = g2.
Proof.
  intros l m. induction l as [|s l IH]; intros g i x l' g' H; cbn [try_prev] in H; [discriminate|].
  destruct (decrypt_with_state C s m g) as [[[y|e|] s'] g1] eqn:E.
  - injection H as <- <- <- <-. exists [], s, l, [], s', g, g1. repeat split; auto.
  - destruct (try_prev C l m g1) as [[[[j y]|e'|] l2] g2] eqn:E2; try discriminate. injection H as <- <- <- <-.
    destruct (IH _ _ _ _ _ E2) as (pre & s0 & post & pre' & s0' & h1 & h2 & A & B & D & F & G & I).
    exists (s :: pre), s0, post, (s' :: pre'), s0', h1, h2. subst. repeat split; auto; cbn; congruence.
  - discriminate.
Qed.

Lemma dwr_ok_some_state : forall r m g x r' g', decrypt_with_record C r m g = (Ok x, r', g') ->
  exists s g1 g2, In s (states r) /\ decrypt_with_state C s m g1 = (Ok x, r_cur r', g2).
Proof.
  intros r m g x r' g' H. unfold decrypt_with_record in H.
  destruct (decrypt_with_state C (r_cur r) m g) as [[[y|e|] s'] g1] eqn:E.
  - injection H as <- <- <-. exists (r_cur r), g, g1. split; [left; reflexivity|]. exact E.
  - destruct (try_prev C (r_prev r) m g1) as [[[[i y]|e'|] l] g2] eqn:E2; [|discriminate|discriminate].
    destruct (nth_error l i) as [st|] eqn:EN; [|discriminate]. injection H as <- <- <-.
    destruct (try_prev_ok _ _ _ _ _ _ _ E2) as (pre & s0 & post & pre' & s0' & h1 & h2 & A & B & D & F & G & I).
    exists s0, h1, h2. split; [right; rewrite A; apply in_app_iff; right; left; reflexivity|].
    cbn [r_cur promote_state]. rewrite D, nth_error_app2 in EN by lia. replace (i - length pre')%nat with 0%nat in EN by lia.
    cbn in EN. injection EN as <-. exact G.
  - discriminate.
Qed.

(** * Effects (C11, C24-C28) *)

Lemma decrypt_failure_writes_nothing : forall v m g o r' es g', decrypt_and_get_key C v m g = (o, r', es, g') ->
  failed o -> es = [].
Proof.
  intros v m g o r' es g' H HF. unfold decrypt_and_get_key in H. destruct (negb (v_contains v)); [congruence|].
  destruct (decrypt_with_record C (v_load v) m g) as [[[x|e|] r1] g1]; try congruence.
  destruct (s_remote_id (r_cur r1)); [|congruence]. injection H as <- _ _ _. exfalso. exact (HF x eq_refl).
Qed.

Lemma decrypt_success_writes : forall v m g x r' es g', decrypt_and_get_key C v m g = (Ok x, r', es, g') ->
  exists rid, s_remote_id (r_cur r') = Some rid /\ es = [SaveIdentity rid; StoreSession r'].
Proof.
  intros v m g x r' es g' H. unfold decrypt_and_get_key in H. destruct (negb (v_contains v)); [discriminate|].
  destruct (decrypt_with_record C (v_load v) m g) as [[[y|e|] r1] g1]; try discriminate.
  destruct (s_remote_id (r_cur r1)) as [rid|] eqn:E; [|discriminate]. injection H as <- <- <- <-. eauto.
Qed.

Lemma process_effects : forall v r m o r' ef, process C v r m = (o, r', ef) ->
  (ef = [] /\ failed o) \/ (v_trusted v (pm_identity m) = true /\ ef = [SaveIdentity (pm_identity m)] /\ exists id, o = Ok id).
Proof.
  intros v r m o r' ef H. unfold process in H. destruct (v_trusted v (pm_identity m)) eqn:ET; cbn [negb] in H.
  - destruct (process_v3 C v r m) as [[id|e|] r1]; injection H as <- <- <-; [right; eauto| |]; left; split; auto; intros x; discriminate.
  - injection H as <- <- <-. left. split; [reflexivity|intros x; discriminate].
Qed.

Lemma decrypt_message_error_writes : forall v m g e r' es g', decrypt_message C v m g = (Err e, r', es, g') ->
  es = [] \/ (v_trusted v (pm_identity m) = true /\ es = [SaveIdentity (pm_identity m)]).
Proof.
  intros v m g e r' es g' H. unfold decrypt_message in H.
  destruct (process C v (v_load v) m) as [[op rp] ef] eqn:EP. pose proof (process_effects _ _ _ _ _ _ EP) as HE.
  destruct op as [id|e'|].
  - destruct (decrypt_with_record C rp (pm_message m) g) as [[[x|e1|] r2] g1]; [destruct id as [oo|]; discriminate| |discriminate].
    injection H as _ _ <- _. destruct HE as [[-> _]|(HT & -> & _)]; auto.
  - injection H as _ _ <- _. destruct HE as [[-> _]|(HT & -> & _)]; auto.
  - discriminate.
Qed.

Lemma untrusted_refused : forall v m g, v_trusted v (pm_identity m) = false ->
  decrypt_message C v m g = (Err EUntrusted, v_load v, [], g).
Proof. intros v m g H. unfold decrypt_message, process. rewrite H. reflexivity. Qed.

Lemma bundle_gate : forall v b g o r' es g', process_bundle C v b g = (o, r', es, g') ->
  es = [] \/ (v_trusted v (b_identity b) = true /\ exists signed, b_signed b = Some signed /\
              verify_signature C (b_identity b) (ser_pub signed) (b_sig b) = true).
Proof.
  intros v b g o r' es g' H. apply process_bundle_cases in H.
  destruct H as [(_ & -> & _)|(signed & ob & ra & de & se & g1 & H1 & H2 & H3 & _)]; [auto|]. right. eauto.
Qed.

Lemma bundle_refusals : forall v b g,
  (v_trusted v (b_identity b) = false -> process_bundle C v b g = (Err EUntrusted, v_load v, [], g)) /\
  (v_trusted v (b_identity b) = true -> b_signed b = None -> process_bundle C v b g = (Err ENoSignedPreKey, v_load v, [], g)) /\
  (forall signed, v_trusted v (b_identity b) = true -> b_signed b = Some signed ->
     verify_signature C (b_identity b) (ser_pub signed) (b_sig b) = false ->
     process_bundle C v b g = (Err EInvalidSignature, v_load v, [], g)).
Proof.
  intros v b g. unfold process_bundle. repeat split.
  - intros ->. reflexivity.
  - intros -> ->. reflexivity.
  - intros signed -> -> ->. reflexivity.
Qed.

Lemma bundle_success : forall v b g o r' es g', process_bundle C v b g = (Ok o, r', es, g') ->
  es = [StoreSession r'; SaveIdentity (b_identity b)] /\
  s_remote_id (r_cur r') = Some (b_identity b) /\ s_local_id (r_cur r') = Some (ip_pub (v_identity v)) /\
  s_remote_reg (r_cur r') = b_reg b /\ s_local_reg (r_cur r') = v_reg v /\ s_version (r_cur r') = 3%Z /\
  exists base, s_base (r_cur r') = Some base /\
    s_pending (r_cur r') = Some {| pp_id := b_prekey_id b; pp_signed := b_signed_id b; pp_base := base |}.
Proof.
  intros v b g o r' es g' H. apply process_bundle_cases in H.
  destruct H as [(HF & _)|(signed & ob & ra & de & se & g1 & _ & _ & _ & _ & _ & _ & _ & _ & Er & ->)]; [exfalso; exact (HF _ eq_refl)|].
  split; [reflexivity|]. rewrite Er. repeat split. exists (kp_pub ob). split; reflexivity.
Qed.

(** The checks of a bundle with good randomness are exactly the three; nothing else fails. *)
Lemma bundle_accepts : forall v b signed s1 s2 g, v_trusted v (b_identity b) = true -> b_signed b = Some signed ->
  verify_signature C (b_identity b) (ser_pub signed) (b_sig b) = true ->
  exists r' es, process_bundle C v b (Some s1 :: Some s2 :: g) = (Ok tt, r', es, g).
Proof.
  intros v b signed s1 s2 g HT HS HV. unfold process_bundle. rewrite HT, HS, HV. cbn [negb].
  cbn [generate_key_pair rng_read].
  rewrite (sender_session_explicit C _ (clamp (to_arr 32 s1))) by reflexivity.
  erewrite create_chain_ok by reflexivity. eauto.
Qed.

(** C27 *)
Lemma decrypt_message_success : forall v m g x r' es g', decrypt_message C v m g = (Ok x, r', es, g') ->
  exists id, es = SaveIdentity (pm_identity m) :: StoreSession r' ::
                    (if ou_empty id then [] else [RemovePreKey (ou_value id)]) /\
    (has_session_state (pk_version (pm_struct m)) (ser_pub (pm_base m)) (v_load v) = true -> id = ou_none) /\
    (has_session_state (pk_version (pm_struct m)) (ser_pub (pm_base m)) (v_load v) = false ->
     pk_prekey_id (pm_struct m) = Some id /\ (ou_value id <> medium_max)%N /\ v_prekey v (ou_value id) <> None).
Proof.
  intros v m g x r' es g' H. unfold decrypt_message in H.
  destruct (process C v (v_load v) m) as [[op rp] ef] eqn:EP. pose proof (process_effects _ _ _ _ _ _ EP) as HE.
  destruct op as [id|e|]; [|discriminate|discriminate].
  destruct HE as [[_ HF]|(HT & -> & _)]; [exfalso; exact (HF _ eq_refl)|].
  destruct (decrypt_with_record C rp (pm_message m) g) as [[[y|e|] r2] g1]; [|discriminate|discriminate].
  destruct id as [oo|]; [|discriminate]. injection H as <- <- <- <-. exists oo. split; [reflexivity|].
  unfold process in EP. rewrite HT in EP. cbn [negb] in EP.
  destruct (process_v3 C v (v_load v) m) as [o3 r3] eqn:E3. destruct o3 as [id3|e3|]; [|discriminate|discriminate].
  injection EP as -> _. apply process_v3_cases in E3.
  destruct E3 as [[_ [HF|[E EH]]]|[[HF _]|(signed & otk & keys & E1 & E2 & E3 & E4 & E5 & E6)]];
    try (exfalso; exact (HF _ eq_refl)).
  - injection E as ->. split; [reflexivity|congruence].
  - split; [congruence|]. intros _. destruct (pk_prekey_id (pm_struct m)) as [o1|]; [|discriminate].
    destruct (ou_value o1 =? medium_max)%N eqn:EM; [discriminate|]. injection E5 as ->. split; [reflexivity|]. split; [lia|].
    destruct E3 as (kp & E3 & _). congruence.
Qed.

(** C28: no usable id means a panic after the session has been stored. *)
Lemma no_prekey_id_panics : forall v m g x r1 r' g', process C v (v_load v) m = (Ok None, r1, [SaveIdentity (pm_identity m)]) ->
  decrypt_with_record C r1 (pm_message m) g = (Ok x, r', g') ->
  decrypt_message C v m g = (Panic, r', [SaveIdentity (pm_identity m); StoreSession r'], g').
Proof. intros v m g x r1 r' g' H1 H2. unfold decrypt_message. rewrite H1, H2. reflexivity. Qed.

Lemma process_none_iff : forall v r m r1 ef, process C v r m = (Ok None, r1, ef) ->
  pk_prekey_id (pm_struct m) = None \/ exists o, pk_prekey_id (pm_struct m) = Some o /\ ou_value o = medium_max.
Proof.
  intros v r m r1 ef H. unfold process in H. destruct (negb (v_trusted v (pm_identity m))); [discriminate|].
  destruct (process_v3 C v r m) as [o3 r3] eqn:E3. destruct o3 as [id3|e3|]; [|discriminate|discriminate].
  injection H as -> _ _. apply process_v3_cases in E3.
  destruct E3 as [[_ [HF|[E EH]]]|[[HF _]|(signed & otk & keys & E1 & E2 & E3 & E4 & E5 & E6)]];
    try (exfalso; exact (HF _ eq_refl)); [discriminate|].
  destruct (pk_prekey_id (pm_struct m)) as [o1|]; [|auto]. right. exists o1. split; [reflexivity|].
  destruct (ou_value o1 =? medium_max)%N eqn:EM; [lia|discriminate].
Qed.

(** * C26 *)
Definition with_trust (t : arr32 -> bool) (v : view) : view :=
  {| v_load := v_load v; v_contains := v_contains v; v_trusted := t; v_identity := v_identity v;
     v_reg := v_reg v; v_prekey := v_prekey v; v_signed := v_signed v |}.

Lemma trust_ignored : forall v t pt m g, encrypt C (with_trust t v) pt = encrypt C v pt /\
  decrypt_and_get_key C (with_trust t v) m g = decrypt_and_get_key C v m g.
Proof. intros v t pt m g. split; reflexivity. Qed.

(** * C10 *)

Lemma jump_limit : forall s m g c, u32_msg m -> s_sender s <> None -> sg_version (sm_struct m) = s_version s ->
  receiver_chain (sm_ratchet m) s = Some c -> (ck_index (ch_key c) < u32_modulus)%N ->
  (ck_index (ch_key c) + 5000 < sg_counter (sm_struct m))%N ->
  decrypt_with_state C s m g = (Err ETooFarFuture, s, g).
Proof.
  intros s m g c Hu Hs Hv Hc Hi Hn. unfold decrypt_with_state. destruct (s_sender s); [|congruence].
  rewrite Hv, Z.eqb_refl. cbn [negb]. rewrite (gcck_known C _ _ _ _ Hc), (gcmk_spec C _ _ _ _ Hu Hc).
  unfold chain_receive. replace (sg_counter (sm_struct m) <? ck_index (ch_key c))%N with false by lia.
  unfold max_future. replace (5000 <? sg_counter (sm_struct m) - ck_index (ch_key c))%N with true by lia. reflexivity.
Qed.

(** Up to 5000 ahead the keys are derived and the authentication decides. *)
Lemma jump_accepted : forall s m g c rid lid, u32_msg m -> s_sender s <> None -> sg_version (sm_struct m) = s_version s ->
  receiver_chain (sm_ratchet m) s = Some c -> s_remote_id s = Some rid -> s_local_id s = Some lid ->
  (ck_index (ch_key c) <= sg_counter (sm_struct m) <= ck_index (ch_key c) + 5000)%N ->
  let mk := message_keys C (ck_iter C (N.to_nat (sg_counter (sm_struct m) - ck_index (ch_key c))) (ch_key c)) in
  fst (fst (decrypt_with_state C s m g)) =
  (_ <- verify_mac C m (sg_version (sm_struct m)) rid lid (mk_mac mk) ;;
   pt <- decrypt_with_key C m mk ;; Ok (pt, mk)).
Proof.
  intros s m g c rid lid Hu Hs Hv Hc Hr Hl Hn mk. unfold decrypt_with_state. destruct (s_sender s); [|congruence].
  rewrite Hv, Z.eqb_refl. cbn [negb]. rewrite (gcck_known C _ _ _ _ Hc), (gcmk_spec C _ _ _ _ Hu Hc).
  unfold chain_receive. replace (sg_counter (sm_struct m) <? ck_index (ch_key c))%N with false by lia.
  unfold max_future. replace (5000 <? sg_counter (sm_struct m) - ck_index (ch_key c))%N with false by lia.
  cbn [s_remote_id s_local_id upd_chain set_recv]. rewrite Hr, Hl. fold mk.
  destruct (verify_mac C m (s_version s) rid lid (mk_mac mk)) as [[]| |]; cbn [bind]; try reflexivity.
  destruct (decrypt_with_key C m mk); reflexivity.
Qed.

(** How far one attempt can move the position of any receiver chain, and how many keys it can store. *)
Lemma work_bound : forall s m g o s' g' k c c', no_wrap m -> wf_state s ->
  decrypt_with_state C s m g = (o, s', g') -> receiver_chain k s = Some c -> receiver_chain k s' = Some c' ->
  (ck_index (ch_key c) <= ck_index (ch_key c') <= ck_index (ch_key c) + 5001)%N.
Proof.
  intros s m g o s' g' k c c' Hu HW H Hc Hc'. apply dws_cases in H; [|unfold no_wrap in Hu; lia].
  destruct H as [(_ & ->)|(s1 & c1 & HP & _ & _ & HC)]; [rewrite Hc in Hc'; injection Hc' as <-; lia|].
  assert (HB1 := prepared_wf _ _ _ _ _ _ _ HP HW). assert (HCH := prepared_chain _ _ _ _ _ _ _ HP).
  assert (Hok1 : chain_ok c1) by (destruct HB1 as [_ HF]; rewrite Forall_forall in HF; apply HF; eapply prepared_in; exact HP).
  assert (HU1 : forall x, receiver_chain k s1 = Some x -> x = c).
  { intros x Hx. destruct HP as [(H & -> & _)|(H & root & sc & recv & send & ours & _ & _ & E1 & _ & _ & _ & ->)]; [congruence|].
    assert (Hk : k <> sm_ratchet m) by (intros ->; congruence).
    destruct (receiver_chain_after_add (sm_ratchet m) k (sk_chain recv) s (proj1 HW) Hk) as [E|E].
    - change (receiver_chain k (add_receiver_chain (sm_ratchet m) (sk_chain recv) s) = Some x) in Hx. congruence.
    - change (receiver_chain k (add_receiver_chain (sm_ratchet m) (sk_chain recv) s) = Some x) in Hx. congruence. }
  assert (HF : forall s2, receiver_chain k s2 = receiver_chain k s1 -> s' = s2 -> (ck_index (ch_key c) <= ck_index (ch_key c') <= ck_index (ch_key c) + 5001)%N).
  { intros s2 E ->. rewrite E in Hc'. apply HU1 in Hc'. subst. lia. }
  destruct HC as [(_ & -> & _)|(mk & c2 & HR & HC)]; [apply (HF s1); reflexivity|].
  assert (HPair := chain_receive_pair _ _ _ _ _ HR).
  assert (HR' : receiver_chain k s' = receiver_chain k (upd_chain (sm_ratchet m) (fun _ => c2) s1)).
  { destruct HC as [(_ & ->)|(pt & rid & lid & _ & -> & _)]; reflexivity. }
  rewrite HR' in Hc'. destruct (arr_eq_dec k (sm_ratchet m)) as [->|Hk].
  - rewrite (receiver_chain_replaced _ _ _ _ HCH HPair) in Hc'. injection Hc' as <-.
    specialize (HU1 _ HCH). subst c1. unfold chain_receive in HR.
    destruct (sg_counter (sm_struct m) <? ck_index (ch_key c))%N eqn:EL.
    + destruct (has_message_keys c _) eqn:EH; [|discriminate]. destruct (remove_spec _ _ EH) as (a & x & b & _ & _ & E3).
      rewrite E3 in HR. injection HR as _ <-. cbn [ch_key]. lia.
    + destruct (max_future <? _)%N eqn:EM; [discriminate|]. cbv zeta in HR.
      match type of HR with Ok (_, ?b) = _ => assert (E2 : c2 = b) by congruence end. rewrite E2. cbn [ch_key chain_set_key].
      unfold max_future in EM. unfold no_wrap in Hu. rewrite ck_iter_index; lia.
  - rewrite (receiver_chain_replaced_other _ _ _ _ _ HCH HPair Hk) in Hc'. apply HU1 in Hc'. subst. lia.
Qed.

(** * C12 *)

Lemma forged_uses_up : forall s m g o s' g' c, no_wrap m -> wf_state s ->
  s_sender s <> None -> sg_version (sm_struct m) = s_version s ->
  receiver_chain (sm_ratchet m) s = Some c ->
  (ck_index (ch_key c) <= sg_counter (sm_struct m) <= ck_index (ch_key c) + 5000)%N \/
    In (sg_counter (sm_struct m)) (indices c) ->
  decrypt_with_state C s m g = (o, s', g') ->
  used s' (sm_ratchet m) (sg_counter (sm_struct m)) /\ wf_state s'.
Proof.
  intros s m g o s' g' c Hu HW Hs Hv Hc Hn H. split; [|eapply dws_wf; eassumption].
  assert (Hck : chain_ok c) by (destruct HW as [_ HF]; rewrite Forall_forall in HF; apply HF; apply find_some in Hc; tauto).
  assert (HR : exists mk c', chain_receive C c (sg_counter (sm_struct m)) = Ok (mk, c')).
  { unfold chain_receive. destruct (sg_counter (sm_struct m) <? ck_index (ch_key c))%N eqn:E.
    - destruct Hn as [Hn|Hn]; [lia|].
      assert (EH : has_message_keys c (sg_counter (sm_struct m)) = true).
      { unfold has_message_keys. apply existsb_exists. unfold indices in Hn. apply in_map_iff in Hn.
        destruct Hn as (x & E1 & E2). exists x. split; [exact E2|lia]. }
      rewrite EH. destruct (remove_spec _ _ EH) as (a & x & b & _ & _ & ->). eauto.
    - destruct Hn as [Hn|Hn].
      + unfold max_future. replace (5000 <? sg_counter (sm_struct m) - ck_index (ch_key c))%N with false by lia. eauto.
      + destruct Hck as (_ & HF & _). rewrite Forall_forall in HF. specialize (HF _ Hn). lia. }
  destruct HR as (mk & c' & HR). unfold no_wrap in Hu.
  unfold decrypt_with_state in H. destruct (s_sender s); [|congruence]. rewrite Hv, Z.eqb_refl in H. cbn [negb] in H.
  rewrite (gcck_known C _ _ _ _ Hc) in H. rewrite (gcmk_spec C s (sm_ratchet m) c) in H by (auto; lia). rewrite HR in H.
  exists c'. destruct (receive_ok _ _ _ _ _ Hck Hu HR) as (_ & HCO & _). split; [|exact HCO].
  assert (HE : receiver_chain (sm_ratchet m) s' = receiver_chain (sm_ratchet m) (upd_chain (sm_ratchet m) (fun _ => c') s)).
  { destruct (s_remote_id _); [|injection H as _ <- _; reflexivity]. destruct (s_local_id _); [|injection H as _ <- _; reflexivity].
    destruct (verify_mac _ _ _ _ _ _) as [[]| |]; [|injection H as _ <- _; reflexivity|injection H as _ <- _; reflexivity].
    destruct (decrypt_with_key _ _ _); injection H as _ <- _; reflexivity. }
  rewrite HE. eapply receiver_chain_replaced; [exact Hc|]. eapply chain_receive_pair. exact HR.
Qed.

Lemma forged_blocks_genuine : forall s m g o s' g' c, no_wrap m -> wf_state s ->
  s_sender s <> None -> sg_version (sm_struct m) = s_version s ->
  receiver_chain (sm_ratchet m) s = Some c ->
  (ck_index (ch_key c) <= sg_counter (sm_struct m) <= ck_index (ch_key c) + 5000)%N \/
    In (sg_counter (sm_struct m)) (indices c) ->
  decrypt_with_state C s m g = (o, s', g') ->
  forall m2 g2 o2 s2 g2', sm_ratchet m2 = sm_ratchet m -> sg_counter (sm_struct m2) = sg_counter (sm_struct m) ->
    decrypt_with_state C s' m2 g2 = (o2, s2, g2') -> failed o2.
Proof.
  intros s m g o s' g' c Hu HW Hs Hv Hc Hn H m2 g2 o2 s2 g2' Ek En H2.
  destruct (forged_uses_up _ _ _ _ _ _ _ Hu HW Hs Hv Hc Hn H) as [HU _].
  eapply used_rejected; [| |exact H2]; [unfold no_wrap in *; rewrite En; exact Hu|rewrite Ek, En; exact HU].
Qed.

(** * C14, accept side; C48 *)

Lemma accepted_mac : forall s m g pt mk s' g', u32_msg m -> decrypt_with_state C s m g = (Ok (pt, mk), s', g') ->
  exists rid lid, s_remote_id s = Some rid /\ s_local_id s = Some lid /\ sg_version (sm_struct m) = s_version s /\
    verify_mac C m (s_version s) rid lid (mk_mac mk) = Ok tt /\ decrypt_with_key C m mk = Ok pt.
Proof.
  intros s m g pt mk s' g' Hu H. apply dws_cases in H; [|exact Hu].
  destruct H as [(HF & _)|(s1 & c & HP & Hs & Hv & HC)]; [exfalso; exact (HF _ eq_refl)|].
  destruct HC as [(HF & _)|(mk' & c' & HR & [(HF & _)|(pt' & rid & lid & E & _ & E1 & E2 & E3 & E4)])];
    [exfalso; exact (HF _ eq_refl)|exfalso; exact (HF _ eq_refl)|].
  injection E as <- <-. exists rid, lid. rewrite <- Hv. auto.
Qed.

Lemma returned_keys_decrypt : forall v m g pt mk r' es g', u32_msg m ->
  decrypt_and_get_key C v m g = (Ok (pt, mk), r', es, g') -> decrypt_with_key C m mk = Ok pt.
Proof.
  intros v m g pt mk r' es g' Hu H. unfold decrypt_and_get_key in H. destruct (negb (v_contains v)); [discriminate|].
  destruct (decrypt_with_record C (v_load v) m g) as [[[x|e|] r1] g1] eqn:E; [|discriminate|discriminate].
  destruct (s_remote_id (r_cur r1)); [|discriminate]. injection H as -> -> <- <-.
  destruct (dwr_ok_some_state _ _ _ _ _ _ E) as (s & h1 & h2 & _ & E2).
  destruct (accepted_mac _ _ _ _ _ _ _ Hu E2) as (rid & lid & _ & _ & _ & _ & E4). exact E4.
Qed.

Lemma returned_keys_decrypt_prekey : forall v m g pt mk r' es g', u32_msg (pm_message m) ->
  decrypt_message C v m g = (Ok (pt, mk), r', es, g') -> decrypt_with_key C (pm_message m) mk = Ok pt.
Proof.
  intros v m g pt mk r' es g' Hu H. unfold decrypt_message in H.
  destruct (process C v (v_load v) m) as [[[id|e|] rp] ef]; [|discriminate|discriminate].
  destruct (decrypt_with_record C rp (pm_message m) g) as [[[x|e|] r1] g1] eqn:E; [|discriminate|discriminate].
  destruct (dwr_ok_some_state _ _ _ _ _ _ E) as (s & h1 & h2 & _ & E2).
  destruct id; [|discriminate]. injection H as -> _ _ _.
  destruct (accepted_mac _ _ _ _ _ _ _ Hu E2) as (rid & lid & _ & _ & _ & _ & E4). exact E4.
Qed.

(** * C44 *)

Lemma archive_prev : forall s r, r_prev (promote_state s r) = firstn 40 (r_cur r :: r_prev r) \/ (40 < length (r_prev r))%nat.
Proof.
  intros s r. unfold promote_state. cbn [r_prev]. unfold archived_max.
  destruct (Nat.lt_ge_cases 40 (length (r_prev r))) as [H|H]; [auto|left].
  destruct (40 <? length (r_cur r :: r_prev r))%nat eqn:E.
  - rewrite removelast_firstn_len. f_equal. cbn [length] in *. lia.
  - rewrite firstn_all2; [reflexivity|]. lia.
Qed.

Lemma prep_prev : forall r, (length (r_prev r) <= 40)%nat ->
  (r_fresh r = false -> r_prev (prep_record r) = firstn 40 (r_cur r :: r_prev r) /\ r_cur (prep_record r) = new_state /\ r_fresh (prep_record r) = false) /\
  (r_fresh r = true -> prep_record r = r).
Proof.
  intros r HL. unfold prep_record. split; intros E; rewrite E; [|reflexivity]. split; [|split; [reflexivity|exact E]].
  unfold archive_current. destruct (archive_prev new_state r) as [H|H]; [exact H|lia].
Qed.

Lemma bundle_archives : forall v b g r' es g', (length (r_prev (v_load v)) <= 40)%nat ->
  process_bundle C v b g = (Ok tt, r', es, g') ->
  (r_fresh (v_load v) = false -> r_prev r' = firstn 40 (r_cur (v_load v) :: r_prev (v_load v))) /\
  (r_fresh (v_load v) = true -> r_prev r' = r_prev (v_load v)).
Proof.
  intros v b g r' es g' HL H. apply process_bundle_cases in H.
  destruct H as [(HF & _)|(signed & ob & ra & de & se & g1 & _ & _ & _ & _ & _ & _ & _ & _ & Er & _)]; [exfalso; exact (HF _ eq_refl)|].
  destruct (prep_prev _ HL) as [H1 H2]. rewrite Er. cbn [r_prev set_cur]. split; intros E; [apply H1; exact E|].
  rewrite (H2 E). reflexivity.
Qed.

Lemma prekey_message_archives : forall v m id r' ef, (length (r_prev (v_load v)) <= 40)%nat ->
  process C v (v_load v) m = (Ok id, r', ef) ->
  (has_session_state (pk_version (pm_struct m)) (ser_pub (pm_base m)) (v_load v) = true -> r' = v_load v) /\
  (has_session_state (pk_version (pm_struct m)) (ser_pub (pm_base m)) (v_load v) = false ->
    (r_fresh (v_load v) = false -> r_prev r' = firstn 40 (r_cur (v_load v) :: r_prev (v_load v))) /\
    (r_fresh (v_load v) = true -> r_prev r' = r_prev (v_load v))).
Proof.
  intros v m id r' ef HL H. unfold process in H. destruct (negb (v_trusted v (pm_identity m))); [discriminate|].
  destruct (process_v3 C v (v_load v) m) as [o3 r3] eqn:E3. destruct o3 as [id3|e3|]; [|discriminate|discriminate].
  injection H as -> <- _. destruct (prep_prev _ HL) as [H1 H2]. apply process_v3_cases in E3.
  destruct E3 as [[-> [HF|[E EH]]]|[[HF _]|(signed & otk & keys & E1 & E2 & E3 & E4 & E5 & E6)]];
    try (exfalso; exact (HF _ eq_refl)).
  - split; [auto|congruence].
  - split; [congruence|]. intros _. rewrite E6. cbn [r_prev set_cur]. split; intros E; [apply H1; exact E|].
    rewrite (H2 E). reflexivity.
Qed.

(** * C43, C46 *)

(** The fields of the next message. *)
Definition inner (ct : ct_msg) : sig_msg := match ct with CSignal m => m | CPreKey p => pm_message p end.

Lemma pk_fields : forall version reg id signed base ident sm pm, new_prekey_message version reg id signed base ident sm = Ok pm ->
  pk_reg (pm_struct pm) = reg /\ pk_prekey_id (pm_struct pm) = id /\ pk_signed_id (pm_struct pm) = signed /\
  pm_base pm = base /\ pm_identity pm = ident /\ pk_version (pm_struct pm) = version /\ sig_from_bytes (sig_msg_bytes sm) = Ok (pm_message pm).
Proof.
  intros version reg id signed base ident sm pm H. unfold new_prekey_message, pk_from_struct in H.
  cbn [pk_version pk_base pk_identity pk_message] in H.
  destruct (version <=? unsupported_version)%Z; [discriminate|]. destruct (version >? current_version)%Z; [discriminate|].
  rewrite !decode_ser_pub in H. cbn [bind] in H. destruct (sig_from_bytes (sig_msg_bytes sm)) as [m| |]; cbn [bind] in H; try discriminate.
  injection H as <-. repeat split.
Qed.

Lemma sig_fields_of_new : forall version counter prev key ratchet ct a b sm,
  new_signal_message C version counter prev key ratchet ct a b = Ok sm ->
  sg_counter (sm_struct sm) = counter /\ sg_prev (sm_struct sm) = prev /\ sm_ratchet sm = ratchet /\ sg_version (sm_struct sm) = version.
Proof.
  intros version counter prev key ratchet ct a b sm H. unfold new_signal_message in H.
  destruct (get_mac _ _ _ _ _ _) as [mac| |]; cbn [bind] in H; try discriminate.
  unfold sig_from_struct in H. cbn [sg_version sg_ct sg_ratchet] in H.
  destruct (version <=? unsupported_version)%Z; [discriminate|]. destruct (version >? current_version)%Z; [discriminate|].
  rewrite decode_ser_pub in H. cbn [bind] in H. injection H as <-. repeat split.
Qed.
End O.
