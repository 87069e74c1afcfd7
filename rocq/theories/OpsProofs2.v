(** OpsProofs2.v: C08, C13, C42, C43, C46, C50. *)
From Verif Require Import Base Labels Crypto Bytehelper Ecc Cbc Keys X3dh Messages SessionState SessionRecord
  SessionBuilder SessionCipher Address World Toy WireProofs CodecProofs CodecProofs2 CryptoProofs SessionProofs SerialProofs SessionSpec
  HistoryProofs InvariantProofs ReplayProofs OpsProofs.
From Coq Require Import ZifyBool ZifyN ZifyNat.

Section O.
Context (C : crypto).

(** * C46 *)

Lemma encrypt_kind : forall v pt ct r' es, encrypt C v pt = (Ok ct, r', es) ->
  match s_pending (r_cur (v_load v)) with
  | None => exists sm, ct = CSignal sm
  | Some p => exists pm, ct = CPreKey pm /\ pk_prekey_id (pm_struct pm) = pp_id p /\ pk_signed_id (pm_struct pm) = pp_signed p /\
      pm_base pm = pp_base p /\ Some (pm_identity pm) = s_local_id (r_cur (v_load v)) /\
      pk_reg (pm_struct pm) = s_local_reg (r_cur (v_load v))
  end /\ s_pending (r_cur r') = s_pending (r_cur (v_load v)).
Proof.
  intros v pt ct r' es H. apply encrypt_cases in H.
  destruct H as [(HF & _)|(sc & body & lid & rid & sm & ct' & H)]; [exfalso; exact (HF ct eq_refl)|].
  cbv zeta in H. destruct H as (E1 & _ & E3 & _ & _ & E6 & E7 & -> & _). injection E7 as ->. split.
  - destruct (s_pending (r_cur (v_load v))) as [p|]; [|eauto].
    destruct E6 as (pm & E & ->). exists pm. apply pk_fields in E. destruct E as (A1 & A2 & A3 & A4 & A5 & A6 & _).
    rewrite E3. repeat split; congruence.
  - cbn [r_cur set_cur]. unfold set_sender_chain_key. rewrite E1. reflexivity.
Qed.

Lemma decrypt_pending : forall s m g o s' g', u32_msg m -> decrypt_with_state C s m g = (o, s', g') ->
  (failed o /\ s_pending s' = s_pending s) \/ ((exists x, o = Ok x) /\ s_pending s' = None).
Proof.
  intros s m g o s' g' Hu H. apply dws_cases in H; [|exact Hu].
  destruct H as [(HF & ->)|(s1 & c & HP & _ & _ & HC)]; [auto|].
  destruct (prepared_ids _ _ _ _ _ _ _ HP) as (_ & _ & _ & _ & HPe & _).
  destruct HC as [(HF & -> & _)|(mk & c' & HR & [(HF & ->)|(pt & rid & lid & -> & -> & _)])]; [auto|auto|].
  right. split; [eauto|reflexivity].
Qed.

Lemma acknowledged_forever : forall s s', state_step C s s' -> s_pending s = None -> s_pending s' = None.
Proof.
  intros s s' HS H. destruct HS as [s m g o s' g' Hu H1|v pt ct r' es H1|s t s' H1 H2].
  - apply decrypt_pending in H1; [|unfold no_wrap, u32_msg in *; lia]. destruct H1 as [[_ ->]|[_ ->]]; auto.
  - apply encrypt_kind in H1. destruct H1 as [_ ->]. exact H.
  - apply state_roundtrip in H1. congruence.
Qed.

(** * C43 *)

Lemma dws_sender : forall s m g o s' g', u32_msg m -> decrypt_with_state C s m g = (o, s', g') ->
  (s_sender s' = s_sender s /\ s_prev_counter s' = s_prev_counter s /\ s_root s' = s_root s) \/
  (receiver_chain (sm_ratchet m) s = None /\ exists sc ours ck, s_sender s = Some sc /\
    s_sender s' = Some {| ch_pair := ours; ch_key := ck; ch_msgs := [] |} /\ ck_index ck = 0%N /\
    (exists g1, generate_key_pair C g = (Ok ours, g1)) /\
    s_prev_counter s' = N.max (u32_sub (ck_index (ch_key sc)) 1) 0 /\ receiver_chain (sm_ratchet m) s' <> None).
Proof.
  intros s m g o s' g' Hu H. apply dws_cases in H; [|exact Hu].
  destruct H as [(HF & ->)|(s1 & c & HP & _ & _ & HC)]; [auto|].
  assert (HCH := prepared_chain _ _ _ _ _ _ _ HP).
  assert (HS1 : s_sender s' = s_sender s1 /\ s_prev_counter s' = s_prev_counter s1 /\ s_root s' = s_root s1 /\ receiver_chain (sm_ratchet m) s' <> None).
  { destruct HC as [(HF & -> & _)|(mk & c' & HR & HC)]; [rewrite HCH; repeat split; discriminate|].
    assert (HX := receiver_chain_replaced _ _ _ _ HCH (chain_receive_pair _ _ _ _ _ HR)).
    destruct HC as [(HF & ->)|(pt & rid & lid & -> & -> & _)].
    - rewrite HX. repeat split. discriminate.
    - repeat split. change (receiver_chain (sm_ratchet m) (upd_chain (sm_ratchet m) (fun _ => c') s1) <> None). rewrite HX. discriminate. }
  destruct HS1 as (E1 & E2 & E3 & E4). rewrite E1, E2, E3.
  destruct HP as [(H & -> & _)|(H & root & sc & recv & send & ours & A1 & A2 & A3 & A4 & A5 & _ & ->)]; [auto|].
  right. split; [exact H|]. exists sc, ours, (sk_chain send). split; [exact A2|]. split; [reflexivity|].
  split; [eapply create_chain_index; exact A5|]. split; [eauto|]. split; [reflexivity|exact E4].
Qed.

Lemma prev_counter_value : forall i, (i < u32_modulus)%N ->
  N.max (u32_sub i 1) 0 = if (i =? 0)%N then 4294967295%N else (i - 1)%N.
Proof.
  intros i H. destruct (i =? 0)%N eqn:E.
  - replace i with 0%N by lia. reflexivity.
  - rewrite u32_sub_small; unfold u32_modulus in *; lia.
Qed.

Lemma encrypt_header : forall v pt ct r' es, encrypt C v pt = (Ok ct, r', es) ->
  exists sc sm, s_sender (r_cur (v_load v)) = Some sc /\
    sg_counter (sm_struct sm) = ck_index (ch_key sc) /\ sm_ratchet sm = kp_pub (ch_pair sc) /\
    sg_prev (sm_struct sm) = s_prev_counter (r_cur (v_load v)) /\
    (ct = CSignal sm \/ exists pm, ct = CPreKey pm /\ sig_from_bytes (sig_msg_bytes sm) = Ok (pm_message pm)) /\
    s_sender (r_cur r') = Some {| ch_pair := ch_pair sc; ch_key := next_key C (ch_key sc); ch_msgs := ch_msgs sc |} /\
    s_prev_counter (r_cur r') = s_prev_counter (r_cur (v_load v)).
Proof.
  intros v pt ct r' es H. apply encrypt_cases in H.
  destruct H as [(HF & _)|(sc & body & lid & rid & sm & ct' & H)]; [exfalso; exact (HF ct eq_refl)|].
  cbv zeta in H. destruct H as (E1 & _ & E3 & _ & E5 & E6 & E7 & -> & _). injection E7 as ->.
  apply sig_fields_of_new in E5. destruct E5 as (A & B & D & _).
  exists sc, sm. split; [exact E1|]. split; [exact A|]. split; [exact D|]. split; [exact B|]. split.
  - destruct (s_pending (r_cur (v_load v))) as [p|]; [|auto]. right.
    destruct E6 as (pm & E & ->). exists pm. split; [reflexivity|]. apply pk_fields in E. tauto.
  - cbn [r_cur set_cur]. unfold set_sender_chain_key. rewrite E1. split; reflexivity.
Qed.

Lemma encrypt_current : forall v pt ct r' es, encrypt C v pt = (Ok ct, r', es) ->
  exists sc, s_sender (r_cur (v_load v)) = Some sc /\ r_cur r' = set_sender_chain_key (next_key C (ch_key sc)) (r_cur (v_load v)).
Proof.
  intros v pt ct r' es H. apply encrypt_cases in H.
  destruct H as [(HF & _)|(sc & body & lid & rid & sm & ct' & H)]; [exfalso; exact (HF ct eq_refl)|].
  cbv zeta in H. destruct H as (E1 & _ & _ & _ & _ & _ & _ & -> & _). exists sc. split; [exact E1|reflexivity].
Qed.

(** * C42 *)

Context (L : crypto_laws C).

Lemma encrypt_inner : forall v pt ct r' es, ready (r_cur (v_load v)) -> (N.of_nat (length pt) + 16 < 9223372036854775808)%N ->
  encrypt C v pt = (Ok ct, r', es) ->
  exists sc, s_sender (r_cur (v_load v)) = Some sc /\ sg_counter (sm_struct (inner_msg ct)) = ck_index (ch_key sc) /\
    sm_ratchet (inner_msg ct) = kp_pub (ch_pair sc) /\ sg_prev (sm_struct (inner_msg ct)) = s_prev_counter (r_cur (v_load v)).
Proof.
  intros v pt ct r' es HR Hfit H. apply encrypt_cases in H.
  destruct H as [(HF & _)|(sc & body & lid & rid & sm & ct' & H)]; [exfalso; exact (HF ct eq_refl)|].
  cbv zeta in H. destruct H as (E1 & E2 & E3 & _ & E5 & E6 & E7 & _ & _). injection E7 as ->.
  destruct HR as (Hv & Hpc & Hkx & HF & lid' & rid' & root' & base & sc' & priv & H1 & H2 & H3 & H4 & H5 & H6 & H7 & H8 & H9 & H10).
  assert (sc' = sc) by congruence. subst sc'. exists sc. split; [exact E1|].
  assert (HIn : inner_msg ct' = sm).
  { destruct (s_pending (r_cur (v_load v))) as [p|]; [|subst; reflexivity]. destruct E6 as (pm & E & ->).
    apply pk_fields in E. destruct E as (_ & _ & _ & _ & _ & _ & E). cbn [inner_msg].
    destruct (message_keys_sized C L (ch_key sc)) as (S1 & S2 & S3).
    assert (HK : aes_key_ok (mk_cipher (message_keys C (ch_key sc))) = true) by (unfold aes_key_ok; rewrite S1; reflexivity).
    destruct (cbc_roundtrip_given C L (mk_iv (message_keys C (ch_key sc))) (mk_cipher (message_keys C (ch_key sc))) pt HK S3)
      as (body' & EB & _ & _ & HL).
    assert (HFB : fits body) by (unfold fits; rewrite EB in E2; injection E2 as <-; lia).
    rewrite Hv in E5. rewrite (new_signal_message_roundtrip C _ _ _ _ _ _ _ _ (law_hmac_len C L) H9 Hpc HFB E5) in E. congruence. }
  rewrite HIn. apply sig_fields_of_new in E5. tauto.
Qed.

Definition fresh_enough (sent : list (arr32 * N)) (keys : list arr32) (s : state) : Prop :=
  NoDup sent /\ (forall k n, In (k, n) sent -> In k keys) /\
  exists sc, s_sender s = Some sc /\ In (kp_pub (ch_pair sc)) keys /\
    (forall n, In (kp_pub (ch_pair sc), n) sent -> (n < ck_index (ch_key sc))%N).

Lemma sender_new_or_ready : forall s, new_or_ready s -> sender_key s <> None -> ready s.
Proof. intros s [-> |H] HS; [exfalso; apply HS; reflexivity|exact H]. Qed.

Lemma ready_no_save : forall s t s', ready s -> state_structure s = Ok t -> state_from_structure t = Ok s' -> ready s' /\ s_sender s' = s_sender s.
Proof. intros s t s' HR H1 H2. assert (E := state_roundtrip _ _ H1). assert (s' = s) by congruence. subst. auto. Qed.

Lemma life_fresh : forall sent keys s, sending_life C sent keys s -> ready s /\ fresh_enough sent keys s.
Proof.
  intros sent keys s H. induction H as [r k HR Hk|sent keys v pt ct r' es HL IH HE Hw Hfit|sent keys s m g o s' g' HL IH Hu HD HS
    |sent keys s m g o s' g' k HL IH Hu HD HS HN|sent keys s t s' HL IH H1 H2].
  - assert (HA := reachable_ready C L _ HR). inversion HA as [|? ? HB _]; subst.
    split; [apply sender_new_or_ready; [exact HB|congruence]|]. split; [constructor|]. split; [intros ? ? []|].
    unfold sender_key in Hk. destruct (s_sender (r_cur r)) as [sc|]; [|discriminate]. injection Hk as <-.
    exists sc. split; [reflexivity|]. split; [left; reflexivity|intros n []].
  - destruct IH as (HR & HN & HK & sc & E1 & E2 & E3).
    destruct (encrypt_inner _ _ _ _ _ HR Hfit HE) as (sc' & A1 & A2 & A3 & _).
    assert (sc' = sc) by congruence. subst sc'.
    destruct (encrypt_header _ _ _ _ _ HE) as (sc' & sm & B1 & _ & _ & _ & _ & B6 & _). assert (sc' = sc) by congruence. subst sc'.
    split.
    { apply sender_new_or_ready; [|unfold sender_key; rewrite B6; discriminate].
      assert (HE2 := encrypt_current _ _ _ _ _ HE). destruct HE2 as (sc' & D1 & ->). assert (sc' = sc) by congruence. subst sc'.
      exact (inv_encrypt _ _ _ (ready_inv C L) _ _ (or_intror HR) E1). }
    rewrite A2, A3. rewrite A2 in Hw. split.
    + constructor; [|exact HN]. intros HI. apply E3 in HI. lia.
    + split; [intros k n [HI|HI]; [injection HI as <- <-; exact E2|eauto]|].
      exists {| ch_pair := ch_pair sc; ch_key := next_key C (ch_key sc); ch_msgs := ch_msgs sc |}. split; [exact B6|].
      cbn [ch_pair ch_key]. split; [exact E2|]. intros n HI.
      assert (HX : (ck_index (next_key C (ch_key sc)) = ck_index (ch_key sc) + 1)%N) by
        (cbn [next_key ck_index]; apply u32_add_small; lia).
      rewrite HX. destruct HI as [HI|HI]; [injection HI as <-; lia|apply E3 in HI; lia].
  - destruct IH as (HR & HF). split; [eapply dws_ready; eauto|]. unfold fresh_enough in *. rewrite HS. exact HF.
  - destruct IH as (HR & HND & HK & sc & E1 & E2 & E3). split; [eapply dws_ready; eauto|].
    split; [exact HND|]. split; [intros k' n HI; right; eauto|].
    destruct (dws_sender _ _ _ _ _ _ Hu HD) as [(F1 & _)|(_ & sc' & ours & ck & F1 & F2 & F3 & _)].
    + exfalso. apply HN. unfold sender_key in HS. rewrite F1, E1 in HS. injection HS as <-. exact E2.
    + unfold sender_key in HS. rewrite F2 in HS. injection HS as <-. eexists. split; [exact F2|]. cbn [ch_pair].
      split; [left; reflexivity|]. intros n HI. exfalso. apply HN. eauto.
  - destruct IH as (HR & HF). destruct (ready_no_save _ _ _ HR H1 H2) as (HR' & HS). split; [exact HR'|].
    unfold fresh_enough in *. rewrite HS. exact HF.
Qed.

(** * C08 *)

(** A state that refuses a message under every randomness still does so after a failed attempt with it. *)
Lemma refusal_stays : forall s m g o s' g', no_wrap m -> wf_state s -> decrypt_with_state C s m g = (o, s', g') -> failed o ->
  s' = s \/ ~ accepts C s' m.
Proof.
  intros s m g o s' g' Hu HW H HF. assert (Hu' : u32_msg m) by (unfold no_wrap, u32_msg in *; lia).
  apply dws_cases in H; [|exact Hu']. destruct H as [(_ & ->)|(s1 & c & HP & _ & _ & HC)]; [auto|].
  assert (HCH := prepared_chain _ _ _ _ _ _ _ HP). right.
  assert (HB1 := prepared_wf _ _ _ _ _ _ _ HP HW).
  assert (Hck : chain_ok c) by (destruct HB1 as [_ HX]; rewrite Forall_forall in HX; apply HX; eapply prepared_in; exact HP).
  destruct HC as [(_ & -> & HR)|(mk & c' & HR & [(_ & ->)|(pt & rid & lid & -> & _)])]; [| |exfalso; exact (HF _ eq_refl)].
  - intros (g2 & x & s2 & g3 & H2). apply dws_cases in H2; [|exact Hu'].
    destruct H2 as [(HF2 & _)|(s3 & c3 & HP3 & _ & _ & HC3)]; [exact (HF2 _ eq_refl)|].
    destruct HP3 as [(E3 & -> & _)|(E3 & _)]; [|congruence]. assert (c3 = c) by congruence. subst c3.
    destruct HC3 as [(HF3 & _)|(mk3 & c3' & HR3 & _)]; [exact (HF3 _ eq_refl)|exact (HR _ HR3)].
  - intros (g2 & x & s2 & g3 & H2).
    assert (HU : used (upd_chain (sm_ratchet m) (fun _ => c') s1) (sm_ratchet m) (sg_counter (sm_struct m))).
    { exists c'. split; [eapply receiver_chain_replaced; [exact HCH|eapply chain_receive_pair; exact HR]|].
      destruct (receive_ok _ _ _ _ _ Hck Hu HR) as (_ & X & _). exact X. }
    destruct (used_rejected _ _ _ _ _ _ _ Hu HU H2) as [HF2 _]. exact (HF2 _ eq_refl).
Qed.

Lemma accepted_then_refuses : forall s m g x s' g', no_wrap m -> wf_state s -> decrypt_with_state C s m g = (Ok x, s', g') -> ~ accepts C s' m.
Proof.
  intros s m g [pt mk] s' g' Hu HW H (g2 & x2 & s2 & g3 & H2).
  destruct (used_rejected _ _ _ _ _ _ _ Hu (accept_uses _ _ _ _ _ _ _ _ Hu HW H) H2) as [HF _]. exact (HF _ eq_refl).
Qed.

Lemma never_accepts_after : forall s m g o s' g', no_wrap m -> wf_state s -> decrypt_with_state C s m g = (o, s', g') ->
  ~ accepts C s m -> ~ accepts C s' m.
Proof.
  intros s m g o s' g' Hu HW H HN. assert (HF : failed o) by (intros x ->; apply HN; exists g, x, s', g'; exact H).
  destruct (refusal_stays _ _ _ _ _ _ Hu HW H HF) as [->|X]; assumption.
Qed.

Lemma try_prev_replay : forall m, no_wrap m -> forall l g i x l' g', Forall wf_state l ->
  try_prev C l m g = (Ok (i, x), l', g') ->
  (forall j t, nth_error l j = Some t -> j <> i -> ~ accepts C t m) -> Forall (fun t => ~ accepts C t m) l'.
Proof.
  intros m Hu l. induction l as [|s l IH]; intros g i x l' g' HW H HN; cbn [try_prev] in H; [discriminate|].
  inversion HW as [|? ? W1 W2]; subst.
  destruct (decrypt_with_state C s m g) as [[[y|e|] s'] g1] eqn:E.
  - injection H as <- <- <- <-. constructor; [eapply accepted_then_refuses; eassumption|].
    apply Forall_forall. intros t Ht. apply In_nth_error in Ht. destruct Ht as [j Hj]. apply (HN (S j)); [exact Hj|discriminate].
  - destruct (try_prev C l m g1) as [[[[j y]|e'|] l2] g2] eqn:E2; try discriminate. injection H as <- <- <- <-.
    constructor; [eapply never_accepts_after; [exact Hu|exact W1|exact E|apply (HN 0%nat); [reflexivity|discriminate]]|].
    eapply IH; [exact W2|exact E2|]. intros j' t Hj Hne. apply (HN (S j')); [exact Hj|congruence].
  - discriminate.
Qed.

Lemma try_prev_refuses : forall m l g o l' g', Forall (fun t => ~ accepts C t m) l -> try_prev C l m g = (o, l', g') -> failed o.
Proof.
  intros m l. induction l as [|s l IH]; intros g o l' g' HF H; cbn [try_prev] in H.
  - injection H as <- _ _. intros x. discriminate.
  - inversion HF as [|? ? F1 F2]; subst. destruct (decrypt_with_state C s m g) as [[[y|e|] s'] g1] eqn:E.
    + exfalso. apply F1. exists g, y, s', g1. exact E.
    + destruct (try_prev C l m g1) as [[[[j y]|e'|] l2] g2] eqn:E2; [exfalso; exact (IH _ _ _ _ F2 E2 _ eq_refl)| |];
        injection H as <- _ _; intros x; discriminate.
    + injection H as <- _ _. intros x. discriminate.
Qed.

Lemma record_refuses : forall m r g o r' g', Forall (fun t => ~ accepts C t m) (states r) ->
  decrypt_with_record C r m g = (o, r', g') -> failed o.
Proof.
  intros m r g o r' g' HF H. unfold states in HF. inversion HF as [|? ? F1 F2]; subst. unfold decrypt_with_record in H.
  destruct (decrypt_with_state C (r_cur r) m g) as [[[y|e|] s'] g1] eqn:E.
  - exfalso. apply F1. exists g, y, s', g1. exact E.
  - destruct (try_prev C (r_prev r) m g1) as [[ot l2] g2] eqn:E2. assert (HX := try_prev_refuses _ _ _ _ _ _ F2 E2).
    destruct ot as [[i y]|e'|]; [exfalso; exact (HX _ eq_refl)| |]; injection H as <- _ _; intros x; discriminate.
  - injection H as <- _ _. intros x. discriminate.
Qed.

(** After acceptance, if no other session of the record accepted the message, none accepts it again. *)
Lemma dwr_replay : forall r m g x r' g', no_wrap m -> Forall wf_state (states r) ->
  decrypt_with_record C r m g = (Ok x, r', g') ->
  (exists pre s post, states r = pre ++ s :: post /\ forall t, In t (pre ++ post) -> ~ accepts C t m) ->
  Forall (fun t => ~ accepts C t m) (states r').
Proof.
  intros r m g x r' g' Hu HW H (pre & s & post & Est & HN). unfold states in HW. inversion HW as [|? ? W1 W2]; subst.
  unfold decrypt_with_record in H.
  destruct (decrypt_with_state C (r_cur r) m g) as [[[y|e|] s'] g1] eqn:E; [| |discriminate].
  - injection H as <- <- <-. destruct pre as [|t pre].
    + injection Est as <- Ep. constructor; [eapply accepted_then_refuses; eassumption|].
      cbn [r_prev set_cur]. rewrite Ep. apply Forall_forall. intros t Ht. apply HN. exact Ht.
    + injection Est as <- Ep. exfalso. apply (HN (r_cur r)); [left; reflexivity|]. exists g, y, s', g1. exact E.
  - destruct (try_prev C (r_prev r) m g1) as [[[[i y]|e'|] l] g2] eqn:E2; [|discriminate|discriminate].
    destruct (nth_error l i) as [st|] eqn:EN; [|discriminate]. injection H as <- <- <-.
    assert (HCur : ~ accepts C s' m).
    { destruct pre as [|t pre].
      - exfalso. injection Est as Es Ep. destruct (try_prev_ok _ _ _ _ _ _ _ _ E2) as (p1 & s0 & q1 & p1' & s0' & h1 & h2 & A & B & D & F & G & I).
        apply (HN s0); [cbn [app]; rewrite <- Ep, A; apply in_app_iff; right; left; reflexivity|]. exists h1, y, s0', h2. exact G.
      - injection Est as Es Ep. eapply never_accepts_after; [exact Hu|exact W1|exact E|]. apply HN. left. symmetry. exact Es. }
    assert (HL : Forall (fun t => ~ accepts C t m) l).
    { destruct pre as [|t pre].
      - exfalso. injection Est as Es Ep. destruct (try_prev_ok _ _ _ _ _ _ _ _ E2) as (p1 & s0 & q1 & p1' & s0' & h1 & h2 & A & B & D & F & G & I).
        apply (HN s0); [cbn [app]; rewrite <- Ep, A; apply in_app_iff; right; left; reflexivity|]. exists h1, y, s0', h2. exact G.
      - injection Est as Es Ep. eapply try_prev_replay; [exact Hu|exact W2|exact E2|]. intros j t' Hj Hne.
        destruct (try_prev_ok _ _ _ _ _ _ _ _ E2) as (p1 & s0 & q1 & p1' & s0' & h1 & h2 & A & B & D & F & G & I).
        assert (Hi : i = length pre).
        { destruct (lt_eq_lt_dec i (length pre)) as [[Hlt|He]|Hgt]; [|exact He|].
          - exfalso. apply (HN s0); [|exists h1, y, s0', h2; exact G]. right. apply in_app_iff. left.
            assert (E0 : nth_error (r_prev r) i = Some s0) by (rewrite A, nth_error_app2, <- B, Nat.sub_diag by lia; reflexivity).
            rewrite Ep, nth_error_app1 in E0 by exact Hlt. eapply nth_error_In. exact E0.
          - exfalso. apply (HN s0); [|exists h1, y, s0', h2; exact G]. right. apply in_app_iff. right.
            assert (E0 : nth_error (r_prev r) i = Some s0) by (rewrite A, nth_error_app2, <- B, Nat.sub_diag by lia; reflexivity).
            rewrite Ep, nth_error_app2 in E0 by lia. destruct (i - length pre)%nat as [|d] eqn:Ed; [lia|]. eapply nth_error_In. exact E0. }
        apply HN. right. apply in_app_iff. rewrite Ep in Hj.
        destruct (lt_dec j (length pre)) as [Hlt|Hge].
        + left. rewrite nth_error_app1 in Hj by exact Hlt. eapply nth_error_In. exact Hj.
        + right. rewrite nth_error_app2 in Hj by lia. destruct (j - length pre)%nat as [|d] eqn:Ed; [lia|]. eapply nth_error_In. exact Hj. }
    apply promote_states.
    + rewrite Forall_forall in HL. apply HL. eapply nth_error_In. exact EN.
    + constructor; [exact HCur|]. cbn [r_prev set_prev]. apply Forall_forall. intros t Ht. rewrite Forall_forall in HL. apply HL.
      apply go_delete_shared_incl in Ht. exact Ht.
Qed.

(** * C13 *)

Lemma late_message_shape : forall r m g x r' g' e s' g1, (length (r_prev r) <= 40)%nat ->
  decrypt_with_state C (r_cur r) m g = (Err e, s', g1) ->
  decrypt_with_record C r m g = (Ok x, r', g') -> hd_error (r_prev r') = Some s'.
Proof.
  intros r m g x r' g' e s' g1 HL H1 H2. unfold decrypt_with_record in H2. rewrite H1 in H2.
  destruct (try_prev C (r_prev r) m g1) as [[[[i y]|e'|] l] g2] eqn:E2; [|discriminate|discriminate].
  destruct (nth_error l i) as [st|]; [|discriminate]. injection H2 as <- <- <-.
  unfold promote_state. cbn [r_prev r_cur set_prev set_cur r_fresh].
  destruct (archived_max <? _)%nat eqn:EA; [|reflexivity].
  destruct (go_delete_shared i l) as [|t l']; [|reflexivity]. cbn in EA. discriminate.
Qed.

Lemma unchanged_on_refusal : forall s m g, u32_msg m -> 
  (s_sender s = None \/ sg_version (sm_struct m) <> s_version s \/
   exists c, receiver_chain (sm_ratchet m) s = Some c /\
     (((sg_counter (sm_struct m) < ck_index (ch_key c))%N /\ ~ In (sg_counter (sm_struct m)) (indices c)) \/
      (ck_index (ch_key c) + 5000 < sg_counter (sm_struct m))%N)) ->
  exists e, decrypt_with_state C s m g = (Err e, s, g).
Proof.
  intros s m g Hu H. unfold decrypt_with_state. destruct (s_sender s) as [sc0|] eqn:Es; [|eauto].
  destruct (sg_version (sm_struct m) =? s_version s)%Z eqn:Ev; cbn [negb]; [|eauto].
  destruct H as [H|[H|(c & Hc & H)]]; [discriminate|lia|].
  rewrite (gcck_known C _ _ _ _ Hc), (gcmk_spec C _ _ _ _ Hu Hc).
  destruct H as [[H1 H2]|H].
  - rewrite (consumed_rejected C c); [eauto|split; assumption].
  - unfold chain_receive. replace (sg_counter (sm_struct m) <? ck_index (ch_key c))%N with false by lia.
    unfold max_future. replace (5000 <? sg_counter (sm_struct m) - ck_index (ch_key c))%N with true by lia. eauto.
Qed.

(** A message with an unknown ratchet key, refused or not, has replaced the sending ratchet key. *)
Lemma foreign_key_ratchets : forall s m seed g o s' g', u32_msg m -> ready s -> sg_version (sm_struct m) = s_version s ->
  receiver_chain (sm_ratchet m) s = None -> decrypt_with_state C s m (Some seed :: g) = (o, s', g') ->
  sender_key s' = Some (x_base C (clamp (to_arr 32 seed))) /\ receiver_chain (sm_ratchet m) s' <> None.
Proof.
  intros s m seed g o s' g' Hu HR Hv Hn H.
  destruct HR as (_ & _ & _ & _ & lid & rid & root & base & sc & priv & H1 & H2 & H3 & H4 & H5 & H6 & H7 & _).
  assert (EG : exists recv send, get_or_create_chain_key C s (sm_ratchet m) (Some seed :: g) =
      (Ok (sk_chain recv), ratcheted s (sm_ratchet m) recv send (pair_of C (clamp (to_arr 32 seed))) (ck_index (ch_key sc)), g)).
  { unfold get_or_create_chain_key. rewrite Hn, H3, H6.
    rewrite (create_chain_ok C root (sm_ratchet m) (ch_pair sc) priv H7). unfold generate_key_pair. cbn [rng_read].
    erewrite create_chain_ok by reflexivity. eexists. eexists. reflexivity. }
  destruct EG as (recv & send & EG). unfold decrypt_with_state in H. rewrite H6, Hv, Z.eqb_refl, EG in H. cbn [negb] in H.
  set (s1 := ratcheted s (sm_ratchet m) recv send (pair_of C (clamp (to_arr 32 seed))) (ck_index (ch_key sc))) in *.
  assert (HC : receiver_chain (sm_ratchet m) s1 = Some (fresh_chain (sm_ratchet m) (sk_chain recv))) by (apply receiver_chain_ratcheted; exact Hn).
  assert (HK : sender_key s1 = Some (x_base C (clamp (to_arr 32 seed)))) by reflexivity.
  change (sk_chain recv) with (ch_key (fresh_chain (sm_ratchet m) (sk_chain recv))) in H at 1.
  rewrite (gcmk_spec C _ _ _ _ Hu HC) in H.
  destruct (chain_receive C (fresh_chain (sm_ratchet m) (sk_chain recv)) (sg_counter (sm_struct m))) as [[mk c']|e0|] eqn:ER.
  - assert (HX := receiver_chain_replaced _ _ _ _ HC (chain_receive_pair _ _ _ _ _ ER)).
    assert (HS : s' = upd_chain (sm_ratchet m) (fun _ => c') s1 \/ s' = set_pending None (upd_chain (sm_ratchet m) (fun _ => c') s1)).
    { destruct (s_remote_id _); [|injection H as _ <- _; auto]. destruct (s_local_id _); [|injection H as _ <- _; auto].
      destruct (verify_mac _ _ _ _ _ _) as [[]| |]; [|injection H as _ <- _; auto|injection H as _ <- _; auto].
      destruct (decrypt_with_key _ _ _); injection H as _ <- _; auto. }
    destruct HS as [-> | ->]; (split; [exact HK|]).
    + rewrite HX. discriminate.
    + change (receiver_chain (sm_ratchet m) (upd_chain (sm_ratchet m) (fun _ => c') s1) <> None). rewrite HX. discriminate.
  - injection H as _ <- _. split; [exact HK|congruence].
  - injection H as _ <- _. split; [exact HK|congruence].
Qed.

(** * C50 *)

Lemma next_index : forall ck, (ck_index ck < u32_modulus)%N ->
  ck_index (next_key C ck) = if (ck_index ck =? u32_modulus - 1)%N then 0%N else (ck_index ck + 1)%N.
Proof.
  intros ck H. cbn [next_key ck_index]. destruct (ck_index ck =? u32_modulus - 1)%N eqn:E.
  - replace (ck_index ck) with (u32_modulus - 1)%N by lia. reflexivity.
  - apply u32_add_small. lia.
Qed.

Lemma wrap_receive : forall s m g x s' g', sg_counter (sm_struct m) = (u32_modulus - 1)%N ->
  (forall c, receiver_chain (sm_ratchet m) s = Some c -> (ck_index (ch_key c) < u32_modulus)%N /\ ~ In (u32_modulus - 1)%N (indices c)) ->
  decrypt_with_state C s m g = (Ok x, s', g') ->
  exists c', receiver_chain (sm_ratchet m) s' = Some c' /\ ck_index (ch_key c') = 0%N.
Proof.
  intros s m g x s' g' En HI H. apply dws_cases in H; [|rewrite En; reflexivity].
  destruct H as [(HF & _)|(s1 & c & HP & _ & _ & HC)]; [exfalso; exact (HF _ eq_refl)|].
  assert (HCH := prepared_chain _ _ _ _ _ _ _ HP).
  destruct HC as [(HF & _)|(mk' & c' & HR & [(HF & _)|(pt' & rid & lid & _ & -> & _)])];
    [exfalso; exact (HF _ eq_refl)|exfalso; exact (HF _ eq_refl)|].
  exists c'. split; [exact (receiver_chain_replaced _ _ _ _ HCH (chain_receive_pair _ _ _ _ _ HR))|].
  assert (Hc : (ck_index (ch_key c) < u32_modulus)%N /\ ~ In (u32_modulus - 1)%N (indices c)).
  { destruct HP as [(H & _)|(H & root & sc & recv & send & ours & _ & _ & E1 & _ & _ & -> & _)]; [apply HI; exact H|].
    cbn [fresh_chain ch_key indices ch_msgs map]. rewrite (create_chain_index _ _ _ _ _ E1). split; [reflexivity|intros []]. }
  destruct Hc as [Hc1 Hc2]. unfold chain_receive in HR. rewrite En in HR.
  destruct (u32_modulus - 1 <? ck_index (ch_key c))%N eqn:EL; [lia|].
  destruct (max_future <? _)%N eqn:EM; [discriminate|]. cbv zeta in HR.
  match type of HR with Ok (_, ?b) = _ => assert (E2 : c' = b) by congruence end. rewrite E2. cbn [ch_key chain_set_key].
  rewrite ck_iter_snoc. rewrite next_index; rewrite ck_iter_index; try lia.
  replace (ck_index (ch_key c) + N.of_nat (N.to_nat (u32_modulus - 1 - ck_index (ch_key c))) =? u32_modulus - 1)%N with true by lia. reflexivity.
Qed.
End O.
