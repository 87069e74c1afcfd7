(** InvariantProofs.v: the invariants behind C07, C09, C47. *)
From Verif Require Import Base Labels Crypto Bytehelper Ecc Cbc Keys X3dh Messages SessionState SessionRecord
  SessionBuilder SessionCipher Address World Toy WireProofs CodecProofs CodecProofs2 CryptoProofs SessionProofs SerialProofs SessionSpec
  HistoryProofs.
From Coq Require Import ZifyBool ZifyN ZifyNat.

Section I.
Context (C : crypto).

(** * A generic way to show that an invariant of receiver chains is kept *)

Lemma add_receiver_chain_recv : forall k ck s,
  s_recv (add_receiver_chain k ck s) =
  let l := s_recv s ++ [fresh_chain k ck] in if (max_receiver_chains <? length l)%nat then tl l else l.
Proof. reflexivity. Qed.

Lemma Forall_tl : forall A (P : A -> Prop) l, Forall P l -> Forall P (tl l).
Proof. intros A P l H. destruct H; [constructor|assumption]. Qed.

Lemma add_receiver_chain_Forall : forall (P : chain -> Prop) k ck s, Forall P (s_recv s) -> P (fresh_chain k ck) ->
  Forall P (s_recv (add_receiver_chain k ck s)).
Proof.
  intros P k ck s H Hn. rewrite add_receiver_chain_recv. cbv zeta.
  assert (HA : Forall P (s_recv s ++ [fresh_chain k ck])) by (apply Forall_app; auto).
  destruct (_ <? _)%nat; [apply Forall_tl|]; exact HA.
Qed.

Lemma add_receiver_chain_length : forall k ck s, (length (s_recv s) <= 5)%nat ->
  (length (s_recv (add_receiver_chain k ck s)) <= 5)%nat.
Proof.
  intros k ck s H. rewrite add_receiver_chain_recv. cbv zeta. unfold max_receiver_chains.
  destruct (5 <? length (s_recv s ++ [fresh_chain k ck]))%nat eqn:E.
  - rewrite app_length in E. cbn [length] in E. destruct (s_recv s) as [|c l]; cbn [app tl length] in *; [lia|].
    rewrite app_length. cbn [length]. lia.
  - lia.
Qed.

Lemma firstn_nth_skipn : forall A (l : list A) i x, nth_error l i = Some x -> l = firstn i l ++ x :: skipn (S i) l.
Proof.
  intros A l. induction l as [|a l IH]; intros i x H; [destruct i; discriminate|].
  destruct i as [|i]; [injection H as <-; reflexivity|]. cbn [firstn app]. rewrite (IH i x H) at 1. reflexivity.
Qed.

Lemma find_index_some : forall n l, existsb (fun m => (mk_index m =? n)%N) l = true ->
  exists i x, find_index n l = Some i /\ nth_error l i = Some x /\ mk_index x = n.
Proof.
  intros n l. induction l as [|m l IH]; [discriminate|]. cbn [existsb find_index]. destruct (mk_index m =? n)%N eqn:E.
  - intros _. exists 0%nat, m. repeat split. lia.
  - cbn [orb]. intros H. destruct (IH H) as (i & x & E1 & E2 & E3). exists (S i), x. rewrite E1. auto.
Qed.

(** Taking a stored key out of a chain. *)
Lemma remove_spec : forall c n, has_message_keys c n = true ->
  exists a mk b, ch_msgs c = a ++ mk :: b /\ mk_index mk = n /\
    remove_message_keys c n = Some (mk, {| ch_pair := ch_pair c; ch_key := ch_key c; ch_msgs := a ++ b |}).
Proof.
  intros c n H. unfold has_message_keys in H. destruct (find_index_some _ _ H) as (i & x & E1 & E2 & E3).
  exists (firstn i (ch_msgs c)), x, (skipn (S i) (ch_msgs c)). split; [apply firstn_nth_skipn; exact E2|]. split; [exact E3|].
  unfold remove_message_keys. rewrite E1, E2. reflexivity.
Qed.

(** * C09 *)

Definition bounded_chain (c : chain) : Prop := (length (ch_msgs c) <= max_message_keys)%nat.
Definition bounded_state (s : state) : Prop := (length (s_recv s) <= 5)%nat /\ Forall bounded_chain (s_recv s).

Lemma chain_receive_bounded : forall c n mk c', bounded_chain c -> chain_receive C c n = Ok (mk, c') -> bounded_chain c'.
Proof.
  intros c n mk c' Hb H. unfold chain_receive, bounded_chain in *.
  destruct (n <? ck_index (ch_key c))%N.
  - destruct (has_message_keys c n) eqn:E; [|discriminate]. destruct (remove_spec c n E) as (a & x & b & E1 & E2 & E3).
    rewrite E3 in H. injection H as _ <-. cbn [ch_msgs]. rewrite E1 in Hb. rewrite app_length in *. cbn [length] in Hb. lia.
  - destruct (max_future <? _)%N; [discriminate|]. injection H as _ <-. cbn [ch_msgs chain_set_key].
    rewrite add_keys_msgs by exact Hb. rewrite lastn_length. lia.
Qed.

Lemma prepared_bounded : forall s k g s1 g1 c, prepared C s k g s1 g1 c -> bounded_state s -> bounded_state s1.
Proof.
  intros s k g s1 g1 c [(H & -> & _)|(H & root & sc & recv & send & ours & _ & _ & _ & _ & _ & _ & ->)] [H1 H2]; [split; assumption|].
  unfold ratcheted, bounded_state.
  cbn [s_recv set_sender_chain set_sender set_prev_counter].
  split; [apply add_receiver_chain_length; exact H1|].
  apply add_receiver_chain_Forall; [exact H2|]. unfold bounded_chain. cbn. lia.
Qed.

Lemma upd_chain_bounded : forall k c' s, bounded_state s -> bounded_chain c' -> bounded_state (upd_chain k (fun _ => c') s).
Proof.
  intros k c' s [H1 H2] Hc. split; cbn [s_recv upd_chain set_recv].
  - rewrite upd_first_length. exact H1.
  - apply upd_first_Forall; auto.
Qed.

Lemma prepared_in : forall s k g s1 g1 c, prepared C s k g s1 g1 c -> In c (s_recv s1).
Proof. intros s k g s1 g1 c H. apply prepared_chain in H. apply find_some in H. tauto. Qed.

Lemma dws_bounded : forall s m g o s' g', u32_msg m -> bounded_state s -> decrypt_with_state C s m g = (o, s', g') -> bounded_state s'.
Proof.
  intros s m g o s' g' Hu Hb H. apply dws_cases in H; [|exact Hu].
  destruct H as [(_ & ->)|(s1 & c & HP & _ & _ & HC)]; [exact Hb|].
  assert (HB1 := prepared_bounded _ _ _ _ _ _ HP Hb).
  destruct HC as [(_ & -> & _)|(mk & c' & HR & HC)]; [exact HB1|].
  assert (Hc' : bounded_chain c').
  { eapply chain_receive_bounded; [|exact HR]. destruct HB1 as [_ HF]. rewrite Forall_forall in HF. apply HF.
    eapply prepared_in. exact HP. }
  destruct HC as [(_ & ->)|(pt & rid & lid & _ & -> & _)]; apply upd_chain_bounded; assumption.
Qed.

Lemma bounded_inv : state_inv C u32_msg bounded_state.
Proof.
  constructor.
  - split; [cbn; lia|constructor].
  - intros s m g o s' g' Hu Hb H. eapply dws_bounded; eassumption.
  - intros s sc [H1 H2] Hs. unfold set_sender_chain_key. rewrite Hs. split; assumption.
Qed.

Lemma bounded_init : forall s, bounded_state s -> good_init C bounded_state s.
Proof.
  intros s [H1 H2]. split.
  - intros. split; assumption.
  - intros. unfold init_send, bounded_state.
    cbn [s_recv set_base set_remote_reg set_local_reg set_pending set_root set_sender_chain set_sender].
    split; [apply add_receiver_chain_length; exact H1|].
    apply add_receiver_chain_Forall; [exact H2|]. unfold bounded_chain. cbn. lia.
Qed.

Lemma reachable_bounded : forall r, reachable C u32_msg r ->
  Forall bounded_state (states r) /\ (length (r_prev r) <= archived_max)%nat.
Proof. apply reachable_states; [apply bounded_inv|apply bounded_init]. Qed.

(** * C47 *)

Context (L : crypto_laws C).

Definition sized_keys (k : msg_keys) : Prop :=
  length (mk_cipher k) = 32%nat /\ length (mk_mac k) = 32%nat /\ length (mk_iv k) = 16%nat.
Definition sized_chain (c : chain) : Prop :=
  length (ck_key (ch_key c)) = 32%nat /\ (ck_index (ch_key c) < u32_modulus)%N /\ Forall sized_keys (ch_msgs c).

(** An initialised session state. *)
Definition ready (s : state) : Prop :=
  s_version s = 3%Z /\ (s_prev_counter s < u32_modulus)%N /\ s_pending_kx s = None /\
  Forall sized_chain (s_recv s) /\
  exists lid rid root base sc priv,
    s_local_id s = Some lid /\ s_remote_id s = Some rid /\ s_root s = Some root /\ length root = 32%nat /\
    s_base s = Some base /\ s_sender s = Some sc /\ kp_priv (ch_pair sc) = Some priv /\ sized_chain sc.

Definition new_or_ready (s : state) : Prop := s = new_state \/ ready s.

Lemma message_keys_sized : forall ck, sized_keys (message_keys C ck).
Proof. intros ck. destruct (message_keys_sizes C L ck) as (A & B & D & _). repeat split; assumption. Qed.

Lemma create_chain_sized : forall root k p x, create_chain C root k p = Ok x ->
  length (sk_root x) = 32%nat /\ length (ck_key (sk_chain x)) = 32%nat /\ ck_index (sk_chain x) = 0%N.
Proof.
  intros root k p x H. destruct (kp_priv p) as [priv|] eqn:E.
  - rewrite (create_chain_ok C root k p priv E) in H. injection H as <-. apply (derived_sizes C L).
  - unfold create_chain in H. rewrite E in H. discriminate.
Qed.

Lemma fresh_chain_sized : forall k ck, length (ck_key ck) = 32%nat -> ck_index ck = 0%N -> sized_chain (fresh_chain k ck).
Proof. intros k ck H1 H2. split; [exact H1|]. split; [cbn [ch_key fresh_chain]; rewrite H2; reflexivity|constructor]. Qed.

Lemma ck_iter_sized : forall n ck, length (ck_key ck) = 32%nat -> length (ck_key (ck_iter C n ck)) = 32%nat.
Proof. intros n. induction n as [|n IH]; intros ck H; [exact H|]. cbn. apply IH. apply (next_key_size C L). Qed.

Lemma ck_iter_u32 : forall n ck, (ck_index ck < u32_modulus)%N -> (ck_index (ck_iter C n ck) < u32_modulus)%N.
Proof. intros n. induction n as [|n IH]; intros ck H; [exact H|]. cbn. apply IH. apply u32_lt. Qed.

Lemma mk_range_sized : forall n ck, Forall sized_keys (mk_range C n ck).
Proof. intros n. induction n as [|n IH]; intros ck; cbn; constructor; auto. apply message_keys_sized. Qed.

Lemma add_keys_Forall : forall (P : msg_keys -> Prop) l c, Forall P (ch_msgs c) -> Forall P l -> Forall P (ch_msgs (add_keys l c)).
Proof.
  intros P l. induction l as [|m l IH]; intros c Hc Hl; [exact Hc|]. inversion Hl. subst.
  unfold add_keys in *. cbn [fold_left]. apply IH; [|assumption].
  unfold chain_add_key. cbn [ch_msgs]. assert (HA : Forall P (ch_msgs c ++ [m])) by (apply Forall_app; auto).
  destruct (_ <? _)%nat; [apply Forall_tl|]; exact HA.
Qed.

Lemma chain_receive_sized : forall c n mk c', sized_chain c -> chain_receive C c n = Ok (mk, c') -> sized_keys mk /\ sized_chain c'.
Proof.
  intros c n mk c' (H1 & H2 & H3) H. unfold chain_receive in H.
  destruct (n <? ck_index (ch_key c))%N.
  - destruct (has_message_keys c n) eqn:E; [|discriminate]. destruct (remove_spec c n E) as (a & x & b & E1 & E2 & E3).
    rewrite E3 in H. injection H as <- <-. rewrite E1 in H3. apply Forall_app in H3. destruct H3 as [Ha Hb]. inversion Hb. subst.
    split; [assumption|]. split; [exact H1|]. split; [exact H2|]. cbn [ch_msgs]. apply Forall_app. auto.
  - destruct (max_future <? _)%N; [discriminate|]. injection H as <- <-.
    split; [apply message_keys_sized|]. split; [|split]; cbn [ch_key ch_msgs chain_set_key].
    + apply (ck_iter_sized (S _)). exact H1.
    + apply (ck_iter_u32 (S _)). exact H2.
    + apply add_keys_Forall; [exact H3|apply mk_range_sized].
Qed.

Lemma generated_private : forall g p g', generate_key_pair C g = (Ok p, g') -> exists priv, p = pair_of C priv.
Proof.
  intros g p g' H. unfold generate_key_pair in H. destruct (rng_read 32 g) as [[seed|] g1]; [|discriminate].
  injection H as <- _. exists (clamp seed). reflexivity.
Qed.

Lemma u32_sub_lt : forall a b, (u32_sub a b < u32_modulus)%N.
Proof. intros a b. apply u32_lt. Qed.

Lemma prepared_ready : forall s k g s1 g1 c, prepared C s k g s1 g1 c -> ready s -> ready s1.
Proof.
  intros s k g s1 g1 c HP HR. assert (HI := prepared_ids _ _ _ _ _ _ _ HP).
  destruct HP as [(H & -> & _)|(H & root & sc & recv & send & ours & Hr & Hs & E1 & EG & E2 & _ & ->)]; [exact HR|].
  destruct HR as (Hv & Hpc & Hkx & HF & lid & rid & root' & base & sc' & priv & H1 & H2 & H3 & H4 & H5 & H6 & H7 & H8).
  destruct (create_chain_sized _ _ _ _ E1) as (A1 & A2 & A3). destruct (create_chain_sized _ _ _ _ E2) as (B1 & B2 & B3).
  destruct (generated_private _ _ _ EG) as [np ->].
  unfold ratcheted. unfold ready.
  cbn [s_version s_prev_counter s_pending_kx s_recv s_local_id s_remote_id s_root s_base s_sender set_sender_chain set_sender set_prev_counter set_root].
  split; [exact Hv|]. split; [pose proof (u32_sub_lt (ck_index (ch_key sc)) 1); lia|]. split; [exact Hkx|].
  split; [apply (add_receiver_chain_Forall sized_chain k (sk_chain recv) (set_root (sk_root send) s)); [exact HF|apply fresh_chain_sized; assumption]|].
  exists lid, rid, (sk_root send), base, {| ch_pair := pair_of C np; ch_key := sk_chain send; ch_msgs := [] |}, np.
  repeat split; auto. cbn [ch_key]. rewrite B3. reflexivity. constructor.
Qed.

Lemma upd_chain_ready : forall k c' s, ready s -> sized_chain c' -> ready (upd_chain k (fun _ => c') s).
Proof.
  intros k c' s (H1 & H2 & H3 & H4 & HE) Hc. split; [exact H1|]. split; [exact H2|]. split; [exact H3|]. split; [|exact HE].
  cbn [s_recv upd_chain set_recv]. apply upd_first_Forall; auto.
Qed.

Lemma dws_ready : forall s m g o s' g', u32_msg m -> ready s -> decrypt_with_state C s m g = (o, s', g') -> ready s'.
Proof.
  intros s m g o s' g' Hu Hb H. apply dws_cases in H; [|exact Hu].
  destruct H as [(_ & ->)|(s1 & c & HP & _ & _ & HC)]; [exact Hb|].
  assert (HB1 := prepared_ready _ _ _ _ _ _ HP Hb).
  destruct HC as [(_ & -> & _)|(mk & c' & HR & HC)]; [exact HB1|].
  assert (Hc' : sized_chain c').
  { eapply chain_receive_sized; [|exact HR]. destruct HB1 as (_ & _ & _ & HF & _). rewrite Forall_forall in HF. apply HF.
    eapply prepared_in. exact HP. }
  assert (HU := upd_chain_ready (sm_ratchet m) c' s1 HB1 Hc').
  destruct HC as [(_ & ->)|(pt & rid & lid & _ & -> & _)]; [exact HU|].
  exact HU.
Qed.

Lemma receiver_session_sized : forall p x, calculate_receiver_session C p = Ok x ->
  length (sk_root x) = 32%nat /\ length (ck_key (sk_chain x)) = 32%nat /\ ck_index (sk_chain x) = 0%N /\
  kp_priv (rp_our_signed p) <> None.
Proof.
  intros p x H. unfold calculate_receiver_session, priv_of in H.
  destruct (kp_priv (rp_our_signed p)) as [sg|]; [|discriminate]. cbn [bind] in H.
  assert (HD : forall ms, derive_session C ms = Ok x ->
    length (sk_root x) = 32%nat /\ length (ck_key (sk_chain x)) = 32%nat /\ ck_index (sk_chain x) = 0%N).
  { intros ms E. rewrite derive_session_ok in E. injection E as <-. apply (derived_sizes C L). }
  assert (HX : length (sk_root x) = 32%nat /\ length (ck_key (sk_chain x)) = 32%nat /\ ck_index (sk_chain x) = 0%N).
  { destruct (rp_our_one_time p) as [otk|]; [|eapply HD; exact H].
    destruct (kp_priv otk); [|discriminate]. cbn [bind] in H. eapply HD; exact H. }
  destruct HX as (A & B & D). repeat split; auto. discriminate.
Qed.

Lemma ready_inv : state_inv C u32_msg new_or_ready.
Proof.
  constructor.
  - left. reflexivity.
  - intros s m g o s' g' Hu [->|Hr] H; [|right; eapply dws_ready; eassumption].
    left. cbn in H. congruence.
  - intros s sc [->|Hr] Hs; [discriminate|]. right. unfold set_sender_chain_key. rewrite Hs.
    destruct Hr as (Hv & Hpc & Hkx & HF & lid & rid & root' & base & sc' & priv & H1 & H2 & H3 & H4 & H5 & H6 & H7 & H8 & H9 & H10).
    rewrite Hs in H6. injection H6 as <-.
    split; [exact Hv|]. split; [exact Hpc|]. split; [exact Hkx|]. split; [exact HF|].
    exists lid, rid, root', base, {| ch_pair := ch_pair sc; ch_key := next_key C (ch_key sc); ch_msgs := ch_msgs sc |}, priv.
    repeat split; auto; cbn [ch_key next_key ck_key ck_index]; [apply (law_hmac_len C L)|apply u32_lt].
Qed.

Lemma new_or_ready_parts : forall s, new_or_ready s ->
  (s_prev_counter s < u32_modulus)%N /\ s_pending_kx s = None /\ Forall sized_chain (s_recv s).
Proof.
  intros s [->|(H1 & H2 & H3 & H4 & _)]; [|auto]. repeat split. constructor.
Qed.

Lemma ready_init : forall s, new_or_ready s -> good_init C new_or_ready s.
Proof.
  intros s Hs. destruct (new_or_ready_parts s Hs) as (Hpc & Hkx & HF). split.
  - intros v m signed otk keys HK. destruct (receiver_session_sized _ _ HK) as (A & B & D & E).
    cbn [rp_our_signed] in E. destruct (kp_priv signed) as [priv|] eqn:EP; [|congruence].
    right. split; [reflexivity|]. split; [exact Hpc|]. split; [exact Hkx|]. split; [exact HF|].
    exists (ip_pub (v_identity v)), (pm_identity m), (sk_root keys), (pm_base m),
      {| ch_pair := signed; ch_key := sk_chain keys; ch_msgs := [] |}, priv.
    repeat split; auto. cbn [ch_key]. rewrite D. reflexivity. constructor.
  - intros v b signed our_base ratchet derived sending g g1 g2 HS G1 G2 HC.
    destruct (generated_private _ _ _ G1) as [bp ->]. destruct (generated_private _ _ _ G2) as [rp ->].
    destruct (create_chain_sized _ _ _ _ HC) as (A & B & D).
    assert (HD : length (ck_key (sk_chain derived)) = 32%nat /\ ck_index (sk_chain derived) = 0%N).
    { rewrite (sender_session_explicit C _ bp) in HS by reflexivity. injection HS as <-.
      split; [|reflexivity]. eapply (derived_sizes C L). }
    right. unfold init_send, ready.
    cbn [s_version s_prev_counter s_pending_kx s_recv s_local_id s_remote_id s_root s_base s_sender set_base set_remote_reg
         set_local_reg set_pending set_root set_sender_chain set_sender add_receiver_chain set_recv set_local_id set_remote_id set_version].
    split; [reflexivity|]. split; [exact Hpc|]. split; [exact Hkx|]. split.
    { apply (add_receiver_chain_Forall sized_chain signed (sk_chain derived) s); [exact HF|]. apply fresh_chain_sized; tauto. }
    exists (ip_pub (v_identity v)), (b_identity b), (sk_root sending), (kp_pub (pair_of C bp)),
      {| ch_pair := pair_of C rp; ch_key := sk_chain sending; ch_msgs := [] |}, rp.
    repeat split; auto. cbn [ch_key]. rewrite D. reflexivity. constructor.
Qed.

Lemma reachable_ready : forall r, reachable C u32_msg r -> Forall new_or_ready (states r).
Proof. intros r H. eapply reachable_states; [apply ready_inv|apply ready_init|exact H]. Qed.

(** Encrypt on a ready state succeeds. *)
Lemma encrypt_ready : forall v pt, ready (r_cur (v_load v)) ->
  (N.of_nat (length pt) + 16 < 9223372036854775808)%N ->
  exists ct r' es, encrypt C v pt = (Ok ct, r', es).
Proof.
  intros v pt (Hv & Hpc & Hkx & HF & lid & rid & root' & base & sc & priv & H1 & H2 & H3 & H4 & H5 & H6 & H7 & H8 & H9 & H10) Hfit.
  unfold encrypt. cbv zeta. rewrite H6.
  destruct (message_keys_sized (ch_key sc)) as (S1 & S2 & S3).
  assert (HK : aes_key_ok (mk_cipher (message_keys C (ch_key sc))) = true) by (unfold aes_key_ok; rewrite S1; reflexivity).
  destruct (cbc_roundtrip_given C L (mk_iv (message_keys C (ch_key sc))) (mk_cipher (message_keys C (ch_key sc))) pt HK S3)
    as (body & EB & _ & HM & HL).
  rewrite EB, H1, H2, Hv.
  destruct (new_signal_message_ok C (ck_index (ch_key sc)) (s_prev_counter (r_cur (v_load v))) (mk_mac (message_keys C (ch_key sc)))
      (kp_pub (ch_pair sc)) body lid rid (law_hmac_len C L)) as (mac & Hm & _ & E).
  assert (HFB : fits body) by (unfold fits; lia).
  assert (ER := new_signal_message_roundtrip C _ _ _ _ _ _ _ _ (law_hmac_len C L) H9 Hpc HFB E).
  rewrite E. destruct (s_pending (r_cur (v_load v))) as [p|]; [|eauto].
  unfold new_prekey_message, pk_from_struct. cbn [pk_version pk_base pk_identity pk_message].
  replace (3 <=? unsupported_version)%Z with false by reflexivity. replace (3 >? current_version)%Z with false by reflexivity.
  rewrite !decode_ser_pub. cbn [bind]. rewrite ER. cbn [bind]. eauto.
Qed.
End I.
