(** ReplayProofs.v: at most one successful decryption per (ratchet key, counter). *)
From Verif Require Import Base Labels Crypto Bytehelper Ecc Cbc Keys X3dh Messages SessionState SessionRecord
  SessionBuilder SessionCipher Address World Toy WireProofs CodecProofs CodecProofs2 CryptoProofs SessionProofs SerialProofs SessionSpec
  HistoryProofs InvariantProofs.
From Coq Require Import ZifyBool ZifyN ZifyNat.

Section R.
Context (C : crypto).

Definition indices (c : chain) : list N := map mk_index (ch_msgs c).

(** Stored keys are distinct and lie before the chain's position; no wrap-around yet. *)
Definition chain_ok (c : chain) : Prop :=
  NoDup (indices c) /\ Forall (fun n => (n < ck_index (ch_key c))%N) (indices c) /\ (ck_index (ch_key c) < u32_modulus)%N.

(** Counter [n] has been used up on this chain. *)
Definition consumed (c : chain) (n : N) : Prop := (n < ck_index (ch_key c))%N /\ ~ In n (indices c).

Fixpoint n_range (n : nat) (from : N) : list N :=
  match n with O => [] | S n' => from :: n_range n' (from + 1) end.

Lemma n_range_in : forall n from x, In x (n_range n from) <-> (from <= x < from + N.of_nat n)%N.
Proof.
  intros n. induction n as [|n IH]; intros from x; cbn [n_range In]; [lia|]. rewrite IH. lia.
Qed.

Lemma n_range_nodup : forall n from, NoDup (n_range n from).
Proof.
  intros n. induction n as [|n IH]; intros from; cbn [n_range]; constructor; auto. rewrite n_range_in. lia.
Qed.

Lemma mk_range_indices : forall n ck, (ck_index ck + N.of_nat n <= u32_modulus)%N ->
  map mk_index (mk_range C n ck) = n_range n (ck_index ck).
Proof.
  intros n. induction n as [|n IH]; intros ck H; [reflexivity|]. cbn [mk_range map n_range]. f_equal.
  destruct n as [|n]; [reflexivity|].
  assert (HN : ck_index (next_key C ck) = (ck_index ck + 1)%N) by (cbn; apply u32_add_small; lia).
  rewrite IH by (rewrite HN; lia). rewrite HN. reflexivity.
Qed.

Lemma skipn_incl : forall A n (l : list A) x, In x (skipn n l) -> In x l.
Proof. intros A n l x H. rewrite <- (firstn_skipn n l). apply in_app_iff. auto. Qed.

Lemma skipn_nodup : forall A n (l : list A), NoDup l -> NoDup (skipn n l).
Proof.
  intros A n. induction n as [|n IH]; intros l H; [exact H|]. destruct H; [constructor|]. cbn. auto.
Qed.

Lemma nodup_app : forall A (l r : list A), NoDup l -> NoDup r -> (forall x, In x l -> ~ In x r) -> NoDup (l ++ r).
Proof.
  intros A l r Hl Hr HD. induction Hl as [|x l Hx Hl IH]; [exact Hr|]. cbn. constructor.
  - rewrite in_app_iff. intros [X|X]; [auto|]. apply (HD x); [left; reflexivity|exact X].
  - apply IH. intros y Hy. apply HD. right. exact Hy.
Qed.

(** Adding keys keeps a part of (old ++ new) without reordering. *)
Lemma add_keys_lastn : forall l c, exists k, ch_msgs (add_keys l c) = skipn k (ch_msgs c ++ l).
Proof.
  intros l. induction l as [|m l IH]; intros c.
  - exists 0%nat. cbn. rewrite app_nil_r. reflexivity.
  - unfold add_keys in *. cbn [fold_left]. destruct (IH (chain_add_key m c)) as [k Hk].
    assert (HX : exists j, ch_msgs (chain_add_key m c) = skipn j (ch_msgs c ++ [m]) /\ (j <= 1)%nat).
    { unfold chain_add_key. cbn [ch_msgs]. destruct (max_message_keys <? length (ch_msgs c ++ [m]))%nat; [exists 1%nat|exists 0%nat]; split; auto. }
    destruct HX as (j & Hj & Hj1). rewrite Hj in Hk.
    exists (k + j)%nat. rewrite Hk.
    replace (ch_msgs c ++ m :: l) with ((ch_msgs c ++ [m]) ++ l) by (rewrite <- app_assoc; reflexivity).
    rewrite <- skipn_skipn'. f_equal. rewrite (skipn_app _ (ch_msgs c ++ [m])). f_equal.
    rewrite app_length. cbn [length]. replace (j - (length (ch_msgs c) + 1))%nat with 0%nat by lia. reflexivity.
Qed.

Lemma advance_indices : forall c n, chain_ok c -> (ck_index (ch_key c) <= n)%N -> (n < u32_modulus - 1)%N ->
  let d := N.to_nat (n - ck_index (ch_key c)) in
  let c' := chain_set_key (ck_iter C (S d) (ch_key c)) (add_keys (mk_range C d (ch_key c)) c) in
  ck_index (ch_key c') = (n + 1)%N /\
  exists k, indices c' = skipn k (indices c ++ n_range d (ck_index (ch_key c))).
Proof.
  intros c n (H1 & H2 & H3) Hge Hn d c'. split.
  - unfold c'. cbn [ch_key chain_set_key]. rewrite ck_iter_index; unfold d; lia.
  - unfold c', indices. cbn [ch_msgs chain_set_key].
    destruct (add_keys_lastn (mk_range C d (ch_key c)) c) as [k Hk]. exists k. rewrite Hk.
    rewrite <- skipn_map, map_app, mk_range_indices by (unfold d; lia). reflexivity.
Qed.

Lemma receive_ok : forall c n mk c', chain_ok c -> (n < u32_modulus - 1)%N -> chain_receive C c n = Ok (mk, c') ->
  chain_ok c' /\ consumed c' n /\ mk_index mk = n /\ forall x, consumed c x -> consumed c' x /\ x <> n.
Proof.
  intros c n mk c' HO Hn H. unfold chain_receive in H. assert (HO' := HO). destruct HO' as (H1 & H2 & H3).
  destruct (n <? ck_index (ch_key c))%N eqn:E.
  - destruct (has_message_keys c n) eqn:EH; [|discriminate]. destruct (remove_spec c n EH) as (a & x & b & E1 & E2 & E3).
    rewrite E3 in H. injection H as <- <-. unfold chain_ok, consumed, indices in *. cbn [ch_msgs ch_key].
    rewrite E1, map_app in *. cbn [map] in *. apply NoDup_remove in H1. destruct H1 as [HA HB]. rewrite E2 in *.
    rewrite <- map_app in *. apply Forall_app in H2. destruct H2 as [F1 F2]. inversion F2 as [|? ? F3 F4]. subst.
    repeat split; auto; try lia.
    + rewrite map_app. apply Forall_app. auto.
    + rewrite map_app, in_app_iff. destruct H as [_ H]. rewrite map_app, in_app_iff in H. cbn [map In] in H. tauto.
    + intros ->. destruct H as [_ H]. apply H. rewrite map_app, in_app_iff. right. left. reflexivity.
  - destruct (max_future <? _)%N; [discriminate|]. injection H as <- <-.
    destruct (advance_indices c n HO ltac:(lia) Hn) as [HI [k HK]].
    set (d := N.to_nat (n - ck_index (ch_key c))) in *.
    set (c1 := chain_set_key _ _) in *. 
    assert (HIn : forall x, In x (indices c1) -> In x (indices c) \/ (ck_index (ch_key c) <= x < n)%N).
    { intros x Hx. rewrite HK in Hx. apply skipn_incl in Hx. apply in_app_iff in Hx.
      destruct Hx as [Hx|Hx]; [auto|]. apply n_range_in in Hx. right. unfold d in Hx. lia. }
    rewrite Forall_forall in H2.
    split; [|split; [|split]].
    + unfold chain_ok. rewrite HI. split; [|split; [|lia]].
      * rewrite HK. apply skipn_nodup. apply nodup_app; [exact H1|apply n_range_nodup|].
        intros x Hx Hx'. apply n_range_in in Hx'. specialize (H2 x Hx). lia.
      * apply Forall_forall. intros x Hx. apply HIn in Hx. destruct Hx as [Hx|Hx]; [specialize (H2 x Hx)|]; lia.
    + split; [lia|]. intros X. apply HIn in X. destruct X as [X|X]; [specialize (H2 n X)|]; lia.
    + cbn [message_keys new_key_material mk_index]. rewrite ck_iter_index; unfold d; lia.
    + intros x [X1 X2]. split; [split; [lia|]|lia]. intros X. apply HIn in X. destruct X as [X|X]; [auto|lia].
Qed.

Lemma consumed_rejected : forall c n, consumed c n -> chain_receive C c n = Err EOldCounter.
Proof.
  intros c n [H1 H2]. unfold chain_receive. replace (n <? ck_index (ch_key c))%N with true by lia.
  replace (has_message_keys c n) with false; [reflexivity|]. symmetry. unfold has_message_keys.
  destruct (existsb _ _) eqn:E; [|reflexivity]. exfalso. apply H2. apply existsb_exists in E.
  destruct E as (m & Hm & E). unfold indices. apply in_map_iff. exists m. split; [lia|exact Hm].
Qed.

(** * States *)

Definition ratchet_keys (s : state) : list arr32 := map (fun c => kp_pub (ch_pair c)) (s_recv s).

Definition wf_state (s : state) : Prop := NoDup (ratchet_keys s) /\ Forall chain_ok (s_recv s).

Lemma tl_nodup : forall A (l : list A), NoDup l -> NoDup (tl l).
Proof. intros A l H. destruct H; [constructor|assumption]. Qed.

Lemma receiver_chain_none : forall k s, receiver_chain k s = None -> ~ In k (ratchet_keys s).
Proof.
  intros k s H X. unfold ratchet_keys in X. apply in_map_iff in X. destruct X as (c & E & Hc).
  unfold receiver_chain in H. apply (find_none _ _ H) in Hc. apply chain_is_eq in E. congruence.
Qed.

Lemma fresh_chain_ok : forall k ck, ck_index ck = 0%N -> chain_ok (fresh_chain k ck).
Proof. intros k ck H. unfold chain_ok, indices. cbn [ch_msgs ch_key fresh_chain map]. rewrite H. repeat split; constructor. Qed.

Lemma create_chain_index : forall root k p x, create_chain C root k p = Ok x -> ck_index (sk_chain x) = 0%N.
Proof.
  intros root k p x H. unfold create_chain in H. destruct (kp_priv p); [|discriminate].
  rewrite derive_secrets_64 in H. injection H as <-. reflexivity.
Qed.

Lemma add_receiver_chain_wf : forall k ck s, wf_state s -> ~ In k (ratchet_keys s) -> ck_index ck = 0%N ->
  wf_state (add_receiver_chain k ck s).
Proof.
  intros k ck s [H1 H2] Hk Hi. split.
  - unfold ratchet_keys in *. rewrite add_receiver_chain_recv. cbv zeta.
    assert (HA : NoDup (map (fun c => kp_pub (ch_pair c)) (s_recv s ++ [fresh_chain k ck]))).
    { rewrite map_app. apply nodup_app; [exact H1|repeat constructor; intros []|].
      intros x Hx [<-|[]]. exact (Hk Hx). }
    destruct (_ <? _)%nat; [|exact HA]. destruct (s_recv s ++ [fresh_chain k ck]); [constructor|]. apply (tl_nodup _ _ HA).
  - apply add_receiver_chain_Forall; [exact H2|]. apply fresh_chain_ok. exact Hi.
Qed.

Lemma prepared_wf : forall s k g s1 g1 c, prepared C s k g s1 g1 c -> wf_state s -> wf_state s1.
Proof.
  intros s k g s1 g1 c [(H & -> & _)|(H & root & sc & recv & send & ours & _ & _ & E1 & _ & _ & _ & ->)] HW; [exact HW|].
  apply (add_receiver_chain_wf k (sk_chain recv) s HW).
  - apply receiver_chain_none. exact H.
  - eapply create_chain_index. exact E1.
Qed.

Lemma upd_first_pubs : forall k c c' l, find (chain_is k) l = Some c -> ch_pair c' = ch_pair c ->
  map ch_pair (upd_first k (fun _ => c') l) = map ch_pair l.
Proof.
  intros k c c' l H E. induction l as [|x l IH]; [reflexivity|]. cbn [find upd_first] in *.
  destruct (chain_is k x); [injection H as ->; cbn; congruence|]. cbn. rewrite IH by exact H. reflexivity.
Qed.

Lemma upd_chain_wf : forall k c c' s, receiver_chain k s = Some c -> ch_pair c' = ch_pair c -> chain_ok c' -> wf_state s ->
  wf_state (upd_chain k (fun _ => c') s).
Proof.
  intros k c c' s Hr HE Hc [H1 H2]. split.
  - unfold ratchet_keys in *. cbn [s_recv upd_chain set_recv].
    rewrite <- (map_map ch_pair kp_pub), (upd_first_pubs k c c' _ Hr HE), map_map. exact H1.
  - cbn [s_recv upd_chain set_recv]. apply upd_first_Forall; auto.
Qed.

Lemma receiver_chain_replaced : forall k c c' s, receiver_chain k s = Some c -> ch_pair c' = ch_pair c ->
  receiver_chain k (upd_chain k (fun _ => c') s) = Some c'.
Proof.
  intros k c c' s H E. unfold receiver_chain, upd_chain in *. cbn [s_recv set_recv].
  induction (s_recv s) as [|x l IH]; [discriminate|]. cbn [find upd_first] in *.
  destruct (chain_is k x) eqn:EX; cbn [find].
  - injection H as ->. apply chain_is_eq in EX. replace (chain_is k c') with true; [reflexivity|].
    symmetry. apply chain_is_eq. congruence.
  - rewrite EX. auto.
Qed.

Lemma receiver_chain_replaced_other : forall k k' c c' s, receiver_chain k s = Some c -> ch_pair c' = ch_pair c -> k' <> k ->
  receiver_chain k' (upd_chain k (fun _ => c') s) = receiver_chain k' s.
Proof.
  intros k k' c c' s H E Hk. unfold receiver_chain, upd_chain in *. cbn [s_recv set_recv].
  induction (s_recv s) as [|x l IH]; [reflexivity|]. cbn [find upd_first] in *.
  destruct (chain_is k x) eqn:EX; cbn [find].
  - injection H as ->. apply chain_is_eq in EX.
    assert (EF : forall y, ch_pair y = ch_pair c -> chain_is k' y = false).
    { intros y Hy. destruct (chain_is k' y) eqn:EY; [|reflexivity]. apply chain_is_eq in EY. congruence. }
    rewrite (EF c' E), (EF c eq_refl). reflexivity.
  - rewrite IH by exact H. reflexivity.
Qed.

(** After a ratchet step for another key a chain is as before or gone. *)
Lemma receiver_chain_after_add : forall k k' ck s, NoDup (ratchet_keys s) -> k' <> k ->
  receiver_chain k' (add_receiver_chain k ck s) = receiver_chain k' s \/ receiver_chain k' (add_receiver_chain k ck s) = None.
Proof.
  intros k k' ck s HN Hk. unfold receiver_chain. rewrite add_receiver_chain_recv. cbv zeta.
  assert (EF : chain_is k' (fresh_chain k ck) = false).
  { destruct (chain_is k' _) eqn:E; [|reflexivity]. apply chain_is_eq in E. cbn in E. congruence. }
  assert (EA : forall l, find (chain_is k') (l ++ [fresh_chain k ck]) = find (chain_is k') l).
  { intros l. rewrite find_app. destruct (find (chain_is k') l); [reflexivity|]. cbn [find]. rewrite EF. reflexivity. }
  destruct (_ <? _)%nat; [|left; apply EA].
  destruct (s_recv s) as [|c l] eqn:ER; [left; reflexivity|]. cbn [app tl]. rewrite EA.
  cbn [find]. destruct (chain_is k' c) eqn:EC; [|left; reflexivity].
  right. apply chain_is_eq in EC. unfold ratchet_keys in HN. rewrite ER in HN. cbn [map] in HN. inversion HN as [|? ? Hnin _]. subst.
  destruct (find (chain_is (kp_pub (ch_pair c))) l) as [x|] eqn:EX; [|reflexivity]. exfalso. apply Hnin.
  apply find_some in EX. destruct EX as [X1 X2]. apply chain_is_eq in X2. apply in_map_iff. exists x. auto.
Qed.

Lemma dws_wf : forall s m g o s' g', no_wrap m -> wf_state s -> decrypt_with_state C s m g = (o, s', g') -> wf_state s'.
Proof.
  intros s m g o s' g' Hu Hb H. apply dws_cases in H; [|unfold no_wrap in Hu; lia].
  destruct H as [(_ & ->)|(s1 & c & HP & _ & _ & HC)]; [exact Hb|].
  assert (HB1 := prepared_wf _ _ _ _ _ _ HP Hb).
  destruct HC as [(_ & -> & _)|(mk & c' & HR & HC)]; [exact HB1|].
  assert (Hck : chain_ok c) by (destruct HB1 as [_ HF]; rewrite Forall_forall in HF; apply HF; eapply prepared_in; exact HP).
  assert (HU : wf_state (upd_chain (sm_ratchet m) (fun _ => c') s1)).
  { eapply upd_chain_wf; [eapply prepared_chain; exact HP|eapply chain_receive_pair; exact HR| |exact HB1].
    eapply receive_ok; eassumption. }
  destruct HC as [(_ & ->)|(pt & rid & lid & _ & -> & _)]; exact HU.
Qed.

Lemma wf_inv : state_inv C no_wrap wf_state.
Proof.
  constructor.
  - split; constructor.
  - intros s m g o s' g' Hu Hb H. eapply dws_wf; eassumption.
  - intros s sc [H1 H2] Hs. unfold set_sender_chain_key. rewrite Hs. split; assumption.
Qed.

Lemma wf_init : good_init C wf_state new_state.
Proof.
  split.
  - intros. split; constructor.
  - intros v b signed our_base ratchet derived sending g g1 g2 HS _ _ _.
    apply (add_receiver_chain_wf signed (sk_chain derived)
      (set_local_id (ip_pub (v_identity v)) (set_remote_id (b_identity b) (set_version current_version new_state)))).
    + split; constructor.
    + intros [].
    + unfold calculate_sender_session, priv_of in HS. cbn [sp_our_base] in HS. destruct (kp_priv our_base); [|discriminate].
      cbn [bind] in HS. cbv zeta in HS. rewrite derive_session_ok in HS. injection HS as <-. reflexivity.
Qed.

Lemma stored_wf : forall r, stored C no_wrap r -> Forall wf_state (states r).
Proof. intros r H. eapply stored_states; [apply wf_inv|apply wf_init|exact H]. Qed.

(** [used s k n]: the state has a chain for [k] and [n] is used up on it. *)
Definition used (s : state) (k : arr32) (n : N) : Prop :=
  exists c, receiver_chain k s = Some c /\ consumed c n.

Lemma used_step : forall s s' k n, wf_state s -> state_step C s s' -> used s k n -> receiver_chain k s' <> None -> used s' k n.
Proof.
  intros s s' k n HW HS (c0 & Hc0 & Hcons) HN. destruct HS as [s m g o s' g' Hu H|v pt ct r' es H|s t s' H1 H2].
  - apply dws_cases in H; [|unfold no_wrap in Hu; lia].
    destruct H as [(_ & ->)|(s1 & c & HP & _ & _ & HC)]; [exists c0; auto|].
    assert (HB1 := prepared_wf _ _ _ _ _ _ HP HW). assert (HCH := prepared_chain _ _ _ _ _ _ _ HP).
    assert (HU1 : receiver_chain k s1 <> None -> used s1 k n).
    { intros HX. destruct HP as [(H & -> & _)|(H & root & sc & recv & send & ours & _ & _ & E1 & _ & _ & _ & ->)]; [exists c0; auto|].
      assert (Hk : k <> sm_ratchet m) by (intros ->; congruence).
      destruct (receiver_chain_after_add (sm_ratchet m) k (sk_chain recv) s (proj1 HW) Hk) as [E|E].
      - exists c0. split; [|exact Hcons]. rewrite <- Hc0, <- E. reflexivity.
      - exfalso. apply HX. exact E. }
    assert (Hck : chain_ok c) by (destruct HB1 as [_ HF]; rewrite Forall_forall in HF; apply HF; eapply prepared_in; exact HP).
    destruct HC as [(_ & -> & _)|(mk & c' & HR & HC)]; [auto|].
    assert (HPair := chain_receive_pair _ _ _ _ _ HR).
    assert (HU : receiver_chain k (upd_chain (sm_ratchet m) (fun _ => c') s1) <> None ->
                 used (upd_chain (sm_ratchet m) (fun _ => c') s1) k n).
    { intros HX. destruct (arr_eq_dec k (sm_ratchet m)) as [->|Hk].
      - destruct (HU1 ltac:(congruence)) as (c1 & E1 & Hc1). rewrite HCH in E1. injection E1 as <-.
        exists c'. split; [eapply receiver_chain_replaced; eassumption|].
        destruct (receive_ok _ _ _ _ Hck Hu HR) as (_ & _ & _ & HCC). apply HCC. exact Hc1.
      - rewrite (receiver_chain_replaced_other _ _ _ _ _ HCH HPair Hk) in HX.
        destruct (HU1 HX) as (c1 & E1 & Hc1). exists c1. split; [|exact Hc1].
        rewrite (receiver_chain_replaced_other _ _ _ _ _ HCH HPair Hk). exact E1. }
    destruct HC as [(_ & ->)|(pt & rid & lid & _ & -> & _)]; apply HU; exact HN.
  - apply encrypt_cases in H. destruct H as [(HF & _)|(sc & body & lid & rid & sm & ct' & H)]; [exfalso; exact (HF ct eq_refl)|].
    cbv zeta in H. destruct H as (E1 & _ & _ & _ & _ & _ & _ & -> & _). exists c0. split; [|exact Hcons].
    cbn [r_cur set_cur]. unfold set_sender_chain_key. rewrite E1. exact Hc0.
  - apply state_roundtrip in H1. rewrite H1 in H2. injection H2 as <-. exists c0. auto.
Qed.

Lemma wf_step : forall s s', wf_state s -> state_step C s s' -> wf_state s'.
Proof.
  intros s s' HW HS. destruct HS as [s m g o s' g' Hu H|v pt ct r' es H|s t s' H1 H2].
  - eapply dws_wf; eassumption.
  - apply encrypt_cases in H. destruct H as [(HF & _)|(sc & body & lid & rid & sm & ct' & H)]; [exfalso; exact (HF ct eq_refl)|].
    cbv zeta in H. destruct H as (E1 & _ & _ & _ & _ & _ & _ & -> & _). cbn [r_cur set_cur].
    apply (inv_encrypt _ _ _ wf_inv); assumption.
  - apply state_roundtrip in H1. rewrite H1 in H2. injection H2 as <-. exact HW.
Qed.

Lemma used_steps : forall k n s s', wf_state s -> steps_keeping C k s s' -> used s k n -> used s' k n /\ wf_state s'.
Proof.
  intros k n s s' HW HS HU. induction HS as [s Hk|s s1 s2 Hk Hst Hrest IH]; [auto|].
  apply IH; [eapply wf_step; eassumption|]. eapply used_step; eauto.
  inversion Hrest; assumption.
Qed.

Lemma accept_uses : forall s m g pt mk s' g', no_wrap m -> wf_state s ->
  decrypt_with_state C s m g = (Ok (pt, mk), s', g') -> used s' (sm_ratchet m) (sg_counter (sm_struct m)).
Proof.
  intros s m g pt mk s' g' Hu HW H. apply dws_cases in H; [|unfold no_wrap in Hu; lia].
  destruct H as [(HF & _)|(s1 & c & HP & _ & _ & HC)]; [exfalso; exact (HF _ eq_refl)|].
  assert (HB1 := prepared_wf _ _ _ _ _ _ HP HW). assert (HCH := prepared_chain _ _ _ _ _ _ _ HP).
  assert (Hck : chain_ok c) by (destruct HB1 as [_ HF]; rewrite Forall_forall in HF; apply HF; eapply prepared_in; exact HP).
  destruct HC as [(HF & _)|(mk' & c' & HR & [(HF & _)|(pt' & rid & lid & _ & -> & _)])];
    [exfalso; exact (HF _ eq_refl)|exfalso; exact (HF _ eq_refl)|].
  exists c'. split; [|destruct (receive_ok _ _ _ _ Hck Hu HR) as (_ & X & _); exact X].
  change (receiver_chain (sm_ratchet m) (set_pending None (upd_chain (sm_ratchet m) (fun _ => c') s1)))
    with (receiver_chain (sm_ratchet m) (upd_chain (sm_ratchet m) (fun _ => c') s1)).
  eapply receiver_chain_replaced; [exact HCH|]. eapply chain_receive_pair. exact HR.
Qed.

Lemma used_rejected : forall s m g o s' g', no_wrap m -> used s (sm_ratchet m) (sg_counter (sm_struct m)) ->
  decrypt_with_state C s m g = (o, s', g') -> failed o /\ s' = s.
Proof.
  intros s m g o s' g' Hu (c0 & Hc0 & Hcons) H. apply dws_cases in H; [|unfold no_wrap in Hu; lia].
  destruct H as [HF|(s1 & c & HP & _ & _ & HC)]; [exact HF|].
  destruct HP as [(H & -> & _)|(H & _)]; [|congruence]. rewrite Hc0 in H. injection H as <-.
  destruct HC as [(HF & -> & _)|(mk & c' & HR & _)]; [auto|]. rewrite consumed_rejected in HR by exact Hcons. discriminate.
Qed.

Theorem at_most_once : forall s0 m1 g1 pt mk s1 g1' s2 m2 g2 o s3 g2', wf_state s0 ->
  no_wrap m1 -> decrypt_with_state C s0 m1 g1 = (Ok (pt, mk), s1, g1') ->
  steps_keeping C (sm_ratchet m1) s1 s2 ->
  sm_ratchet m2 = sm_ratchet m1 -> sg_counter (sm_struct m2) = sg_counter (sm_struct m1) ->
  decrypt_with_state C s2 m2 g2 = (o, s3, g2') -> failed o /\ s3 = s2.
Proof.
  intros s0 m1 g1 pt mk s1 g1' s2 m2 g2 o s3 g2' HW Hu H1 HS Ek En H2.
  assert (HU1 := accept_uses _ _ _ _ _ _ _ Hu HW H1).
  destruct (used_steps _ _ _ _ (dws_wf _ _ _ _ _ _ Hu HW H1) HS HU1) as [HU2 _].
  eapply used_rejected; [|rewrite Ek, En; exact HU2|exact H2]. unfold no_wrap in *. rewrite En. exact Hu.
Qed.
End R.
