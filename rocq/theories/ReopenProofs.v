(** ReopenProofs.v: a new session on top of old ones, with injected packets (C62). *)
From Verif Require Import Base Labels Crypto Bytehelper Ecc Cbc Wire Itoa Keys X3dh Messages SessionState SessionRecord
  SessionBuilder SessionCipher Address World WireProofs CodecProofs CodecProofs2 CryptoProofs SessionProofs SerialProofs SessionSpec
  HistoryProofs InvariantProofs OpsProofs OpsProofs3 GroupSpec MiscProofs GroupProofs ConvSpec ConvProofs ConvProofs2 ConvProofs3 ReopenSpec.
From Coq Require Import Lia ZifyBool ZifyN ZifyNat.

Section Reopen.
Context (C : crypto) (L : crypto_laws C).

(** * Records of a serializing store *)

Lemma stored_reachable : forall r, stored C u32_msg r -> reachable C u32_msg r.
Proof.
  intros r H. induction H as [|v r' es r'' r3 HS IH HO HI HP]; [constructor|].
  eapply Reach_saved; [|exact HP]. eapply Reach_written; eassumption.
Qed.

Lemma new_state_not_initialised : ~ initialised new_state.
Proof. intros (H & _). apply H. reflexivity. Qed.

Lemma ready_initialised : forall s, ready s -> initialised s.
Proof.
  intros s (Hv & Hpc & Hkx & HF & lid & rid & root & base & sc & priv & H1 & H2 & H3 & H4 & H5 & H6 & H7 & H8).
  unfold initialised. rewrite H1, H2, H3, H5, H6, Hkx. repeat split; discriminate.
Qed.

Lemma stored_ready : forall r, stored C u32_msg r -> r = new_record \/ (r_fresh r = false /\ Forall ready (states r)).
Proof.
  intros r H. assert (HR := reachable_ready C L r (stored_reachable r H)).
  inversion H as [|v r' es r'' r3 HS HO HI HP]; subst; [left; reflexivity|right].
  apply persist_iff in HP. destruct HP as (HC & HPr & ->). split; [reflexivity|].
  assert (HAll : Forall initialised (states (unfresh r''))) by (constructor; assumption).
  rewrite Forall_forall in *. intros s Hs. destruct (HR s Hs) as [->|HS']; [|exact HS'].
  exfalso. apply new_state_not_initialised. apply HAll. exact Hs.
Qed.

Lemma stored_bound : forall r, stored C u32_msg r -> (length (r_prev r) <= 40)%nat.
Proof. intros r H. apply (reachable_bounded C r (stored_reachable r H)). Qed.

Lemma prep_stored : forall r, stored C u32_msg r -> r_cur (prep_record r) = new_state /\ Forall ready (r_prev (prep_record r)) /\
  r_prev (prep_record r) = firstn 40 (if r_fresh r then [] else states r).
Proof.
  intros r H. assert (HB := stored_bound r H). destruct (stored_ready r H) as [->|[HF HR]]; [split; [reflexivity|split; [constructor|reflexivity]]|].
  unfold prep_record. rewrite HF. unfold archive_current, promote_state. cbn [r_cur r_prev]. split; [reflexivity|].
  assert (HP : (if (archived_max <? length (r_cur r :: r_prev r))%nat then removelast (r_cur r :: r_prev r) else r_cur r :: r_prev r) = firstn 40 (states r)).
  { unfold archived_max. destruct (Nat.ltb_spec 40 (length (r_cur r :: r_prev r))) as [B|B].
    - assert (HLen : length (r_cur r :: r_prev r) = 41%nat) by (cbn [length] in *; lia).
      rewrite removelast_firstn_len, HLen. reflexivity.
    - rewrite firstn_all2; [reflexivity|exact B]. }
  rewrite HP. split; [|reflexivity]. apply Forall_forall. intros s Hs. rewrite Forall_forall in HR. apply HR.
  rewrite <- (firstn_skipn 40 (states r)). apply in_or_app. left. exact Hs.
Qed.

(** * No attempt panics on a well-formed message *)

Definition wellformed (m : sig_msg) : Prop :=
  u32_msg m /\ sg_version (sm_struct m) = 3%Z /\ sig_from_struct (sm_struct m) = Ok m /\
  exists body, sg_ct (sm_struct m) = Some body /\ (length body mod 16 = 0)%nat /\ (16 <= length body)%nat.

Lemma message_rel_wellformed : forall E a b m e n pt, message_rel C E a b m e n pt -> wellformed m.
Proof.
  intros E a b m e n pt (y & Hy & M1 & M2 & M3 & M4 & M5 & M6 & M7 & M8). split; [|auto].
  unfold u32_msg, u32_modulus. rewrite M2. lia.
Qed.

Lemma chain_receive_no_panic : forall c n, chain_receive C c n <> Panic.
Proof.
  intros c n. unfold chain_receive. destruct (n <? _)%N.
  - destruct (has_message_keys c n) eqn:EH; [|discriminate]. destruct (remove_spec c n EH) as (a & mk & b & _ & _ & ->). discriminate.
  - destruct (max_future <? _)%N; discriminate.
Qed.

Lemma gcck_no_panic : forall s k g, ready s -> fst (fst (get_or_create_chain_key C s k g)) <> Panic.
Proof.
  intros s k g (Hv & Hpc & Hkx & HF & lid & rid & root & base & sc & priv & H1 & H2 & H3 & H4 & H5 & H6 & H7 & H8).
  unfold get_or_create_chain_key. destruct (receiver_chain k s); [discriminate|]. rewrite H3, H6.
  rewrite (create_chain_ok C root k (ch_pair sc) priv H7).
  destruct (generate_key_pair C g) as [[ours| |] g1] eqn:EG; cbn [fst]; try discriminate.
  - destruct (generated C _ _ _ EG) as (k' & ->). rewrite (create_chain_ok C _ k (pair_of C k') k' eq_refl). discriminate.
  - unfold generate_key_pair in EG. destruct (rng_read 32 g) as [[x|] g2]; discriminate.
Qed.

Lemma dws_no_panic : forall s m g, ready s -> wellformed m -> fst (fst (decrypt_with_state C s m g)) <> Panic.
Proof.
  intros s m g HR (Hu & Hver & Hst & body & Hb1 & Hb2 & Hb3). assert (HG := gcck_no_panic s (sm_ratchet m) g HR).
  destruct HR as (Hv & Hpc & Hkx & HF & lid & rid & root & base & sc & priv & H1 & H2 & H3 & H4 & H5 & H6 & H7 & H8).
  assert (HR : ready s) by (repeat split; auto; exists lid, rid, root, base, sc, priv; auto 10).
  unfold decrypt_with_state. rewrite H6, Hver, Hv. cbn [Z.eqb Pos.eqb negb].
  destruct (get_or_create_chain_key C s (sm_ratchet m) g) as [[oc s1] g1] eqn:EG. cbn [fst] in HG.
  destruct oc as [ck| |]; [|discriminate|exfalso; apply HG; reflexivity].
  assert (HP : exists c, prepared C s (sm_ratchet m) g s1 g1 c /\ ck = ch_key c).
  { destruct (receiver_chain (sm_ratchet m) s) as [c|] eqn:Er.
    - rewrite (gcck_known _ _ _ _ _ Er) in EG. injection EG as <- <- <-. exists c. split; [left; auto|reflexivity].
    - pose proof (gcck_new _ _ _ _ _ _ _ Er EG) as (root' & sc' & recv & send & ours & A1 & A2 & A3 & A4 & A5 & A6 & A7).
      exists (fresh_chain (sm_ratchet m) (sk_chain recv)). split; [|exact A6]. right. split; [exact Er|]. exists root', sc', recv, send, ours. repeat split; assumption. }
  destruct HP as (c & HP & ->).
  assert (HB1 := prepared_ready C L _ _ _ _ _ _ HP HR).
  rewrite (gcmk_spec C s1 _ c) by (auto; eapply prepared_chain; exact HP).
  destruct (chain_receive C c (sg_counter (sm_struct m))) as [[mk c']|e|] eqn:ER; [|discriminate|exfalso; eapply chain_receive_no_panic; exact ER].
  assert (HSz : sized_keys mk).
  { eapply (chain_receive_sized C L); [|exact ER]. destruct HB1 as (_ & _ & _ & HF1 & _). rewrite Forall_forall in HF1. apply HF1. eapply prepared_in; exact HP. }
  destruct (prepared_ids C _ _ _ _ _ _ HP) as (I1 & I2 & _).
  cbn [s_remote_id s_local_id upd_chain set_recv]. rewrite I1, I2, H1, H2.
  destruct (verify_mac C m 3 rid lid (mk_mac mk)) as [[]| |] eqn:EV; [|discriminate|exfalso; revert EV; apply (genuine_no_panic C L); exact Hst].
  destruct (decrypt_with_key C m mk) as [q| |] eqn:ED; [discriminate|discriminate|].
  exfalso. revert ED. destruct HSz as (Z1 & Z2 & Z3). eapply (body_no_panic C L); eauto.
Qed.

Lemma try_prev_ready : forall l m g o l' g', Forall ready l -> wellformed m -> try_prev C l m g = (o, l', g') ->
  o <> Panic /\ Forall ready l' /\ (forall i x, o = Ok (i, x) -> nth_error l' i <> None).
Proof.
  intros l. induction l as [|s l IH]; intros m g o l' g' HF HW H.
  - injection H as <- <- <-. split; [discriminate|]. split; [constructor|]. discriminate.
  - inversion HF as [|? ? HS HL]; subst. cbn [try_prev] in H.
    pose proof (dws_no_panic s m g HS HW) as HNP. destruct (decrypt_with_state C s m g) as [[[x|e|] s1] g1] eqn:ED; cbn [fst] in HNP.
    + injection H as <- <- <-. split; [discriminate|]. split; [constructor; [eapply (dws_ready C L); [apply HW|exact HS|exact ED]|exact HL]|].
      intros i y HE. injection HE as <- <-. discriminate.
    + assert (HS1 : ready s1) by (eapply (dws_ready C L); [apply HW|exact HS|exact ED]).
      destruct (try_prev C l m g1) as [[o2 l2] g2] eqn:ET. destruct (IH _ _ _ _ _ HL HW ET) as (A1 & A2 & A3).
      destruct o2 as [[i x]|e'|]; injection H as <- <- <-; (split; [try discriminate; exact A1|]); (split; [constructor; assumption|]); intros j y HE; try discriminate.
      injection HE as <- <-. cbn [nth_error]. eapply A3. reflexivity.
    + exfalso. apply HNP. reflexivity.
Qed.

Lemma promote_ready : forall s r, ready s -> Forall ready (states r) -> Forall ready (states (promote_state s r)).
Proof.
  intros s r HS HR. constructor; [exact HS|]. cbn [r_prev promote_state]. destruct (_ <? _)%nat; [|exact HR].
  unfold states in HR. rewrite (app_removelast_last new_state) in HR by discriminate. apply Forall_app in HR. apply HR.
Qed.

Lemma dwr_any : forall r m g o s' g', Forall ready (states r) -> wellformed m -> decrypt_with_state C (r_cur r) m g = (o, s', g') ->
  match o with
  | Ok x => decrypt_with_record C r m g = (Ok x, set_cur s' r, g')
  | Err _ => exists o2 r' g2, decrypt_with_record C r m g = (o2, r', g2) /\ o2 <> Panic /\ Forall ready (states r')
  | Panic => False
  end.
Proof.
  intros r m g o s' g' HR HW HD. inversion HR as [|? ? HC HP]; subst. pose proof (dws_no_panic (r_cur r) m g HC HW) as HNP. rewrite HD in HNP. cbn [fst] in HNP.
  unfold decrypt_with_record. rewrite HD. destruct o as [x|e|]; [reflexivity| |apply HNP; reflexivity].
  assert (HS' : ready s') by (eapply (dws_ready C L); [apply HW|exact HC|exact HD]).
  destruct (try_prev C (r_prev r) m g') as [[o2 l] g2] eqn:ET. destruct (try_prev_ready _ _ _ _ _ _ HP HW ET) as (A1 & A2 & A3).
  destruct o2 as [[j x]|e'|].
  - specialize (A3 j x eq_refl). destruct (nth_error l j) as [st|] eqn:EN; [|exfalso; apply A3; reflexivity].
    eexists. eexists. eexists. split; [reflexivity|]. split; [discriminate|]. apply promote_ready.
    + rewrite Forall_forall in A2. apply A2. eapply nth_error_In; exact EN.
    + constructor; [exact HS'|]. cbn [r_prev set_prev]. unfold go_delete_shared. apply Forall_forall. intros z Hz.
      rewrite Forall_forall in A2. apply A2. apply in_app_or in Hz. destruct Hz as [Hz|Hz].
      * rewrite <- (firstn_skipn j l). apply in_or_app. left. exact Hz.
      * apply in_app_or in Hz. destruct Hz as [Hz|Hz].
        -- rewrite <- (firstn_skipn (S j) l). apply in_or_app. right. exact Hz.
        -- destruct (rev l) as [|y t] eqn:ERv; [destruct Hz|]. destruct Hz as [<-|[]]. apply in_rev. rewrite ERv. left. reflexivity.
  - eexists. eexists. eexists. split; [reflexivity|]. split; [discriminate|]. constructor; assumption.
  - exfalso. apply A1. reflexivity.
Qed.

Lemma ready_persist : forall r, Forall ready (states r) -> persist r = Ok (unfresh r).
Proof.
  intros r H. inversion H as [|? ? HC HP]; subst. apply persist_ok; [apply ready_initialised; exact HC|].
  eapply Forall_impl; [|exact HP]. exact ready_initialised.
Qed.

Lemma ready_remote : forall s, ready s -> exists rid, s_remote_id s = Some rid.
Proof. intros s (_ & _ & _ & _ & lid & rid & root & base & sc & priv & _ & H & _). eauto. Qed.

(** A packet refused with an error changes at most a saved identity key. *)
Lemma receive_err : forall a k g w e w', receive C a k g w = (Err e, w') -> only_saved w w'.
Proof.
  intros a k g w e w' H. destruct k as [b|b]; cbn [receive] in H.
  - destruct (sig_from_bytes b) as [m|e'|]; [|injection H as _ <-; apply only_saved_refl|discriminate].
    unfold w_decrypt, decrypt_and_get_key in H. destruct (negb (v_contains (view_of w a))); [cbn in H; injection H as _ <-; apply only_saved_refl|].
    destruct (decrypt_with_record C (v_load (view_of w a)) m g) as [[[x|e'|] r'] g1]; [| |cbn in H; discriminate].
    + destruct (s_remote_id (r_cur r')) as [rid|]; [|cbn in H; discriminate]. destruct (commit a [SaveIdentity rid; StoreSession r'] w) as [w1 ok].
      destruct ok; cbn in H; [destruct x|]; discriminate.
    + cbn in H. injection H as _ <-. apply only_saved_refl.
  - destruct (pk_from_bytes b) as [m|e'|]; [|injection H as _ <-; apply only_saved_refl|discriminate].
    unfold w_decrypt_message, decrypt_message in H.
    destruct (process C (view_of w a) (v_load (view_of w a)) m) as [[op rp] ef] eqn:EP.
    assert (HE : ef = [] \/ ef = [SaveIdentity (pm_identity m)]).
    { unfold process in EP. destruct (negb _); [injection EP as _ _ <-; auto|]. destruct (process_v3 C (view_of w a) (v_load (view_of w a)) m) as [[]];
        injection EP as _ _ <-; auto. }
    assert (HO : forall w1 ok, commit a ef w = (w1, ok) -> only_saved w w1).
    { intros w1 ok HC. destruct HE as [->| ->]; cbn in HC; injection HC as <- _; repeat split. }
    destruct op as [id|e'|].
    + destruct (decrypt_with_record C rp (pm_message m) g) as [[[x|e'|] r2] g1].
      * exfalso. destruct id as [oo|].
        -- match type of H with context [commit ?A ?B ?D] => destruct (commit A B D) as [w1 ok] end. destruct ok; cbn in H; [destruct x|]; discriminate.
        -- match type of H with context [commit ?A ?B ?D] => destruct (commit A B D) as [w1 ok] end. destruct ok; cbn in H; discriminate.
      * destruct (commit a ef w) as [w1 ok] eqn:EC. destruct ok; cbn in H; [|discriminate]. injection H as _ <-. eapply HO. reflexivity.
      * destruct (commit a ef w) as [w1 ok]. destruct ok; cbn in H; discriminate.
    + destruct (commit a ef w) as [w1 ok] eqn:EC. destruct ok; cbn in H; [|discriminate]. injection H as _ <-. eapply HO. reflexivity.
    + destruct (commit a ef w) as [w1 ok]. destruct ok; cbn in H; discriminate.
Qed.
End Reopen.
