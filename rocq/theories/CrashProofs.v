(** CrashProofs.v: the exact conditions under which session operations panic (C64). *)
From Verif Require Import Base Labels Crypto Bytehelper Ecc Cbc Keys X3dh Messages SessionState SessionRecord
  SessionBuilder SessionCipher Address World Toy WireProofs CodecProofs CodecProofs2 CryptoProofs SessionProofs SerialProofs SessionSpec
  HistoryProofs InvariantProofs GroupSpec ConvSpec ConvProofs ReopenProofs CrashSpec.
From Coq Require Import ZifyBool ZifyN ZifyNat.

Section Crash.
Context (C : crypto) (L : crypto_laws C).

(** * Histories *)

Definition owned (w : world) : Prop :=
  private_prekeys w /\ forall a r, w_sessions w a = Some r -> stored C u32_msg r /\ r_fresh r = false.

Lemma persist_not_fresh : forall r r', persist r = Ok r' -> r_fresh r' = false.
Proof.
  intros r r' H. unfold persist in H. destruct (record_structure r) as [t| |]; try discriminate. cbn [bind] in H.
  unfold record_from_structure in H.
  repeat match type of H with (bind ?e _) = _ => destruct e; cbn [bind] in H; try discriminate end.
  injection H as <-. reflexivity.
Qed.

Lemma view_stored : forall w a, owned w -> stored C u32_msg (v_load (view_of w a)).
Proof. intros w a [_ H]. cbn [v_load view_of]. destruct (w_sessions w a) as [r|] eqn:E; [apply (H a r E)|constructor]. Qed.

Lemma commit_owned : forall a v r', stored C u32_msg (v_load v) -> forall es, (forall r'', In (StoreSession r'') es -> exists es0, session_op C u32_msg v r' es0 /\ In (StoreSession r'') es0) ->
  forall w, owned w -> owned (fst (commit a es w)).
Proof.
  intros a v r' Hv es. induction es as [|e es IH]; intros He w Hw; [exact Hw|]. cbn [commit].
  destruct (apply_effect a e w) as [w'|] eqn:EA; [|exact Hw]. apply IH; [intros r'' H; apply He; right; exact H|].
  destruct Hw as [[HP HS] HW]. destruct e as [r''|k|i]; cbn [apply_effect] in EA.
  - destruct (persist r'') as [r3| |] eqn:EP; try discriminate. injection EA as <-. split; [split; assumption|].
    cbn [w_sessions]. intros b r. unfold upd_addr. destruct (address_eqb a b); [|apply HW]. intros H. injection H as <-.
    destruct (He r'' (or_introl eq_refl)) as (es0 & H1 & H2). split; [eapply Stored_write; eassumption|eapply persist_not_fresh; exact EP].
  - injection EA as <-. split; [split; assumption|exact HW].
  - injection EA as <-. split; [|exact HW]. split; [|exact HS]. cbn [w_prekeys]. intros j p. unfold upd_id. destruct (i =? j)%N; [discriminate|apply HP].
Qed.

Lemma lived_owned : forall w, lived C w -> owned w.
Proof.
  intros w H. induction H as [w H1 H2|w a r' es n H IH HO|w w' H IH H1 H2].
  - split; [exact H2|]. intros a r E. rewrite H1 in E. discriminate.
  - eapply commit_owned; [exact (view_stored w a IH)| |exact IH]. intros r'' Hin. exists es. split; [exact HO|].
    rewrite <- (firstn_skipn n es). apply in_or_app. left. exact Hin.
  - split; [exact H2|]. intros a r E. destruct (H1 a) as [E1|E1]; rewrite E1 in E; [|discriminate]. destruct IH as [_ IH]. apply (IH a r E).
Qed.

Lemma owned_ready : forall w a r, owned w -> w_sessions w a = Some r -> Forall ready (states r).
Proof.
  intros w a r [_ H] E. destruct (H a r E) as [HS HF]. destruct (stored_ready C L r HS) as [->|[_ HR]]; [discriminate|exact HR].
Qed.

(** * One attempt *)

Lemma iter_ck : forall d ck, Nat.iter d (next_key C) ck = ck_iter C d ck.
Proof. intros d. induction d as [|d IH]; intros ck; [reflexivity|]. rewrite ck_iter_snoc. cbn [Nat.iter nat_rect]. f_equal. apply IH. Qed.

Lemma find_index_find : forall n l, match find_index n l with Some i => nth_error l i = find (fun k => (mk_index k =? n)%N) l /\ find (fun k => (mk_index k =? n)%N) l <> None | None => find (fun k => (mk_index k =? n)%N) l = None end.
Proof.
  intros n l. induction l as [|m l IH]; [reflexivity|]. cbn [find_index find]. destruct (mk_index m =? n)%N; [split; [reflexivity|discriminate]|].
  destruct (find_index n l) as [i|]; cbn [option_map]; exact IH.
Qed.

Lemma keys_for_receive : forall c n mk, (n < u32_modulus)%N -> keys_for C c n mk <-> exists c', chain_receive C c n = Ok (mk, c').
Proof.
  intros c n mk Hn. unfold keys_for, chain_receive. destruct (n <? ck_index (ch_key c))%N eqn:E1.
  - split.
    + intros [(_ & H)|(d & H & _)]; [|lia]. pose proof (find_some _ _ H) as (HI & Hx).
      assert (HH : has_message_keys c n = true) by (unfold has_message_keys; apply existsb_exists; exists mk; auto).
      rewrite HH. unfold remove_message_keys. pose proof (find_index_find n (ch_msgs c)) as HF. destruct (find_index n (ch_msgs c)) as [i|] eqn:EI;
        [|rewrite HF in H; discriminate].
      destruct HF as [HF _]. rewrite H in HF. cbv zeta. rewrite HF. eauto.
    + intros (c' & H). left. split; [lia|]. destruct (has_message_keys c n) eqn:HH; [|discriminate].
      destruct (find_index_some _ _ HH) as (i0 & x0 & E1' & _ & _).
      unfold remove_message_keys in H. pose proof (find_index_find n (ch_msgs c)) as HF. rewrite E1' in H, HF. cbv zeta in H.
      destruct HF as [HF HN]. rewrite HF in H. destruct (find (fun k => (mk_index k =? n)%N) (ch_msgs c)) as [x|]; [|discriminate].
      injection H as <- _. reflexivity.
  - unfold max_future. split.
    + intros [(H & _)|(d & H & Hd & ->)]; [lia|]. replace (5000 <? n - ck_index (ch_key c))%N with false by lia.
      rewrite iter_ck. replace (N.to_nat (n - ck_index (ch_key c))) with d by lia. eauto.
    + intros (c' & H). right. destruct (5000 <? n - ck_index (ch_key c))%N eqn:E2; [discriminate|].
      exists (N.to_nat (n - ck_index (ch_key c))). split; [lia|]. split; [lia|]. injection H as <- _. rewrite iter_ck. reflexivity.
Qed.

(** A parsed message. *)
Definition parsed (m : sig_msg) : Prop := u32_msg m /\ sig_from_struct (sm_struct m) = Ok m.

Lemma parsed_bytes : forall b m, sig_from_bytes b = Ok m -> parsed m.
Proof.
  intros b m H. split; [apply sig_from_bytes_ok in H; destruct H as (_ & _ & _ & _ & H & _); exact H|].
  unfold sig_from_bytes in H. destruct (sig_deserialize b) as [s| |]; try discriminate. cbn [bind] in H.
  assert (E : sm_struct m = s); [|rewrite E; exact H].
  unfold sig_from_struct in H. destruct (sg_version s <=? unsupported_version)%Z; [discriminate|]. destruct (sg_version s >? current_version)%Z; [discriminate|].
  destruct (sg_ct s); [|discriminate]. destruct (sg_ratchet s) as [rk|]; [|discriminate]. destruct (decode_point rk); try discriminate. injection H as <-. reflexivity.
Qed.

Lemma body_panics : forall m mk, sized_keys mk -> (decrypt_with_key C m mk = Panic <-> ragged m).
Proof.
  intros m mk (H1 & H2 & H3). unfold decrypt_with_key. rewrite (decrypt_cbc_panics C L). unfold aes_key_ok. rewrite H1, H3. cbn [Nat.eqb orb].
  unfold ragged. destruct (sg_ct (sm_struct m)) as [b|].
  - split; [intros (_ & A & [B|B]); [exfalso; apply B; reflexivity|exists b; auto]|]. intros (b' & E & A & B). injection E as <-. auto.
  - split; [intros (_ & A & _); cbn [length] in A; lia|]. intros (b' & E & _). discriminate.
Qed.

Lemma ragged_no_plain : forall m mk x, sized_keys mk -> ragged m -> decrypt_with_key C m mk <> Ok x.
Proof. intros m mk x H1 H2. apply (body_panics m mk H1) in H2. rewrite H2. discriminate. Qed.

Lemma prepared_chain_for : forall s k g s1 g1 c, prepared C s k g s1 g1 c -> chain_for C s k c.
Proof.
  intros s k g s1 g1 c [(H & _)|(H & root & sc & recv & send & ours & A1 & A2 & A3 & A4 & A5 & A6 & A7)]; [left; exact H|].
  right. split; [exact H|]. exists root, sc, recv. auto.
Qed.

Lemma chain_for_fun : forall s k c c', chain_for C s k c -> chain_for C s k c' -> c = c'.
Proof.
  intros s k c c' [H|(H & root & sc & x & A1 & A2 & A3 & ->)] [H'|(H' & root' & sc' & x' & B1 & B2 & B3 & ->)].
  - rewrite H in H'. injection H' as <-. reflexivity.
  - rewrite H in H'. discriminate.
  - rewrite H in H'. discriminate.
  - rewrite A1 in B1. injection B1 as <-. rewrite A2 in B2. injection B2 as <-. rewrite A3 in B3. injection B3 as <-. reflexivity.
Qed.

(** The outcome of an attempt on an initialised state: it panics only on a ragged authentic message, and does so
    when the random source works. *)
Lemma dws_panic : forall s m g o s' g', ready s -> parsed m -> decrypt_with_state C s m g = (o, s', g') ->
  (o = Panic -> ragged m /\ authentic C s m) /\
  (ragged m -> forall x, o <> Ok x) /\
  (reads 1 g -> ragged m -> authentic C s m -> o = Panic) /\
  (forall n, reads (S n) g -> reads n g').
Proof.
  intros s m g o s' g' HR [Hu Hst] H. assert (HG := gcck_no_panic C s (sm_ratchet m) g HR).
  pose proof HR as (Hv & Hpc & Hkx & HF & lid & rid & root & base & sc & priv & H1 & H2 & H3 & H4 & H5 & H6 & H7 & H8).
  unfold decrypt_with_state in H. rewrite H6, Hv in H.
  assert (Hrd : forall n, reads (S n) g -> reads n g).
  { intros n. clear. revert g. induction n as [|n IH]; intros g (x & g' & -> & Hg); [exact I|]. exists x, g'. split; [reflexivity|]. apply IH. exact Hg. }
  destruct (sg_version (sm_struct m) =? 3)%Z eqn:Ever; cbn [negb] in H.
  2: { injection H as <- <- <-. split; [discriminate|]. split; [discriminate|]. split; [|exact Hrd].
       intros _ _ (? & ? & ? & ? & _ & _ & X & _). lia. }
  assert (Hver : sg_version (sm_struct m) = 3%Z) by lia. rewrite Hver in H.
  destruct (get_or_create_chain_key C s (sm_ratchet m) g) as [[oc s1] g1] eqn:EG. cbn [fst] in HG.
  destruct oc as [ck|e|]; [| |exfalso; apply HG; reflexivity].
  2: { assert (EX : receiver_chain (sm_ratchet m) s = None /\ exists e', fst (generate_key_pair C g) = Err e' /\ g1 = snd (generate_key_pair C g)).
       { unfold get_or_create_chain_key in EG. destruct (receiver_chain (sm_ratchet m) s); [discriminate|]. split; [reflexivity|]. rewrite H3, H6 in EG.
         rewrite (create_chain_ok C root (sm_ratchet m) (ch_pair sc) priv H7) in EG. destruct (generate_key_pair C g) as [[ours|e'|] g2] eqn:E2.
         - destruct (generated_private C _ _ _ E2) as (k' & ->). rewrite (create_chain_ok C _ _ (pair_of C k') k' eq_refl) in EG. discriminate.
         - injection EG as _ _ <-. exists e'. split; reflexivity.
         - injection EG as EX _ _. discriminate. }
       injection H as <- <- <-. destruct EX as (_ & e' & EX & EG1). split; [discriminate|]. split; [discriminate|].
       assert (NR : forall n, reads (S n) g -> False).
       { intros n (x & g' & -> & _). unfold generate_key_pair, rng_read in EX. cbn in EX. discriminate. }
       split; [intros X _ _; destruct (NR _ X)|intros n X; destruct (NR _ X)]. }
  assert (HP : exists c, prepared C s (sm_ratchet m) g s1 g1 c /\ ck = ch_key c).
  { destruct (receiver_chain (sm_ratchet m) s) as [c|] eqn:Er.
    - rewrite (gcck_known _ _ _ _ _ Er) in EG. injection EG as <- <- <-. exists c. split; [left; auto|reflexivity].
    - pose proof (gcck_new _ _ _ _ _ _ _ Er EG) as (root' & sc' & recv & send & ours & A1 & A2 & A3 & A4 & A5 & A6 & A7).
      exists (fresh_chain (sm_ratchet m) (sk_chain recv)). split; [|exact A6]. right. split; [exact Er|]. exists root', sc', recv, send, ours. repeat split; assumption. }
  destruct HP as (c & HP & ->).
  assert (Hrd1 : forall n, reads (S n) g -> reads n g1).
  { destruct HP as [(_ & _ & ->)|(_ & root' & sc' & recv & send & ours & _ & _ & _ & A4 & _)]; [exact Hrd|].
    intros n (x & gx & -> & Hg). unfold generate_key_pair, rng_read in A4. injection A4 as _ <-. exact Hg. }
  assert (HB1 := prepared_ready C L _ _ _ _ _ _ HP HR).
  rewrite (gcmk_spec C s1 _ c) in H by (auto; eapply prepared_chain; exact HP).
  assert (HCF := prepared_chain_for _ _ _ _ _ _ HP).
  destruct (chain_receive C c (sg_counter (sm_struct m))) as [[mk c']|e|] eqn:ER; [| |exfalso; eapply chain_receive_no_panic; exact ER].
  2: { injection H as <- <- <-. split; [discriminate|]. split; [discriminate|]. split; [|exact Hrd1].
       intros _ _ (lid' & rid' & c0 & mk & _ & _ & _ & A1 & A2 & _). rewrite (chain_for_fun _ _ _ _ A1 HCF) in A2.
       apply (keys_for_receive _ _ _ Hu) in A2. destruct A2 as (c' & A2). rewrite ER in A2. discriminate. }
  assert (HSz : sized_keys mk).
  { eapply (chain_receive_sized C L); [|exact ER]. destruct HB1 as (_ & _ & _ & HF1 & _). rewrite Forall_forall in HF1. apply HF1. eapply prepared_in; exact HP. }
  destruct (prepared_ids C _ _ _ _ _ _ HP) as (I1 & I2 & _).
  cbn [s_remote_id s_local_id upd_chain set_recv] in H. rewrite I1, I2, H1, H2 in H.
  assert (HKF : keys_for C c (sg_counter (sm_struct m)) mk) by (apply (keys_for_receive _ _ _ Hu); eauto).
  assert (HAu : authentic C s m <-> verify_mac C m 3 rid lid (mk_mac mk) = Ok tt).
  { split.
    - intros (lid' & rid' & c0 & mk' & A1 & A2 & _ & A3 & A4 & A5). rewrite H1 in A1. injection A1 as <-. rewrite H2 in A2. injection A2 as <-.
      rewrite (chain_for_fun _ _ _ _ A3 HCF) in A4. apply (keys_for_receive _ _ _ Hu) in A4. destruct A4 as (c1 & A4). rewrite ER in A4. injection A4 as <- _. exact A5.
    - intros E. exists lid, rid, c, mk. auto 10. }
  destruct (verify_mac C m 3 rid lid (mk_mac mk)) as [[]|e|] eqn:EV; [| |exfalso; revert EV; apply (genuine_no_panic C L); exact Hst].
  2: { injection H as <- <- <-. split; [discriminate|]. split; [discriminate|]. split; [|exact Hrd1]. intros _ _ X. apply HAu in X. discriminate. }
  pose proof (body_panics m mk HSz) as HBP.
  destruct (decrypt_with_key C m mk) as [q|e|] eqn:ED; injection H as <- <- <-.
  - split; [discriminate|]. split; [intros X; apply HBP in X; discriminate|]. split; [intros _ X; apply HBP in X; discriminate|exact Hrd1].
  - split; [discriminate|]. split; [discriminate|]. split; [intros _ X; apply HBP in X; discriminate|exact Hrd1].
  - split; [intros _; split; [apply HBP; reflexivity|apply HAu; reflexivity]|]. split; [discriminate|]. split; [reflexivity|exact Hrd1].
Qed.

Lemma try_prev_panic : forall l m g o l' g', Forall ready l -> parsed m -> try_prev C l m g = (o, l', g') ->
  (o = Panic -> ragged m /\ Exists (fun s => authentic C s m) l) /\
  (ragged m -> forall x, o <> Ok x) /\
  (reads (length l) g -> ragged m -> Exists (fun s => authentic C s m) l -> o = Panic) /\
  (forall i x, o = Ok (i, x) -> nth_error l' i <> None) /\ Forall ready l'.
Proof.
  intros l. induction l as [|s l IH]; intros m g o l' g' HF HW H.
  - injection H as <- <- <-. split; [discriminate|]. split; [discriminate|]. split; [intros _ _ X; inversion X|]. split; [discriminate|constructor].
  - inversion HF as [|? ? HS HL]; subst. cbn [try_prev] in H. destruct (decrypt_with_state C s m g) as [[o1 s1] g1] eqn:ED.
    destruct (dws_panic _ _ _ _ _ _ HS HW ED) as (A1 & A2 & A3 & A4).
    assert (HS1 : ready s1) by (eapply (dws_ready C L); [apply HW|exact HS|exact ED]).
    destruct o1 as [x|e|].
    + injection H as <- <- <-. split; [discriminate|]. split; [intros X; destruct (A2 X x eq_refl)|].
      split; [intros _ X; destruct (A2 X x eq_refl)|]. split; [|constructor; assumption]. intros i y E. injection E as <- <-. discriminate.
    + destruct (try_prev C l m g1) as [[o2 l2] g2] eqn:ET. destruct (IH _ _ _ _ _ HL HW ET) as (B1 & B2 & B3 & B4 & B5).
      assert (HX : reads (length (s :: l)) g -> ragged m -> Exists (fun s => authentic C s m) (s :: l) -> o2 = Panic).
      { intros R1 R2 R3. apply B3; [apply A4; exact R1|exact R2|]. inversion R3 as [? ? X|? ? X]; subst; [|exact X].
        assert (R4 : reads 1 g) by (destruct R1 as (y & gy & -> & _); exists y, gy; split; [reflexivity|exact I]).
        specialize (A3 R4 R2 X). discriminate. }
      destruct o2 as [[i x]|e'|]; injection H as <- <- <-.
      * split; [discriminate|]. split; [intros X; destruct (B2 X (i, x) eq_refl)|]. split; [intros R1 R2 R3; specialize (HX R1 R2 R3); discriminate|].
        split; [|constructor; assumption]. intros j y E. injection E as <- <-. cbn [nth_error]. eapply B4. reflexivity.
      * split; [discriminate|]. split; [discriminate|]. split; [intros R1 R2 R3; specialize (HX R1 R2 R3); discriminate|]. split; [discriminate|constructor; assumption].
      * split; [|split; [discriminate|]; split; [reflexivity|]; split; [discriminate|constructor; assumption]].
        intros _. destruct (B1 eq_refl) as [X Y]. split; [exact X|]. right. exact Y.
    + injection H as <- <- <-. split; [intros _; destruct (A1 eq_refl) as [X Y]; split; [exact X|left; exact Y]|].
      split; [discriminate|]. split; [reflexivity|]. split; [discriminate|constructor; assumption].
Qed.

Lemma delete_shared_ready : forall j l, Forall ready l -> Forall ready (go_delete_shared j l).
Proof.
  intros j l A2. unfold go_delete_shared. apply Forall_forall. intros z Hz. rewrite Forall_forall in A2. apply A2. apply in_app_or in Hz. destruct Hz as [Hz|Hz].
  * rewrite <- (firstn_skipn j l). apply in_or_app. left. exact Hz.
  * apply in_app_or in Hz. destruct Hz as [Hz|Hz].
    -- rewrite <- (firstn_skipn (S j) l). apply in_or_app. right. exact Hz.
    -- destruct (rev l) as [|y t] eqn:ERv; [destruct Hz|]. destruct Hz as [<-|[]]. apply in_rev. rewrite ERv. left. reflexivity.
Qed.

Lemma dwr_panic : forall r m g o r' g', Forall ready (states r) -> parsed m -> decrypt_with_record C r m g = (o, r', g') ->
  (o = Panic -> ragged m /\ Exists (fun s => authentic C s m) (states r)) /\
  (reads (length (states r)) g -> ragged m -> Exists (fun s => authentic C s m) (states r) -> o = Panic) /\
  (forall x, o = Ok x -> Forall ready (states r')).
Proof.
  intros r m g o r' g' HF HW H. inversion HF as [|? ? HS HL]; subst. unfold decrypt_with_record in H.
  destruct (decrypt_with_state C (r_cur r) m g) as [[o1 s1] g1] eqn:ED.
  destruct (dws_panic _ _ _ _ _ _ HS HW ED) as (A1 & A2 & A3 & A4).
  assert (HS1 : ready s1) by (eapply (dws_ready C L); [apply HW|exact HS|exact ED]).
  destruct o1 as [x|e|].
  - injection H as <- <- <-. split; [discriminate|]. split; [intros _ X; destruct (A2 X x eq_refl)|]. intros y _. constructor; assumption.
  - destruct (try_prev C (r_prev r) m g1) as [[o2 l2] g2] eqn:ET. destruct (try_prev_panic _ _ _ _ _ _ HL HW ET) as (B1 & B2 & B3 & B4 & B5).
    assert (HX : reads (length (states r)) g -> ragged m -> Exists (fun s => authentic C s m) (states r) -> o2 = Panic).
    { intros R1 R2 R3. apply B3; [apply A4; exact R1|exact R2|]. inversion R3 as [? ? X|? ? X]; subst; [|exact X].
      assert (R4 : reads 1 g) by (destruct R1 as (y & gy & -> & _); exists y, gy; split; [reflexivity|exact I]).
      specialize (A3 R4 R2 X). discriminate. }
    destruct o2 as [[i x]|e'|].
    + specialize (B4 i x eq_refl). destruct (nth_error l2 i) as [st|] eqn:EN; [|exfalso; apply B4; reflexivity].
      injection H as <- <- <-. split; [discriminate|]. split; [intros R1 R2 R3; specialize (HX R1 R2 R3); discriminate|].
      intros y _. apply promote_ready; [rewrite Forall_forall in B5; apply B5; eapply nth_error_In; exact EN|].
      constructor; [exact HS1|]. cbn [r_prev set_prev]. apply delete_shared_ready. exact B5.
    + injection H as <- <- <-. split; [discriminate|]. split; [intros R1 R2 R3; specialize (HX R1 R2 R3); discriminate|]. discriminate.
    + injection H as <- <- <-. split; [|split; [reflexivity|discriminate]]. intros _. destruct (B1 eq_refl) as [X Y]. split; [exact X|]. right. exact Y.
  - injection H as <- <- <-. split; [intros _; destruct (A1 eq_refl) as [X Y]; split; [exact X|left; exact Y]|]. split; [reflexivity|discriminate].
Qed.

(** * Process *)

Lemma receiver_session_some : forall p, kp_priv (rp_our_signed p) <> None -> (forall o, rp_our_one_time p = Some o -> kp_priv o <> None) ->
  exists x, calculate_receiver_session C p = Ok x.
Proof.
  intros p H1 H2. unfold calculate_receiver_session, priv_of. destruct (kp_priv (rp_our_signed p)) as [k|]; [|exfalso; apply H1; reflexivity].
  cbn [bind]. destruct (rp_our_one_time p) as [o|].
  - specialize (H2 o eq_refl). destruct (kp_priv o) as [ko|]; [|exfalso; apply H2; reflexivity]. cbn [bind]. rewrite derive_session_ok. eauto.
  - rewrite derive_session_ok. eauto.
Qed.

Lemma new_record_matches : forall v k, has_session_state v (ser_pub k) new_record = false.
Proof. intros v k. unfold has_session_state, state_matches, base_bytes. cbn. rewrite Bool.andb_false_r. reflexivity. Qed.

Lemma process_owned : forall w a m o r' ef, owned w -> process C (view_of w a) (v_load (view_of w a)) m = (o, r', ef) ->
  (o = Panic <-> w_policy w (w_saved w) a (pm_identity m) = true /\
     has_session_state (pk_version (pm_struct m)) (ser_pub (pm_base m)) (v_load (view_of w a)) = false /\
     w_signed w (pk_signed_id (pm_struct m)) = None) /\
  (o = Panic -> ef = []) /\
  (forall id, o = Ok id -> ef = [SaveIdentity (pm_identity m)] /\ Forall ready (states r') /\ (length (states r') <= 41)%nat).
Proof.
  intros w a m o r' ef HO H. pose proof (view_stored w a HO) as HS. pose proof HO as [[HP1 HP2] HW]. unfold process in H. change (v_trusted (view_of w a)) with (w_policy w (w_saved w) a) in H.
  destruct (w_policy w (w_saved w) a (pm_identity m)) eqn:ET; cbn [negb] in H.
  2: { injection H as <- <- <-. split; [split; [discriminate|intros (X & _); discriminate]|]. split; discriminate. }
  destruct (process_v3 C (view_of w a) (v_load (view_of w a)) m) as [o1 r1] eqn:E3.
  assert (HX : (o1 = Panic <-> has_session_state (pk_version (pm_struct m)) (ser_pub (pm_base m)) (v_load (view_of w a)) = false /\
     w_signed w (pk_signed_id (pm_struct m)) = None)).
  { unfold process_v3 in E3. destruct (has_session_state _ _ (v_load (view_of w a))); [injection E3 as <- <-; split; [discriminate|intros (X & _); discriminate]|].
    change (v_signed (view_of w a)) with (w_signed w) in E3. destruct (w_signed w (pk_signed_id (pm_struct m))) as [signed|] eqn:EW;
      [|injection E3 as <- <-; split; auto].
    split; [|intros (_ & X); discriminate]. intros ->. exfalso.
    destruct (pk_prekey_id (pm_struct m)) as [oo|].
    - change (v_prekey (view_of w a)) with (w_prekeys w) in E3. destruct (w_prekeys w (ou_value oo)) as [kp|] eqn:EK; [|discriminate].
      match type of E3 with context [calculate_receiver_session C ?p] => destruct (receiver_session_some p) as (x & Ex) end;
        [exact (HP2 _ _ EW)|cbn [rp_our_one_time]; intros oz Ez; injection Ez as <-; exact (HP1 _ _ EK)|]. rewrite Ex in E3. discriminate.
    - match type of E3 with context [calculate_receiver_session C ?p] => destruct (receiver_session_some p) as (x & Ex) end;
        [exact (HP2 _ _ EW)|discriminate|]. rewrite Ex in E3. discriminate. }
  assert (HY : forall id, o1 = Ok id -> Forall ready (states r1) /\ (length (states r1) <= 41)%nat).
  { intros id ->. apply process_v3_cases in E3. destruct E3 as [(-> & [X|(_ & X)])|[(X & _)|(signed & otk & keys & A1 & A2 & A3 & A4 & A5 & ->)]];
      [destruct (X id eq_refl)| |destruct (X id eq_refl)|].
    - split; [|cbn [states length]; pose proof (stored_bound C _ HS); lia].
      destruct (stored_ready C L _ HS) as [E|[_ E]]; [|exact E]. rewrite E, new_record_matches in X. discriminate.
    - destruct (prep_stored C L _ HS) as (B1 & B2 & B3). split.
      + constructor; [|exact B2]. cbn [r_cur set_cur].
        assert (HN : new_or_ready (init_recv (view_of w a) m signed keys (r_cur (prep_record (v_load (view_of w a)))))).
        { rewrite B1. apply (ready_init C L new_state (or_introl eq_refl)) with (otk := otk). exact A4. }
        destruct HN as [HN|HN]; [|exact HN]. exfalso. apply (f_equal s_sender) in HN. discriminate.
      + cbn [states r_prev set_cur length]. rewrite B3, firstn_length. lia. }
  destruct o1 as [id|e|]; injection H as <- <- <-.
  - split; [split; [discriminate|intros (_ & X); apply HX in X; discriminate]|]. split; [discriminate|].
    intros id' E. split; [reflexivity|]. eapply HY. reflexivity.
  - split; [split; [discriminate|intros (_ & X); apply HX in X; discriminate]|]. split; discriminate.
  - split; [split; [intros _; split; [reflexivity|apply HX; reflexivity]|reflexivity]|]. split; [reflexivity|discriminate].
Qed.

(** * Receiving *)

Lemma reads_le : forall a b g, (a <= b)%nat -> reads b g -> reads a g.
Proof.
  intros a. induction a as [|a IH]; intros b g H HR; [exact I|]. destruct b as [|b]; [lia|]. destruct HR as (x & g' & -> & HR).
  exists x, g'. split; [reflexivity|]. eapply IH; [|exact HR]. lia.
Qed.

Lemma commit_store : forall a r w, Forall ready (states r) -> exists w', commit a [StoreSession r] w = (w', true).
Proof. intros a r w H. cbn [commit apply_effect]. rewrite (ready_persist _ H). eauto. Qed.

Lemma plain_panic : forall (o : res (bytes * msg_keys)), plain o = Panic <-> o = Panic.
Proof. intros [[x y]|e|]; split; try discriminate; reflexivity. Qed.

Lemma prekey_id_some : forall b m, pk_from_bytes b = Ok m -> exists i, pk_prekey_id (pm_struct m) = Some (ou_some i) /\ parsed (pm_message m).
Proof.
  intros b m H. apply pk_from_bytes_ok in H. destruct H as (_ & _ & _ & (b' & _ & Hb) & (i & Hi)). exists i. split; [exact Hi|]. eapply parsed_bytes. exact Hb.
Qed.

(** What the store holds after a panic. *)
Lemma receive_panic : forall a k g w, owned w ->
  (fst (receive C a k g w) = Panic -> crashes C a g w k) /\ (reads 41 g -> crashes C a g w k -> fst (receive C a k g w) = Panic).
Proof.
  intros a k g w HO. destruct k as [b|b]; cbn [receive].
  - destruct (sig_from_bytes b) as [m|e|] eqn:EB.
    2: { split; [discriminate|]. intros _ H. inversion H as [? X| |? ? ? X| | |]; subst; rewrite EB in X; discriminate. }
    2: { split; [intros _; constructor; exact EB|reflexivity]. }
    assert (HW := parsed_bytes b m EB). unfold w_decrypt, decrypt_and_get_key. cbn [v_contains view_of].
    destruct (w_sessions w a) as [r|] eqn:EW; cbn [negb].
    2: { split; [discriminate|]. intros _ H. inversion H as [? X| |? ? ? X Y| | |]; subst; [rewrite EB in X; discriminate|rewrite EW in Y; discriminate]. }
    cbn [v_load view_of]. rewrite EW. assert (HR := owned_ready w a r HO EW).
    assert (HLen : (length (states r) <= 41)%nat).
    { pose proof (view_stored w a HO) as HS. cbn [v_load view_of] in HS. rewrite EW in HS. pose proof (stored_bound C _ HS). cbn [states length]. lia. }
    destruct (decrypt_with_record C r m g) as [[o r'] g1] eqn:ED. destruct (dwr_panic _ _ _ _ _ _ HR HW ED) as (A1 & A2 & A3).
    assert (HC : crashes C a g w (PSignal b) -> ragged m /\ Exists (fun s => authentic C s m) (states r)).
    { intros H. inversion H as [? X| |? m' r0 X Y Z Z'| | |]; subst; [rewrite EB in X; discriminate|]. rewrite EB in X. injection X as <-. rewrite EW in Y. injection Y as <-. auto. }
    destruct o as [x|e|].
    + specialize (A3 x eq_refl). inversion A3 as [|? ? HC1 _]; subst. destruct (ready_remote _ HC1) as (rid & Er). rewrite Er.
      cbn [commit]. cbn [apply_effect]. rewrite (ready_persist r' A3). cbn [seal fst]. split; [destruct x; discriminate|].
      intros R H. destruct (HC H) as [X Y]. specialize (A2 (reads_le _ _ _ HLen R) X Y). discriminate.
    + cbn [commit seal fst]. split; [discriminate|]. intros R H. destruct (HC H) as [X Y]. specialize (A2 (reads_le _ _ _ HLen R) X Y). discriminate.
    + cbn [commit seal fst]. split; [|reflexivity]. intros _. destruct (A1 eq_refl) as [X Y]. eapply Crash_ragged; eassumption.
  - destruct (pk_from_bytes b) as [m|e|] eqn:EB.
    2: { split; [discriminate|]. intros _ H. inversion H as [|? X| |? ? X|? ? ? ? ? X|? ? ? ? ? ? ? X]; subst; rewrite EB in X; discriminate. }
    2: { split; [intros _; constructor; exact EB|reflexivity]. }
    destruct (prekey_id_some b m EB) as (i & Hi & HW). unfold w_decrypt_message, decrypt_message.
    destruct (process C (view_of w a) (v_load (view_of w a)) m) as [[o r'] ef] eqn:EP.
    destruct (process_owned w a m o r' ef HO EP) as (P1 & P2 & P3).
    destruct o as [id|e|].
    2: { split; [cbn [seal]; destruct (commit a ef w) as [w' ok] eqn:EC; cbn [fst]; intros H|].
         - exfalso. unfold process in EP. destruct (negb _); [injection EP as _ _ <-; injection EC as _ <-; discriminate|].
           destruct (process_v3 C (view_of w a) (v_load (view_of w a)) m) as [[id|e'|] r1]; [discriminate|injection EP as _ _ <-; injection EC as _ <-; discriminate|discriminate].
         - intros _ H. exfalso. inversion H as [|? X| |? ? X Y1 Y2 Y3|? ? ? ? ? X Y|? ? ? ? ? ? ? X Y]; subst; rewrite EB in X; try discriminate; injection X as <-.
           + destruct P1 as [_ P1]. specialize (P1 (conj Y1 (conj Y2 Y3))). discriminate.
           + rewrite EP in Y. discriminate.
           + rewrite EP in Y. discriminate. }
    2: { split.
         - intros _. destruct P1 as [P1 _]. destruct (P1 eq_refl) as (Y1 & Y2 & Y3). eapply Crash_unknown_signed; eassumption.
         - intros _ _. rewrite (P2 eq_refl). reflexivity. }
    destruct (P3 id eq_refl) as (-> & HR & HLen).
    destruct (decrypt_with_record C r' (pm_message m) g) as [[o r2] g1] eqn:ED. destruct (dwr_panic _ _ _ _ _ _ HR HW ED) as (A1 & A2 & A3).
    assert (HC : crashes C a g w (PPreKey b) -> (ragged (pm_message m) /\ Exists (fun s => authentic C s (pm_message m)) (states r')) \/ (id = None /\ exists x, o = Ok x)).
    { intros H. inversion H as [|? X| |? ? X Y1 Y2 Y3|? ? ? ? ? X Y Z Z'|? ? ? ? ? ? ? X Y Z]; subst; rewrite EB in X; try discriminate; injection X as <-.
      - destruct P1 as [_ P1]. specialize (P1 (conj Y1 (conj Y2 Y3))). discriminate.
      - rewrite EP in Y. injection Y as _ <- _. left. auto.
      - rewrite EP in Y. injection Y as -> <- _. rewrite ED in Z. injection Z as -> _ _. right. split; [reflexivity|]. eexists. reflexivity. }
    destruct o as [x|e|].
    + specialize (A3 x eq_refl). destruct id as [oo|].
      * cbn [app commit]. cbn [apply_effect]. cbn [app commit]. rewrite (ready_persist r2 A3). split.
        -- destruct (ou_empty oo); cbn [commit apply_effect seal fst]; destruct x; discriminate.
        -- intros R H. destruct (HC H) as [[X Y]|[X _]]; [|discriminate]. specialize (A2 (reads_le _ _ _ HLen R) X Y). discriminate.
      * split; [intros _; eapply Crash_last_resort; eassumption|]. intros _ _. cbn [app commit]. cbn [apply_effect]. rewrite (ready_persist r2 A3). reflexivity.
    + split; [cbn [commit apply_effect seal fst]; discriminate|]. intros R H. destruct (HC H) as [[X Y]|[_ [x X]]]; [|discriminate].
      specialize (A2 (reads_le _ _ _ HLen R) X Y). discriminate.
    + split; [|reflexivity]. intros _. destruct (A1 eq_refl) as [X Y]. eapply Crash_ragged_prekey; eassumption.
Qed.

(** * Encrypt and ProcessBundle *)

Lemma encrypt_panic : forall a pt w, owned w -> (N.of_nat (length pt) + 16 < 9223372036854775808)%N ->
  (fst (w_encrypt C a pt w) = Panic <-> w_sessions w a = None) /\
  (w_sessions w a <> None -> exists ct w', w_encrypt C a pt w = (Ok ct, w')).
Proof.
  intros a pt w HO Hpt. unfold w_encrypt. destruct (w_sessions w a) as [r|] eqn:EW.
  - assert (HR := owned_ready w a r HO EW). inversion HR as [|? ? HC HP]; subst.
    assert (EV : v_load (view_of w a) = r) by (cbn [v_load view_of]; rewrite EW; reflexivity).
    destruct (encrypt_ready C L (view_of w a) pt) as (ct & r' & es & E); [rewrite EV; exact HC|exact Hpt|]. rewrite E.
    assert (HE : exists w', commit a es w = (w', true)).
    { pose proof (encrypt_cases C (view_of w a) pt _ _ _ E) as HX. destruct HX as [(X & _)|(sc & body & lid & rid & sm & ct' & X)]; [destruct (X ct eq_refl)|].
      cbv zeta in X. destruct X as (X1 & _ & _ & _ & _ & _ & _ & X8 & X9). rewrite X9. cbn [commit]. cbn [apply_effect].
      rewrite ready_persist; [eauto|]. rewrite X8, EV. constructor; [|exact HP]. cbn [r_cur set_cur]. rewrite EV in X1.
      destruct (ready_inv C L) as [_ _ HI]. destruct (HI (r_cur r) sc (or_intror HC) X1) as [X|X]; [|exact X].
      exfalso. apply (f_equal s_sender) in X. unfold set_sender_chain_key in X. rewrite X1 in X. discriminate. }
    destruct HE as (w' & ->). cbn [seal fst]. split; [split; discriminate|]. eauto.
  - unfold encrypt. cbn [v_load view_of]. rewrite EW. cbn. split; [split; reflexivity|]. intros X. exfalso. apply X. reflexivity.
Qed.

(** What the store holds after a panic. *)
Lemma receive_panic_world : forall a k g w w', owned w -> receive C a k g w = (Panic, w') ->
  w_prekeys w' = w_prekeys w /\ w_signed w' = w_signed w /\
  (w_sessions w' = w_sessions w \/
   exists b m, k = PPreKey b /\ pk_from_bytes b = Ok m /\ pk_prekey_id (pm_struct m) = Some (ou_some 16777215)).
Proof.
  intros a k g w w' HO H. destruct k as [b|b]; cbn [receive] in H.
  - destruct (sig_from_bytes b) as [m|e|] eqn:EB; [|discriminate|injection H as <-; auto].
    assert (HW := parsed_bytes b m EB). unfold w_decrypt, decrypt_and_get_key in H. cbn [v_contains view_of] in H.
    destruct (w_sessions w a) as [r|] eqn:EW; cbn [negb] in H; [|discriminate].
    cbn [v_load view_of] in H. rewrite EW in H. assert (HR := owned_ready w a r HO EW).
    destruct (decrypt_with_record C r m g) as [[o r'] g1] eqn:ED. destruct (dwr_panic _ _ _ _ _ _ HR HW ED) as (A1 & A2 & A3).
    destruct o as [x|e|]; [|discriminate|injection H as <-; auto].
    specialize (A3 x eq_refl). inversion A3 as [|? ? HC1 _]; subst. destruct (ready_remote _ HC1) as (rid & Er). rewrite Er in H.
    cbn [commit] in H. cbn [apply_effect] in H. rewrite (ready_persist r' A3) in H. cbn [seal] in H. destruct x. discriminate.
  - destruct (pk_from_bytes b) as [m|e|] eqn:EB; [|discriminate|injection H as <-; auto].
    destruct (prekey_id_some b m EB) as (i & Hi & HW). unfold w_decrypt_message, decrypt_message in H.
    destruct (process C (view_of w a) (v_load (view_of w a)) m) as [[o r'] ef] eqn:EP.
    destruct (process_owned w a m o r' ef HO EP) as (P1 & P2 & P3).
    destruct o as [id|e|]; [| |rewrite (P2 eq_refl) in H; injection H as <-; auto].
    2: { exfalso. unfold process in EP. destruct (negb _); [injection EP as _ _ <-; discriminate|].
         destruct (process_v3 C (view_of w a) (v_load (view_of w a)) m) as [[id|e'|] r1]; [discriminate|injection EP as _ _ <-; discriminate|discriminate]. }
    destruct (P3 id eq_refl) as (-> & HR & HLen).
    destruct (decrypt_with_record C r' (pm_message m) g) as [[o r2] g1] eqn:ED. destruct (dwr_panic _ _ _ _ _ _ HR HW ED) as (A1 & A2 & A3).
    destruct o as [x|e|].
    + specialize (A3 x eq_refl). destruct id as [oo|].
      * cbn [app commit] in H. cbn [apply_effect] in H. cbn [app commit] in H. rewrite (ready_persist r2 A3) in H.
        exfalso. destruct (ou_empty oo); cbn [commit apply_effect seal] in H; destruct x; discriminate.
      * cbn [app commit] in H. cbn [apply_effect] in H. rewrite (ready_persist r2 A3) in H. injection H as <-.
        split; [reflexivity|]. split; [reflexivity|]. right. exists b, m. split; [reflexivity|]. split; [exact EB|].
        unfold process in EP. destruct (negb _); [discriminate|]. destruct (process_v3 C (view_of w a) (v_load (view_of w a)) m) as [o1 r1] eqn:E3.
        destruct o1 as [id|e'|]; [|discriminate|discriminate]. injection EP as -> <-.
        apply process_v3_cases in E3. destruct E3 as [(_ & [X|(X & _)])|[(X & _)|(signed & otk & keys & B1 & B2 & B3 & B4 & B5 & _)]];
          [destruct (X None eq_refl)|discriminate|destruct (X None eq_refl)|]. rewrite Hi in B5. cbn [ou_value ou_some] in B5.
        destruct (i =? medium_max)%N eqn:EM; [|discriminate]. apply N.eqb_eq in EM. rewrite Hi, EM. reflexivity.
    + exfalso. cbn [commit apply_effect seal] in H. discriminate.
    + cbn [commit apply_effect seal] in H. injection H as <-. auto.
Qed.

(** The bytes of an encrypted message cannot be produced exactly when the session was started from a bundle with a
    nil prekey id and no reply has come. *)
Lemma pack_panic : forall a pt w ct w', w_encrypt C a pt w = (Ok ct, w') ->
  (pack ct = Panic <-> exists r p, w_sessions w a = Some r /\ s_pending (r_cur r) = Some p /\ pp_id p = None) /\
  (pack ct <> Panic -> exists k, pack ct = Ok k).
Proof.
  intros a pt w ct w' H. unfold w_encrypt in H. destruct (encrypt C (view_of w a) pt) as [[o r'] es] eqn:E.
  destruct (commit a es w) as [w1 ok]. destruct ok; [|discriminate]. cbn [seal] in H. injection H as -> <-.
  apply encrypt_cases in E. destruct E as [(X & _)|(sc & body & lid & rid & sm & ct' & X)]; [destruct (X ct eq_refl)|].
  cbv zeta in X. destruct X as (X1 & _ & _ & _ & _ & X6 & X7 & _). injection X7 as <-.
  assert (EV : exists r, w_sessions w a = Some r /\ v_load (view_of w a) = r).
  { cbn [v_load view_of] in *. destruct (w_sessions w a) as [r|]; [eauto|discriminate X1]. }
  destruct EV as (r & EW & EV). rewrite EV in X6. destruct (s_pending (r_cur r)) as [p|] eqn:EP.
  - destruct X6 as (pm & X6 & ->). cbn [pack]. unfold new_prekey_message, pk_from_struct in X6.
    assert (HS : pk_prekey_id (pm_struct pm) = pp_id p).
    { cbn [pk_version pk_base pk_identity pk_message] in X6. destruct (_ <=? _)%Z; [discriminate|]. destruct (_ >? _)%Z; [discriminate|].
      rewrite !decode_ser_pub in X6. cbn [bind] in X6. destruct (sig_from_bytes (sig_msg_bytes sm)); try discriminate. cbn [bind] in X6. injection X6 as <-. reflexivity. }
    unfold pk_msg_bytes, pk_serialize. rewrite HS. destruct (pp_id p) as [o|] eqn:EI; cbn [bind].
    + split; [|eauto]. split; [discriminate|]. intros (r0 & p0 & Y1 & Y2 & Y3). rewrite EW in Y1. injection Y1 as <-. rewrite EP in Y2. injection Y2 as <-. rewrite EI in Y3. discriminate.
    + split; [|intros Y; exfalso; apply Y; reflexivity]. split; [|reflexivity]. intros _. exists r, p. auto.
  - subst ct. cbn [pack]. split; [|eauto]. split; [discriminate|]. intros (r0 & p0 & Y1 & Y2 & Y3). rewrite EW in Y1. injection Y1 as <-. rewrite EP in Y2. discriminate.
Qed.

Lemma bundle_no_panic : forall a b g w, owned w -> fst (fst (w_process_bundle C a b g w)) <> Panic.
Proof.
  intros a b g w HO. unfold w_process_bundle. destruct (process_bundle C (view_of w a) b g) as [[[o r'] es] g'] eqn:E.
  pose proof (view_stored w a HO) as HS.
  assert (HX : o <> Panic).
  { intros ->. unfold process_bundle in E. destruct (negb _); [discriminate|]. destruct (b_signed b) as [k|]; [|discriminate]. destruct (negb _); [discriminate|].
    destruct (generate_key_pair C g) as [[base| |] g1] eqn:G1; [|discriminate|unfold generate_key_pair in G1; destruct (rng_read 32 g) as [[y|] z]; discriminate].
    destruct (generated_private C _ _ _ G1) as (bp & ->).
    match type of E with context [calculate_sender_session C ?p] => rewrite (sender_session_explicit C p bp eq_refl) in E end.
    destruct (generate_key_pair C g1) as [[rp| |] g2] eqn:G2; [|discriminate|unfold generate_key_pair in G2; destruct (rng_read 32 g1) as [[y|] z]; discriminate].
    destruct (generated_private C _ _ _ G2) as (rk & ->). rewrite (create_chain_ok C _ _ (pair_of C rk) rk eq_refl) in E. discriminate. }
  apply process_bundle_cases in E. destruct E as [(_ & -> & _)|(signed & base & rp & derived & sending & g1 & A1 & A2 & A3 & A4 & A5 & A6 & A7 & -> & -> & ->)].
  - cbn [commit seal fst]. exact HX.
  - destruct (prep_stored C L _ HS) as (B1 & B2 & B3). cbn [commit]. cbn [apply_effect]. rewrite ready_persist.
    + cbn [seal fst]. discriminate.
    + constructor; [|exact B2]. cbn [r_cur set_cur]. rewrite B1.
      destruct (ready_init C L new_state (or_introl eq_refl)) as [_ HI].
      destruct (HI (view_of w a) b signed base rp derived sending g g1 g' A6 A4 A5 A7) as [X|X]; [|exact X].
      exfalso. apply (f_equal s_sender) in X. discriminate.
Qed.
End Crash.
