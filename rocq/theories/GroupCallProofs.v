(** GroupCallProofs.v: proofs for C79. *)
From Verif Require Import Base Labels Crypto Bytehelper Ecc Cbc Messages SessionState Group WireFormatSpec BodySpec GroupSpec GroupStoreSpec GroupCallSpec
  CryptoProofs KdfProofs GroupProofs GroupProofs2 GroupConvProofs GroupWireProofs GroupStoreProofs BodyProofs.
From Coq Require Import List Lia ZifyBool ZifyN ZifyNat.
Import ListNotations.

Section Calls.
Context (C : crypto) (L : crypto_laws C).

Lemma key_at_gmk : forall ck i, (gc_iter ck + N.of_nat i < u32_modulus)%N -> key_at C ck i (gmk C (gck C i ck)).
Proof.
  intros ck i H. pose proof (gmk_keys C L (gck C i ck)) as K. unfold gck at 1 in K. rewrite (g_chain_after_spec C) in K.
  split; [exact (gck_iter C i ck H)|]. split; [|exact K]. unfold gmk. cbn [gm_seed]. unfold g_derivative, gck. rewrite (g_chain_after_spec C). reflexivity.
Qed.
Lemma key_at_det : forall ck i k k', key_at C ck i k -> key_at C ck i k' -> k = k'.
Proof.
  intros ck i k k' (A & B & D) (A' & B' & D'). destruct (group_keys_det _ _ _ _ _ _ D D') as [E1 E2]. destruct k as [a b c d], k' as [a' b' c' d']. cbn [gm_iter gm_iv gm_cipher gm_seed] in *.
  subst. reflexivity.
Qed.
Lemma keys_at_gkeys : forall ck n, (gc_iter ck + N.of_nat n < u32_modulus)%N -> Forall2 (key_at C ck) (seq 0 n) (gkeys C n ck).
Proof.
  intros ck n H. unfold gkeys. assert (A : forall i, In i (seq 0 n) -> (i < n)%nat) by (intros i Hi; apply in_seq in Hi; lia).
  revert A. generalize (seq 0 n) as l. intros l. induction l as [|i l IH]; intros A; cbn [map]; constructor; [apply key_at_gmk; specialize (A i (or_introl eq_refl)); lia|].
  apply IH. intros j Hj. apply A. right. exact Hj.
Qed.
Lemma keys_at_det : forall ck l ks ks', Forall2 (key_at C ck) l ks -> Forall2 (key_at C ck) l ks' -> ks = ks'.
Proof.
  intros ck l ks ks' H. revert ks'. induction H as [|i k l ks H1 H2 IH]; intros ks' H'; [inversion H'; reflexivity|]. inversion H' as [|? k' ? ks1 K1 K2]; subst.
  f_equal; [exact (key_at_det _ _ _ _ H1 K1)|apply IH; exact K2].
Qed.
Lemma seed_chain_after : forall n ck, gck C (S n) ck = {| gc_key := chain_after C (n + 1) (gc_key ck); gc_iter := gc_iter (gck C (S n) ck) |}.
Proof.
  intros n ck. rewrite Nat.add_1_r. assert (E : gc_key (gck C (S n) ck) = chain_after C (S n) (gc_key ck)) by apply (g_chain_after_spec C). rewrite <- E.
  destruct (gck C (S n) ck). reflexivity.
Qed.

Lemma readable_get : forall s n k s', small s -> (n < u32_modulus)%N -> (readable C s n k s' <-> g_get_key C s n = (Ok k, s')).
Proof.
  intros s n k s' HS Hn. split.
  - intros H. destruct H as [a k b H1 H2 H3 H4|ahead k ks H1 H2 H3 H4].
    + destruct (get_key_old C s n H1) as [[X Y]|(a' & k' & b' & E1 & E2 & E3 & ->)].
      * exfalso. apply X. rewrite H2, map_app. apply in_app_iff. right. left. exact H3.
      * assert (E : a = a' /\ k = k' /\ b = b').
        { rewrite H2 in E1. clear - E1 E2 E3 H3 H4. revert a' E1 E3. induction a as [|x a IH]; intros [|x' a'] E1 E3; cbn [app] in E1.
          - injection E1 as -> ->. auto.
          - exfalso. injection E1 as -> _. apply E3. left. exact H3.
          - exfalso. injection E1 as -> _. apply (H4 k' (or_introl eq_refl) E2).
          - injection E1 as -> E1. destruct (IH (fun y Hy => H4 y (or_intror Hy)) a' E1 (fun Hy => E3 (or_intror Hy))) as (-> & -> & ->). auto. }
        destruct E as (-> & -> & ->). reflexivity.
    + assert (EA : N.to_nat (n - gc_iter (gs_chain s)) = ahead) by lia.
      assert (Hi : (gc_iter (gs_chain s) + N.of_nat ahead < u32_modulus)%N) by (rewrite <- H1; exact Hn).
      pose proof (get_key_new C L s n ltac:(lia) Hn HS ltac:(lia)) as G. cbv zeta in G. rewrite EA in G. rewrite G.
      rewrite (key_at_det _ _ _ _ H3 (key_at_gmk _ _ Hi)), (keys_at_det _ _ _ _ H4 (keys_at_gkeys _ _ Hi)).
      rewrite (seed_chain_after ahead (gs_chain s)). unfold gset_chain, gset_keys. cbn [gs_keys gs_id gs_chain gs_signing]. do 3 f_equal.
      change (gc_iter (gck C (S ahead) (gs_chain s))) with (u32_add (gc_iter (gck C ahead (gs_chain s))) 1). rewrite (gck_iter C ahead (gs_chain s) Hi), <- H1. reflexivity.
  - intros G. destruct (N.ltb_spec n (gc_iter (gs_chain s))) as [H|H].
    + destruct (get_key_old C s n H) as [[X Y]|(a & k' & b & E1 & E2 & E3 & E4)]; [rewrite Y in G; discriminate G|]. rewrite E4 in G.
      pose proof (f_equal (fun x => match fst x with Ok k => k | _ => k' end) G) as G1. pose proof (f_equal snd G) as G2. cbn [fst snd] in G1, G2. subst k s'. unfold gset_keys.
      apply readable_kept; [exact H|exact E1|exact E2|]. intros x Hx E. apply E3. rewrite <- E. apply in_map. exact Hx.
    + destruct (N.ltb_spec 2000 (n - gc_iter (gs_chain s))) as [H1|H1]; [rewrite (get_key_far C s n Hn ltac:(lia)) in G; discriminate G|].
      pose proof (get_key_new C L s n H Hn HS H1) as N1. cbv zeta in N1. rewrite N1 in G. set (a := N.to_nat (n - gc_iter (gs_chain s))) in *.
      pose proof (f_equal (fun x => match fst x with Ok k => k | _ => k end) G) as G1. pose proof (f_equal snd G) as G2. cbn [fst snd] in G1, G2. subst k s'. clear G.
      assert (Ea : n = (gc_iter (gs_chain s) + N.of_nat a)%N) by (unfold a; lia). assert (Hi : (gc_iter (gs_chain s) + N.of_nat a < u32_modulus)%N) by (rewrite <- Ea; exact Hn).
      rewrite (seed_chain_after a (gs_chain s)). unfold gset_chain, gset_keys. cbn [gs_keys gs_id gs_chain gs_signing].
      change (gc_iter (gck C (S a) (gs_chain s))) with (u32_add (gc_iter (gck C a (gs_chain s))) 1). rewrite (gck_iter C a (gs_chain s) Hi), <- Ea.
      apply (readable_new C s n a (gmk C (gck C a (gs_chain s))) (gkeys C a (gs_chain s))); [exact Ea|unfold a; lia|apply key_at_gmk; exact Hi|apply keys_at_gkeys; exact Hi].
Qed.

Lemma known_by_id : forall r id a s b, known r id a s b -> by_id id r = Some s /\ forall s', g_upd_id id s' r = a ++ s' :: b.
Proof.
  intros r id a s b (-> & HI & HA). induction a as [|x a IH]; cbn [app by_id g_upd_id].
  - unfold by_id. cbn [find]. rewrite (proj2 (N.eqb_eq _ _) HI). split; reflexivity.
  - destruct (IH (fun t Ht => HA t (or_intror Ht))) as [I1 I2]. unfold by_id in *. cbn [find]. destruct (N.eqb_spec (gs_id x) id) as [E|E]; [destruct (HA x (or_introl eq_refl) E)|].
    split; [exact I1|]. intros s'. rewrite I2. reflexivity.
Qed.
Lemma by_id_known : forall r id s, by_id id r = Some s -> exists a b, known r id a s b.
Proof.
  intros r id s H. destruct (by_id_split _ _ _ H) as (a & b & E & HA). exists a, b. split; [exact E|]. split; [exact (proj2 (by_id_in _ _ _ H))|exact HA].
Qed.
Lemma sound_known : forall r id a s b, Forall sound r -> known r id a s b -> sound s.
Proof. intros r id a s b H (-> & _). rewrite Forall_forall in H. apply H. apply in_app_iff. right. left. reflexivity. Qed.
Lemma known_nonempty : forall r id a s b, known r id a s b -> r <> [].
Proof. intros r id a s b (-> & _) E. destruct a; discriminate E. Qed.
Lemma get_sized : forall s n k s', sound s -> (n < u32_modulus)%N -> g_get_key C s n = (Ok k, s') -> length (gm_iv k) = 16%nat /\ aes_key_ok (gm_cipher k) = true /\ keyed s'.
Proof.
  intros s n k s' HS Hn G. pose proof (get_key_accept C L s n HS Hn) as A. rewrite G in A. destruct A as (_ & A1 & A2). split; [exact A1|]. split; [unfold aes_key_ok; rewrite A2; reflexivity|].
  destruct (get_key_id C _ _ _ _ G) as [_ E]. unfold keyed. rewrite E. exact (proj1 HS).
Qed.
Lemma sound_keyed : forall r, Forall sound r -> Forall keyed r.
Proof. intros r H. eapply Forall_impl; [|exact H]. intros s Hs. exact (proj1 Hs). Qed.

Lemma decrypt_at_known : forall (r : grecord) m a s b, Forall sound r -> known r (km_id m) a s b ->
  gw_decrypt C m (Some r) = match dec_state C m s with (o, Some s') => (o, Some (greload (a ++ s' :: b))) | (o, None) => (o, Some r) end.
Proof.
  intros r m a s b HS HK. rewrite decrypt_char. destruct (known_by_id _ _ _ _ _ HK) as [H1 H2]. pose proof (known_nonempty _ _ _ _ _ HK) as HN. rewrite H1.
  destruct r as [|x r]; [destruct (HN eq_refl)|]. destruct (dec_state C m s) as [o [s'|]]; [rewrite H2|]; reflexivity.
Qed.

Lemma decrypt_sound : forall st m o st', all_sound st -> (km_iter m < 2 ^ 32)%N -> decrypt_fate C st m o st' -> gw_decrypt C m st = (o, st').
Proof.
  intros st m o st' HS Hn H. change (2 ^ 32)%N with u32_modulus in Hn.
  destruct H as [m|m|r m H1 H2|r m a s b HK HV|r m a s b HK HV H1 H2|r m a s b HK HV H1|r m a s b k s' o HK HV HR HB HO|r m a s b k s' pt HK HV HR HB]; cbn [all_sound] in HS.
  - reflexivity.
  - reflexivity.
  - rewrite decrypt_char. destruct r as [|x r]; [destruct (H1 eq_refl)|]. assert (E : by_id (km_id m) (x :: r) = None); [|rewrite E; reflexivity].
    unfold by_id. destruct (find _ (x :: r)) as [s|] eqn:E; [|reflexivity]. apply find_some in E. destruct E as [E1 E2]. apply N.eqb_eq in E2. destruct (H2 s E1 E2).
  - rewrite (decrypt_at_known _ _ _ _ _ HS HK). unfold dec_state, signed_by in *. destruct (verify_signature C _ _ _); [destruct (HV eq_refl)|reflexivity].
  - rewrite (decrypt_at_known _ _ _ _ _ HS HK). unfold dec_state. unfold signed_by in HV. rewrite HV. cbn [negb].
    destruct (get_key_old C s (km_iter m) H1) as [[_ ->]|(a' & k & b' & E1 & E2 & _ & _)]; [reflexivity|]. exfalso. apply (H2 k); [rewrite E1; apply in_app_iff; right; left; reflexivity|exact E2].
  - rewrite (decrypt_at_known _ _ _ _ _ HS HK). unfold dec_state. unfold signed_by in HV. rewrite HV. cbn [negb]. rewrite (get_key_far C s _ Hn H1). reflexivity.
  - rewrite (decrypt_at_known _ _ _ _ _ HS HK). unfold dec_state. unfold signed_by in HV. rewrite HV. cbn [negb]. pose proof (sound_known _ _ _ _ _ HS HK) as Hs.
    apply (readable_get s _ k s' (proj1 (proj2 Hs)) Hn) in HR. rewrite HR. destruct (get_sized s _ k s' Hs Hn HR) as (Z1 & Z2 & _). apply (body_spec C L _ _ _ _ Z2 Z1) in HB. rewrite HB.
    destruct o as [pt|e|]; [destruct (HO pt eq_refl)|reflexivity|reflexivity].
  - rewrite (decrypt_at_known _ _ _ _ _ HS HK). unfold dec_state. unfold signed_by in HV. rewrite HV. cbn [negb]. pose proof (sound_known _ _ _ _ _ HS HK) as Hs.
    apply (readable_get s _ k s' (proj1 (proj2 Hs)) Hn) in HR. rewrite HR. destruct (get_sized s _ k s' Hs Hn HR) as (Z1 & Z2 & Z3). apply (body_spec C L _ _ _ _ Z2 Z1) in HB. rewrite HB.
    f_equal. f_equal. apply stored_same. apply sound_keyed in HS. destruct HK as (-> & _). apply Forall_app in HS. destruct HS as [F1 F2]. inversion F2 as [|? ? F3 F4]; subst.
    apply Forall_app. split; [exact F1|constructor; assumption].
Qed.

Lemma decrypt_total : forall st m, all_sound st -> (km_iter m < 2 ^ 32)%N -> decrypt_fate C st m (fst (gw_decrypt C m st)) (snd (gw_decrypt C m st)).
Proof.
  intros st m HS Hn. assert (HU := Hn). change (2 ^ 32)%N with u32_modulus in HU. destruct st as [r|]; [|constructor]. cbn [all_sound] in HS.
  assert (X : exists o st', decrypt_fate C (Some r) m o st').
  { destruct r as [|x r0]; [eexists; eexists; apply decrypt_empty|]. set (r := x :: r0) in *. destruct (by_id (km_id m) r) as [s|] eqn:EB.
    2:{ eexists; eexists. apply decrypt_unknown; [intros E; discriminate E|]. intros t Ht E. unfold by_id in EB. pose proof (find_none _ _ EB t Ht) as F. apply N.eqb_neq in F. exact (F E). }
    destruct (by_id_known _ _ _ EB) as (a & b & HK). pose proof (sound_known _ _ _ _ _ HS HK) as Hs.
    destruct (verify_signature C (kp_pub (gs_signing s)) (skm_unsigned m) (skm_signature m)) eqn:EV.
    2:{ eexists; eexists. apply (decrypt_forged C r m a s b HK). unfold signed_by. rewrite EV. intros E. discriminate E. }
    destruct (g_get_key C s (km_iter m)) as [o s'] eqn:EG. destruct o as [k|e|].
    - assert (HR := proj2 (readable_get s _ k s' (proj1 (proj2 Hs)) HU) EG). destruct (get_sized s _ k s' Hs HU EG) as (Z1 & Z2 & _).
      pose proof (proj2 (body_spec C L (gm_cipher k) (gm_iv k) (skm_body m) _ Z2 Z1) eq_refl) as HB. destruct (decrypt_cbc C (Some (gm_iv k)) (gm_cipher k) (skm_body m)) as [pt|e|].
      + eexists; eexists. exact (decrypt_read C r m a s b k s' pt HK EV HR HB).
      + eexists; eexists. apply (decrypt_fails C r m a s b k s' (Err e) HK EV HR HB). intros pt E. discriminate E.
      + eexists; eexists. apply (decrypt_fails C r m a s b k s' Panic HK EV HR HB). intros pt E. discriminate E.
    - destruct (N.ltb_spec (km_iter m) (gc_iter (gs_chain s))) as [H|H].
      + eexists; eexists. apply (decrypt_old C r m a s b HK EV H). destruct (get_key_old C s _ H) as [[X _]|(a' & k & b' & _ & _ & _ & Y)]; [|rewrite Y in EG; discriminate EG].
        intros k Hk E. apply X. rewrite <- E. apply in_map. exact Hk.
      + eexists; eexists. apply (decrypt_far C r m a s b HK EV). destruct (N.ltb_spec 2000 (km_iter m - gc_iter (gs_chain s))) as [H1|H1]; [lia|]. exfalso.
        pose proof (get_key_new C L s _ H HU (proj1 (proj2 Hs)) H1) as G. rewrite G in EG. discriminate EG.
    - pose proof (get_key_accept C L s _ Hs HU) as A. rewrite EG in A. destruct A. }
  destruct X as (o & st' & F). rewrite (decrypt_sound (Some r) m o st' HS Hn F). exact F.
Qed.

Lemma zero_key : forall ck, key_at C ck 0 (gmk C ck).
Proof. intros ck. split; [cbn [gmk gm_iter]; lia|]. split; [reflexivity|]. exact (gmk_keys C L ck). Qed.

Lemma encrypt_total : forall st pt g, all_sound st -> encrypt_fate C st pt g (fst (gw_encrypt C pt g st)) (snd (gw_encrypt C pt g st)).
Proof.
  intros st pt g HS. destruct st as [[|s r]|]; [constructor| |constructor]. cbn [all_sound] in HS. inversion HS as [|? ? Hs Hr]; subst. rewrite encrypt_char. unfold enc_state.
  rewrite (message_key_ok C L). destruct (gmk_sizes C L (gs_chain s)) as [Z1 Z2]. assert (HA : aes_key_ok (gm_cipher (gmk C (gs_chain s))) = true) by (unfold aes_key_ok; rewrite Z2; reflexivity).
  destruct (cbc_roundtrip_given C L (gm_iv (gmk C (gs_chain s))) (gm_cipher (gmk C (gs_chain s))) pt HA Z1) as (ct & E1 & _). rewrite E1.
  pose proof (cbc_spec C (law_hmac_len C L) (law_aes_enc_len C L) _ _ _ _ HA Z1 E1) as HB.
  unfold new_sender_key_message. destruct (kp_priv (gs_signing s)) as [priv|] eqn:EP; [|destruct (proj1 Hs EP)].
  change (gm_iter (gmk C (gs_chain s))) with (gc_iter (gs_chain s)).
  set (m0 := {| km_id := gs_id s; km_iter := gc_iter (gs_chain s); km_ct := Some ct; km_version := 3; km_sig := None |}).
  destruct (calculate_signature C priv (skm_unsigned m0) g) as [sg g1] eqn:EG. cbn [fst snd].
  rewrite stored_same; [|constructor; [exact (proj1 Hs)|apply sound_keyed; exact Hr]].
  apply (encrypt_sent C s r pt g priv (gmk C (gs_chain s)) ct); [exact EP|apply zero_key|exact HB|reflexivity..|]. cbn [km_sig].
  change (skm_unsigned {| km_id := gs_id s; km_iter := gc_iter (gs_chain s); km_ct := Some ct; km_version := 3; km_sig := Some (abytes sg) |}) with (skm_unsigned m0). rewrite EG. reflexivity.
Qed.
Lemma encrypt_det : forall st pt g o st' o1 st1, encrypt_fate C st pt g o st' -> encrypt_fate C st pt g o1 st1 -> o = o1 /\ st' = st1.
Proof.
  intros st pt g o st' o1 st1 H H1. destruct H as [pt g|pt g|s r pt g priv k body m A1 A2 A3 A4 A5 A6 A7 A8]; inversion H1 as [| |? ? ? ? priv' k' body' m' B1 B2 B3 B4 B5 B6 B7 B8]; subst; try (split; reflexivity).
  split; [|reflexivity]. f_equal. rewrite A1 in B1. injection B1 as <-. rewrite (key_at_det _ _ _ _ B2 A2) in B3.
  assert (Z : length (gm_iv k) = 16%nat) by exact (proj1 (proj2 (proj2 A2))). rewrite (cbc_det _ _ _ _ _ _ Z B3 A3) in B6.
  assert (EU : skm_unsigned m' = skm_unsigned m) by (unfold skm_unsigned; rewrite A4, A5, A6, A7, B4, B5, B6, B7; reflexivity).
  rewrite EU in B8. rewrite <- A8 in B8. rewrite <- A4 in B4. rewrite <- A5 in B5. rewrite <- A6 in B6. rewrite <- A7 in B7. clear - B4 B5 B6 B7 B8.
  destruct m as [a b c d e], m' as [a' b' c' d' e']. cbn [km_id km_iter km_ct km_version km_sig] in *. subst. reflexivity.
Qed.

Lemma process_total : forall st d, sane st -> process_fate st d (gw_process d st).
Proof.
  intros st d HS. destruct st as [r|].
  - destruct HS as [H1 H2]. rewrite process_char by assumption. change max_group_keys with (N.to_nat 2000). constructor.
  - rewrite process_none, (process_char d [] (Forall_nil _) (Nat.le_0_l _)). cbn [app]. rewrite last_n_all by (apply Nat.leb_le; reflexivity). constructor.
Qed.
Lemma process_det : forall st d st1 st2, process_fate st d st1 -> process_fate st d st2 -> st1 = st2.
Proof. intros st d st1 st2 H H1. destruct H; inversion H1; reflexivity. Qed.

Lemma describes_det : forall d d' s, describes d s -> describes d' s -> d = d'.
Proof. intros [a b c e f] [a' b' c' e' f'] s (A & B & D & E & F) (A' & B' & D' & E' & F'). cbn [dm_id dm_iter dm_chain dm_version dm_sigkey] in *. subst. reflexivity. Qed.
Lemma describes_skd : forall s, describes (skd_of_state s) s.
Proof. intros s. unfold describes. do 4 (split; [reflexivity|]). reflexivity. Qed.
Lemma le_u32_little_endian : forall a, le_u32 a = little_endian (abytes a).
Proof.
  intros a. unfold le_u32. assert (HL := arr_length _ a). destruct (abytes a) as [|b0 [|b1 [|b2 [|b3 [|? ?]]]]]; try discriminate HL.
  cbn [little_endian]. rewrite N.mul_0_r, N.add_0_r. reflexivity.
Qed.
Lemma create_empty : forall st g, nothing_yet st -> create_fate C st g (fst (gw_create C g st)) (snd (gw_create C g st)).
Proof.
  intros st g HE. assert (EE : g_is_empty st = true) by (destruct HE as [H|H]; rewrite H; reflexivity).
  unfold gw_create, group_create. rewrite EE. unfold generate_key_pair. destruct (rng_read 32 g) as [[seed|] g1] eqn:E1.
  - unfold generate_registration_id, generate_sender_key. destruct (rng_read 4 g1) as [oid g2] eqn:E2.
    destruct (match oid with Some a => (le_u32 a, g2) | None => (0%N, g2) end) as [id g2'] eqn:EI. assert (g2' = g2) by (destruct oid; injection EI as _ <-; reflexivity). subst g2'.
    destruct (rng_read 32 g2) as [okey g3] eqn:E3. destruct (match okey with Some a => (abytes a, g3) | None => (repeat x00 32, g3) end) as [key g3'] eqn:EK.
    cbn [g_set_state g_first gcommit fold_left fst snd]. rewrite stored_same; [|constructor; [intros E; discriminate E|constructor]].
    refine (create_new C st g seed g1 oid g2 okey g3 _ (new_gstate id 0 key (pair_of C (clamp seed))) HE E1 E2 E3 eq_refl _ _ eq_refl eq_refl (describes_skd _)).
    + cbn [new_gstate gs_id]. destruct oid as [a|]; injection EI as <-; [apply le_u32_little_endian|reflexivity].
    + cbn [new_gstate gs_chain gc_key]. destruct okey; apply (f_equal fst) in EK; cbn [fst] in EK; symmetry; exact EK.
  - cbn [fst snd gcommit fold_left]. eapply create_fails; eassumption.
Qed.
Lemma create_total : forall st g, create_fate C st g (fst (gw_create C g st)) (snd (gw_create C g st)).
Proof.
  intros st g. destruct st as [[|s r]|]; [apply create_empty; right; reflexivity| |apply create_empty; left; reflexivity]. rewrite create_char. cbn [fst snd]. constructor. apply describes_skd.
Qed.
Lemma create_det : forall st g o st' o1 st1, create_fate C st g o st' -> create_fate C st g o1 st1 -> o = o1 /\ st' = st1.
Proof.
  assert (HN : forall s r, ~ nothing_yet (Some (s :: r))) by (intros s r [H|H]; discriminate H).
  intros st g o st' o1 st1 H H1. destruct H as [s r g d D|st g g' N R|st g seed g1 oid g2 okey g3 d s N R1 R2 R3 A1 A2 A3 A4 A5 D].
  - inversion H1; subst; [|destruct (HN _ _ H)|destruct (HN _ _ H)]. split; [|reflexivity]. f_equal. eapply describes_det; eassumption.
  - inversion H1 as [|? ? ? N' R'|? ? ? ? ? ? ? ? ? ? N' R']; subst; [destruct (HN _ _ N)|split; reflexivity|rewrite R in R'; discriminate R'].
  - inversion H1 as [|? ? ? N' R'|? ? seed' h1 oid' h2 okey' h3 d' s' N' Q1 Q2 Q3 B1 B2 B3 B4 B5 D']; subst; [destruct (HN _ _ N)|rewrite R1 in R'; discriminate R'|].
    rewrite R1 in Q1. pose proof (f_equal snd Q1) as X1. pose proof (f_equal fst Q1) as X2. cbn [fst snd] in X1, X2. subst h1. apply some_eq in X2. subst seed'.
    rewrite R2 in Q2. pose proof (f_equal snd Q2) as X1. pose proof (f_equal fst Q2) as X2. cbn [fst snd] in X1, X2. subst h2 oid'.
    rewrite R3 in Q3. pose proof (f_equal fst Q3) as X2. cbn [fst] in X2. subst okey'.
    assert (s' = s). { destruct s as [a b [c e] f], s' as [a' b' [c' e'] f']. cbn [gs_keys gs_id gs_chain gs_signing gc_key gc_iter] in *. subst. reflexivity. }
    subst s'. split; [|reflexivity]. f_equal. eapply describes_det; eassumption.
Qed.

(** * All calls *)
Definition good (st : option grecord) : Prop := sane st /\ all_sound st.
Lemma call_total : forall st c, good st -> call_ok c -> call_fate C st c (fst (gcall_run C c st)) (snd (gcall_run C c st)).
Proof.
  intros st c [H1 H2] HC. destruct c as [pt g|m|d|g]; cbn [gcall_run call_fate].
  - pose proof (encrypt_total st pt g H2) as X. destruct (gw_encrypt C pt g st). exact X.
  - pose proof (decrypt_total st m H2 HC) as X. destruct (gw_decrypt C m st). exact X.
  - exact (process_total st d H1).
  - pose proof (create_total st g) as X. destruct (gw_create C g st). exact X.
Qed.
Lemma call_det : forall st c a st', good st -> call_ok c -> call_fate C st c a st' -> gcall_run C c st = (a, st').
Proof.
  intros st c a st' HG HC H. pose proof (call_total st c HG HC) as T. destruct c as [pt g|m|d|g], a as [o|o| |o]; try (destruct H; fail); cbn [gcall_run call_fate] in *.
  - pose proof (encrypt_total st pt g (proj2 HG)) as X. destruct (encrypt_det _ _ _ _ _ _ _ X H) as [<- <-]. destruct (gw_encrypt C pt g st). reflexivity.
  - rewrite (decrypt_sound st m o st' (proj2 HG) HC H). reflexivity.
  - f_equal. exact (process_det _ _ _ _ (process_total st d (proj1 HG)) H).
  - pose proof (create_total st g) as X. destruct (create_det _ _ _ _ _ _ X H) as [<- <-]. destruct (gw_create C g st). reflexivity.
Qed.
Lemma good_call : forall st c, good st -> good (snd (gcall_run C c st)).
Proof. intros st c [H1 H2]. split; [apply call_sane; exact H1|apply (call_sound C L); assumption]. Qed.
Lemma good_play : forall cs st, good st -> good (snd (gplay C cs st)).
Proof. intros cs st [H1 H2]. split; [apply play_sane; exact H1|apply (play_sound C L); assumption]. Qed.
Lemma program_spec : forall cs st l st', good st -> Forall call_ok cs -> (program_fate C st cs l st' <-> gplay C cs st = (l, st')).
Proof.
  induction cs as [|c cs IH]; intros st l st' HG HC.
  - cbn [gplay]. split; [intros H; inversion H; reflexivity|]. intros H. injection H as <- <-. constructor.
  - inversion HC as [|? ? HC1 HC2]; subst. rewrite play_cons. split.
    + intros H. inversion H as [|? ? a st1 ? l' ? H1 H2]; subst. pose proof (call_det _ _ _ _ HG HC1 H1) as E. rewrite E. cbn [fst snd].
      pose proof (good_call st c HG) as HG1. rewrite E in HG1. cbn [snd] in HG1. apply (IH _ _ _ HG1 HC2) in H2. rewrite H2. reflexivity.
    + intros H. pose proof (f_equal fst H) as E1. pose proof (f_equal snd H) as E2. cbn [fst snd] in E1, E2. subst l st'. econstructor; [apply call_total; assumption|].
      apply (IH _ _ _ (good_call st c HG) HC2). apply surjective_pairing.
Qed.
End Calls.
