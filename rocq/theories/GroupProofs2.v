(** GroupProofs2.v: bounds (C35) and the delivery schedule theorem (C32). *)
From Verif Require Import Base Labels Crypto Bytehelper Ecc Cbc Messages SessionState Group GroupSpec WireProofs CodecProofs CodecProofs2
  CryptoProofs SerialProofs MiscProofs GroupProofs.
From Coq Require Import Lia ZifyBool ZifyN ZifyNat.

(** * Bounds *)

Section Bounds.
Context (C : crypto).

Definition small (s : gstate) : Prop := (length (gs_keys s) <= max_group_keys)%nat.

Lemma skip_small : forall f n ck s o s', g_skip C f n ck s = (o, s') -> small s -> small s'.
Proof.
  induction f as [|f IH]; intros n ck s o s' H HS; cbn [g_skip] in H; [injection H as _ <-; exact HS|].
  destruct (gc_iter ck <? n)%N; [|injection H as _ <-; exact HS]. destruct (g_message_key C ck); try (injection H as _ <-; exact HS).
  eapply IH; [exact H|]. apply add_key_bound. exact HS.
Qed.

Lemma remove_shorter : forall n l k l', g_remove n l = Some (k, l') -> length l = S (length l').
Proof.
  induction l as [|x l IH]; intros k l' H; [discriminate|]. cbn [g_remove] in H. destruct (gm_iter x =? n)%N; [injection H as _ <-; reflexivity|].
  destruct (g_remove n l) as [[y r]|]; [|discriminate]. injection H as -> <-. cbn. rewrite (IH k r eq_refl). reflexivity.
Qed.

Lemma get_key_small : forall s n o s', g_get_key C s n = (o, s') -> small s -> small s'.
Proof.
  intros s n o s' H HS. unfold g_get_key in H. destruct (n <? gc_iter (gs_chain s))%N.
  - destruct (g_has_key n s); [|injection H as _ <-; exact HS]. destruct (g_remove n (gs_keys s)) as [[k l]|] eqn:E; injection H as _ <-; [|exact HS].
    apply remove_shorter in E. unfold small in *. cbn [gset_keys gs_keys]. lia.
  - destruct (group_max_future <? _)%N; [injection H as _ <-; exact HS|].
    destruct (g_skip C _ n (gs_chain s) s) as [[ck| |] s1] eqn:E; apply skip_small in E; try exact HS; injection H as _ <-; exact E.
Qed.

Definition bounded (r : grecord) : Prop := (length r <= max_group_keys)%nat /\ Forall small r.

Lemma process_bounded : forall r d r' es, bounded r -> group_process (Some r) d = (r', es) -> bounded r'.
Proof.
  intros r d r' es [H1 H2] H. unfold group_process in H. injection H as <- _. unfold g_add_state.
  assert (W : Forall small (r ++ [new_gstate (dm_id d) (dm_iter d) (match dm_chain d with Some c => c | None => [] end) {| kp_pub := dm_sigkey d; kp_priv := None |}])).
  { apply Forall_app. split; [exact H2|]. constructor; [unfold small; cbn; lia|constructor]. }
  set (l := r ++ _) in *. assert (HL : length l = S (length r)) by (unfold l; rewrite app_length; cbn; lia).
  destruct (Nat.ltb_spec max_group_keys (length l)) as [HB|HB]; [|split; [exact HB|exact W]].
  destruct l as [|x l]; [discriminate|]. inversion W; subst. split; [cbn in *; lia|assumption].
Qed.

Lemma step_bounded : forall Q r r', gstep C Q r r' -> bounded r -> bounded r'.
Proof.
  intros Q r r' H HB. assert (HB' := HB). destruct HB' as [H1 H2]. destruct H as [pt g o r' es g' HQ H|m o m' r' es HQ H|d r' es Hd HL H|].
  - apply group_encrypt_record in H. destruct H as [(-> & _)|(s & rest & m & -> & _ & -> & _)]; [exact HB|].
    inversion H2; subst. split; [exact H1|]. constructor; assumption.
  - apply group_decrypt_cases in H. destruct H as [(_ & -> & _)|(s & s' & ok & HB2 & _ & HG & -> & _)]; [exact HB|].
    apply by_id_in in HB2. destruct HB2 as [HI _]. split; [rewrite upd_id_length; exact H1|]. apply upd_id_forall; [exact H2|].
    eapply get_key_small; [exact HG|]. rewrite Forall_forall in H2. auto.
  - eapply process_bounded; eassumption.
  - rewrite greload_map. split; [rewrite map_length; exact H1|]. apply Forall_forall. intros s Hs. apply in_map_iff in Hs.
    destruct Hs as (t & <- & Ht). rewrite Forall_forall in H2. exact (H2 t Ht).
Qed.

Lemma reachable_bounded : forall Q r, greachable C Q r -> bounded r.
Proof.
  intros Q r H. induction H as [|load g o r es g' HE H|r r' HR IH H|r d r' es HR IH Hd H].
  - split; [cbn; lia|constructor].
  - unfold group_create in H. rewrite HE in H. destruct (generate_key_pair C g) as [[signing| |] g1].
    + destruct (generate_registration_id g1) as [id g2]. destruct (generate_sender_key g2) as [key g3].
      cbn [g_first g_set_state] in H. injection H as _ <- _ _. split; [apply Nat.leb_le; reflexivity|]. constructor; [|constructor]. apply Nat.leb_le; reflexivity.
    + injection H as _ -> _ _. cbn in HE. destruct r; [|discriminate]. split; [apply Nat.leb_le; reflexivity|constructor].
    + injection H as _ -> _ _. cbn in HE. destruct r; [|discriminate]. split; [apply Nat.leb_le; reflexivity|constructor].
  - eapply step_bounded; eassumption.
  - eapply process_bounded; eassumption.
Qed.
End Bounds.

(** * The schedule *)

Section Schedule.
Context (C : crypto) (L : crypto_laws C).

(** A sender state that can sign. *)
Definition can_sign (s : gstate) : Prop := exists seed, gs_signing s = pair_of C (clamp seed).

Lemma own_store_shape : forall st, own_store C st -> exists s, st = Some [s] /\ can_sign s /\ (gs_id s < 2 ^ 32)%N /\
  length (gc_key (gs_chain s)) = 32%nat /\ (gc_iter (gs_chain s) < u32_modulus)%N.
Proof.
  intros st H. induction H as [st g d st' HE H|st pt g m st' HS IH H].
  - unfold gw_create, group_create in H. rewrite HE in H. unfold generate_key_pair in H. destruct (rng_read 32 g) as [[seed|] g1]; [|discriminate].
    destruct (generate_registration_id g1) as [id g2] eqn:EI. destruct (generate_sender_key g2) as [key g3] eqn:EK.
    cbn [g_first g_set_state] in H. injection H as _ <-. cbn [gcommit fold_left]. rewrite greload_map. cbn [map with_zero_private new_gstate gs_keys gs_id gs_chain gs_signing pair_of kp_pub kp_priv].
    eexists. split; [reflexivity|]. split; [exists seed; reflexivity|]. cbn [gs_id gs_chain gc_key gc_iter]. split; [|split].
    + unfold generate_registration_id in EI. destruct (rng_read 4 g1) as [[a|] ?]; injection EI as <- _; [|reflexivity].
      unfold le_u32. assert (HL := arr_length _ a). destruct (abytes a) as [|b0 [|b1 [|b2 [|b3 [|? ?]]]]]; try discriminate HL.
      assert (B0 := b2n_lt b0). assert (B1 := b2n_lt b1). assert (B2 := b2n_lt b2). assert (B3 := b2n_lt b3). change (2 ^ 32)%N with 4294967296%N. unfold with_zero_private, new_gstate. cbn [gs_id]. lia.
    + unfold generate_sender_key in EK. destruct (rng_read 32 g2) as [[a|] ?]; injection EK as <- _; [apply arr_length|reflexivity].
    + reflexivity.
  - destruct IH as (s & -> & (seed & HC) & Hid & HK & HI). unfold gw_encrypt in H.
    destruct (group_encrypt C (Some [s]) pt g) as [[[o r] es] g'] eqn:E. injection H as -> <-.
    destruct r as [r|].
    + apply group_encrypt_record in E. destruct E as [(_ & _ & HF)|(s0 & rest & m0 & E1 & _ & -> & ->)]; [exfalso; exact (HF m eq_refl)|].
      injection E1 as <- <-. cbn [gcommit fold_left]. rewrite greload_map. cbn [map]. eexists. split; [reflexivity|].
      unfold with_zero_private, gset_chain, can_sign. cbn [gs_signing gs_id gs_chain]. rewrite HC. cbn [pair_of kp_pub kp_priv].
      split; [exists seed; reflexivity|]. split; [exact Hid|]. cbn [g_next gc_key gc_iter]. split; [apply (law_hmac_len C L)|apply u32_lt].
    + exfalso. unfold group_encrypt in E. cbn [g_first] in E. destruct (g_message_key C (gs_chain s)) as [k| |]; try discriminate.
      destruct (encrypt_cbc C _ _ pt) as [ct| |]; try discriminate.
      destruct (new_sender_key_message C _ _ ct _ g) as [[x| |] ?]; discriminate.
Qed.

(** The [i]-th wire message of a chain starting at [ck0]. *)
Definition wire_ok (ck0 : gchain) (id : N) (pub : arr32) (i : nat) (pt w : bytes) : Prop :=
  exists m ct, skm_from_bytes w = Ok m /\ km_id m = id /\ km_iter m = (gc_iter ck0 + N.of_nat i)%N /\ km_ct m = Some ct /\
    verify_signature C pub (skm_unsigned m) (skm_signature m) = true /\
    decrypt_cbc C (Some (gm_iv (gmk C (gck C i ck0)))) (gm_cipher (gmk C (gck C i ck0))) ct = Ok pt.

Lemma send_ok : forall s seed j ck0 pt g, gs_signing s = pair_of C (clamp seed) -> (gs_id s < 2 ^ 32)%N ->
  gs_chain s = gck C j ck0 -> (gc_iter ck0 + N.of_nat j < u32_modulus)%N -> (N.of_nat (length pt) + 16 < 9223372036854775808)%N ->
  exists m, gw_encrypt C pt g (Some [s]) = (Ok m, Some [gset_chain (gck C (S j) ck0) s]) /\
    wire_ok ck0 (gs_id s) (kp_pub (gs_signing s)) j pt (skm_signed m).
Proof.
  intros s seed j ck0 pt g HC Hid Hch Hj Hpt.
  destruct (gmk_sizes C L (gck C j ck0)) as [Z1 Z2].
  assert (HK : aes_key_ok (gm_cipher (gmk C (gck C j ck0))) = true) by (unfold aes_key_ok; rewrite Z2; reflexivity).
  destruct (cbc_roundtrip_given C L (gm_iv (gmk C (gck C j ck0))) (gm_cipher (gmk C (gck C j ck0))) pt HK Z1) as (ct & E1 & E2 & _ & E3).
  unfold gw_encrypt, group_encrypt. cbn [g_first]. rewrite Hch, (message_key_ok C L), E1, HC. cbn [pair_of kp_priv].
  destruct (new_sender_key_message C (gs_id s) (gm_iter (gmk C (gck C j ck0))) ct (Some (clamp seed)) g) as [[m| |] g1] eqn:EM;
    try (unfold new_sender_key_message in EM; destruct (calculate_signature C _ _ g); discriminate).
  exists m. split.
  - cbn [g_upd_first gcommit fold_left]. rewrite greload_map. cbn [map]. unfold with_zero_private, gset_chain. cbn [gs_keys gs_id gs_chain gs_signing]. rewrite HC. cbn [pair_of kp_priv kp_pub].
    replace (gck C (S j) ck0) with (g_next C (gck C j ck0)) by reflexivity. reflexivity.
  - assert (HI : gm_iter (gmk C (gck C j ck0)) = (gc_iter ck0 + N.of_nat j)%N) by (cbn [gmk gm_iter]; apply gck_iter; exact Hj).
    exists m, ct. split.
    + eapply new_skm_roundtrip; [exact Hid| | |exact EM]; [rewrite HI; exact Hj|unfold fits; lia].
    + unfold new_sender_key_message, calculate_signature in EM. cbn [pair_of kp_pub].
      destruct (rng_read 64 g) as [[z|] g2]; injection EM as <- _; cbn [km_id km_iter km_ct];
        (split; [reflexivity|]; split; [exact HI|]; split; [reflexivity|]; split; [|exact E2]);
        unfold skm_unsigned, skm_signature; cbn [km_id km_iter km_ct km_version km_sig]; rewrite to_arr_abytes; apply (law_sign C L).
Qed.

(** The receiver's record matches the reference view. *)
Definition rcv_ok (ck0 : gchain) (id : N) (pub : arr32) (v : gview) (r : grecord) : Prop :=
  exists s p, by_id id r = Some s /\ kp_pub (gs_signing s) = pub /\ gs_chain s = gck C p ck0 /\ gv_next v = (gc_iter ck0 + N.of_nat p)%N /\
    gs_keys s = map (fun n => gmk C (gck C (N.to_nat (n - gc_iter ck0)) ck0)) (gv_kept v) /\
    NoDup (gv_kept v) /\ (forall n, In n (gv_kept v) -> (gc_iter ck0 <= n < gv_next v)%N) /\ (length (gv_kept v) <= max_group_keys)%nat.

Lemma kept_iters : forall ck0 l, (forall n, In n l -> (gc_iter ck0 <= n < u32_modulus)%N) ->
  map gm_iter (map (fun n => gmk C (gck C (N.to_nat (n - gc_iter ck0)) ck0)) l) = l.
Proof.
  intros ck0 l H. rewrite map_map. rewrite <- (map_id l) at 2. apply map_ext_in. intros n Hn. cbn [gmk gm_iter].
  specialize (H n Hn). rewrite gck_iter; unfold u32_modulus in *; lia.
Qed.

Lemma filter_out : forall n (a b : list N), NoDup (a ++ n :: b) -> filter (fun k => negb (k =? n)%N) (a ++ n :: b) = a ++ b.
Proof.
  intros n a b H. apply NoDup_remove in H. destruct H as [_ H]. rewrite filter_app. cbn [filter]. rewrite N.eqb_refl. cbn [negb].
  assert (K : forall l, ~ In n l -> filter (fun k => negb (k =? n)%N) l = l).
  { induction l as [|x l IH]; intros HN; [reflexivity|]. cbn [filter]. destruct (N.eqb_spec x n) as [->|E]; [exfalso; apply HN; left; reflexivity|].
    cbn [negb]. rewrite IH; [reflexivity|]. intros HI. apply HN. right. exact HI. }
  rewrite !K; [reflexivity| |]; intros HI; apply H; apply in_or_app; auto.
Qed.

Lemma deliver_ok : forall ck0 id pub v r i pt w, rcv_ok ck0 id pub v r -> wire_ok ck0 id pub i pt w ->
  (gc_iter ck0 + N.of_nat i < 4294967295)%N -> (gv_next v <= 4294967295)%N ->
  exists m, skm_from_bytes w = Ok m /\
  match gaccept v (gc_iter ck0 + N.of_nat i) with
  | Some v' => exists r', gw_decrypt C m (Some r) = (Ok pt, Some r') /\ rcv_ok ck0 id pub v' r' /\ (gv_next v' <= 4294967295)%N
  | None => exists e, gw_decrypt C m (Some r) = (Err e, Some r)
  end.
Proof.
  intros ck0 id pub v r i pt w (s & p & HB & HP & HC & HN & HK & HD & HR & HL) (m & ct & EM & E1 & E2 & E3 & EV & ED) Hi Hv.
  exists m. split; [exact EM|]. set (n := (gc_iter ck0 + N.of_nat i)%N) in *.
  assert (Hkey : gmk C (gck C (N.to_nat (n - gc_iter ck0)) ck0) = gmk C (gck C i ck0)) by (f_equal; f_equal; lia).
  assert (HCI : gc_iter (gs_chain s) = gv_next v) by (rewrite HC, HN; apply gck_iter; unfold u32_modulus; lia).
  assert (HKI : map gm_iter (gs_keys s) = gv_kept v).
  { rewrite HK. apply kept_iters. intros x Hx. apply HR in Hx. unfold u32_modulus. lia. }
  assert (HSL : (length (gs_keys s) <= max_group_keys)%nat) by (rewrite HK, map_length; exact HL).
  destruct (by_id_in _ _ _ HB) as [HIn Hsid].
  assert (HEmpty : exists x y, r = x :: y) by (destruct r; [destruct HIn|eauto]). destruct HEmpty as (r0 & r1 & ER).
  assert (GD : forall ok s', g_get_key C s n = (ok, s') ->
     (forall k, ok = Ok k -> k = gmk C (gck C i ck0)) -> 
     match ok with
     | Ok k => gw_decrypt C m (Some r) = (Ok pt, Some (greload (g_upd_id id s' r)))
     | Err e => s' = s -> gw_decrypt C m (Some r) = (Err e, Some r)
     | Panic => True
     end).
  { intros ok s' HG Hk. unfold gw_decrypt, group_decrypt. rewrite ER in *. rewrite by_id_spec, E1, HB, HP, EV. cbn [negb]. rewrite E2. fold n. rewrite HG.
    destruct ok as [k|e|]; [|intros _; reflexivity|exact I]. rewrite (Hk k eq_refl). unfold skm_body. rewrite E3.
    unfold decrypt_cbc in ED. destruct (decrypt_cbc_full C _ _ ct) as [o ct']. cbn [fst] in ED. subst o. reflexivity. }
  assert (RB : forall s' v', gs_id s' = gs_id s -> gs_signing s' = gs_signing s ->
     (exists p', gs_chain s' = gck C p' ck0 /\ gv_next v' = (gc_iter ck0 + N.of_nat p')%N) ->
     gs_keys s' = map (fun n => gmk C (gck C (N.to_nat (n - gc_iter ck0)) ck0)) (gv_kept v') -> NoDup (gv_kept v') ->
     (forall x, In x (gv_kept v') -> (gc_iter ck0 <= x < gv_next v')%N) -> (length (gv_kept v') <= max_group_keys)%nat ->
     rcv_ok ck0 id pub v' (greload (g_upd_id id s' r))).
  { intros s' v' F1 F2 (p' & F3 & F4) F5 F6 F7 F8. exists (with_zero_private s'), p'.
    split; [rewrite by_id_reload, (upd_id_same id s' r s HB) by congruence; reflexivity|]. unfold with_zero_private. cbn [gs_signing kp_pub gs_chain gs_keys].
    split; [rewrite F2; exact HP|]. repeat split; auto; apply F7; assumption. }
  unfold gaccept. destruct (N.ltb_spec n (gv_next v)) as [HO|HO].
  - destruct (get_key_old C s n) as [(HF & EG)|(a & k & b & F1 & F2 & F3 & EG)]; [rewrite HCI; exact HO| |].
    + rewrite HKI in HF. destruct (existsb (N.eqb n) (gv_kept v)) eqn:EX.
      { exfalso. apply existsb_exists in EX. destruct EX as (x & Hx & E). apply N.eqb_eq in E. subst x. auto. }
      exists EGroupOldCounter. exact (GD _ _ EG ltac:(discriminate) eq_refl).
    + assert (EX : existsb (N.eqb n) (gv_kept v) = true).
      { apply existsb_exists. exists n. split; [|apply N.eqb_refl]. rewrite <- HKI, F1, map_app. apply in_or_app. right. left. exact F2. }
      rewrite EX. rewrite HK in F1. apply map_eq_app in F1. destruct F1 as (a' & b0 & G1 & G2 & G3).
      destruct b0 as [|x b']; [discriminate|]. cbn [map] in G3. injection G3 as G3 G4.
      assert (x = n).
      { rewrite <- G3 in F2. cbn [gmk gm_iter] in F2. assert (HX : In x (gv_kept v)) by (rewrite G1; apply in_or_app; right; left; reflexivity).
        apply HR in HX. rewrite gck_iter in F2; unfold u32_modulus in *; lia. }
      subst x. exists (greload (g_upd_id id (gset_keys (a ++ b) s) r)). split.
      * refine (GD _ _ EG _). intros k' Ek. injection Ek as <-. rewrite <- G3. exact Hkey.
      * split; [|exact Hv]. rewrite G1, filter_out by (rewrite <- G1; exact HD). apply RB; cbn [gset_keys gs_id gs_signing gs_chain gs_keys gv_next gv_kept]; try reflexivity.
        -- exists p. auto.
        -- rewrite map_app, G2, G4. reflexivity.
        -- rewrite G1 in HD. apply NoDup_remove_1 in HD. exact HD.
        -- intros x Hx. apply HR. rewrite G1. apply in_or_app. apply in_app_or in Hx. destruct Hx; [auto|right; right; assumption].
        -- rewrite G1 in HL. rewrite app_length in *. cbn [length] in HL. lia.
  - destruct (N.ltb_spec 2000 (n - gv_next v)) as [HJ|HJ].
    + exists EOver2000. refine (GD _ _ (get_key_far C s n _ _) _ eq_refl); [unfold u32_modulus; lia|rewrite HCI; lia|discriminate].
    + assert (EG := get_key_new C L s n ltac:(rewrite HCI; exact HO) ltac:(unfold u32_modulus; lia) HSL ltac:(rewrite HCI; exact HJ)). cbv zeta in EG.
      rewrite HCI in EG. set (k := N.to_nat (n - gv_next v)) in *.
      assert (Hpk : (p + k = i)%nat) by (unfold k; lia).
      eexists. split; [|split].
      * refine (GD _ _ EG _). intros k' Ek. injection Ek as <-. rewrite HC, <- gck_add, Hpk. reflexivity.
      * assert (EK : gkeys C k (gs_chain s) = map (fun n => gmk C (gck C (N.to_nat (n - gc_iter ck0)) ck0)) (n_range (gv_next v) k)).
        { unfold gkeys, n_range. rewrite map_map. apply map_ext. intros j. rewrite HC, <- gck_add. f_equal. f_equal. lia. }
        apply RB; cbn [gset_keys gset_chain gs_id gs_signing gs_chain gs_keys gv_next gv_kept]; try reflexivity.
        -- exists (S i). split; [|lia]. rewrite HC, <- gck_add. f_equal. lia.
        -- rewrite last_n_map, map_app, EK, HK. unfold max_group_keys. replace (N.to_nat 2000) with 2000%nat by reflexivity. reflexivity.
        -- apply last_n_nodup. apply nodup_app_both; [exact HD|apply n_range_nodup|]. intros x Hx Hr. apply HR in Hx. apply n_range_in in Hr. lia.
        -- intros x Hx. apply last_n_in in Hx. apply in_app_or in Hx. destruct Hx as [Hx|Hx]; [apply HR in Hx; lia|apply n_range_in in Hx; lia].
        -- apply last_n_length.
      * cbn [gv_next]. lia.
Qed.

Definition small_sends (evs : list gevent) : Prop :=
  forall pt g, In (GSend pt g) evs -> (N.of_nat (length pt) + 16 < 9223372036854775808)%N.

Lemma schedule_ok : forall evs ck0 s seed r v sent wire,
  gs_signing s = pair_of C (clamp seed) -> (gs_id s < 2 ^ 32)%N -> gs_chain s = gck C (length sent) ck0 ->
  (gc_iter ck0 + N.of_nat (length sent) + N.of_nat (sends evs) < u32_modulus)%N -> small_sends evs ->
  length wire = length sent ->
  (forall i pt w, nth_error sent i = Some pt -> nth_error wire i = Some w -> wire_ok ck0 (gs_id s) (kp_pub (gs_signing s)) i pt w) ->
  rcv_ok ck0 (gs_id s) (kp_pub (gs_signing s)) v r -> (gv_next v <= 4294967295)%N ->
  Forall2 agrees (grun C (Some [s]) (Some r) wire evs) (gspec (gc_iter ck0) sent v evs).
Proof.
  induction evs as [|[pt g|i] evs IH]; intros ck0 s seed r v sent wire HS Hid Hch Hb Hsz Hlen Hw HR Hv.
  - constructor.
  - cbn [grun gspec]. unfold sends in Hb. cbn [filter length] in Hb. fold (sends evs) in Hb.
    destruct (send_ok s seed (length sent) ck0 pt g HS Hid Hch) as (m & EE & HW); [lia|apply (Hsz pt g); left; reflexivity|].
    rewrite EE. apply (IH ck0 (gset_chain (gck C (S (length sent)) ck0) s) seed); cbn [gset_chain gs_signing gs_id gs_chain]; auto.
    + rewrite app_length. cbn [length]. f_equal. lia.
    + rewrite app_length. cbn [length]. lia.
    + intros pt' g' HI. apply (Hsz pt' g'). right. exact HI.
    + rewrite !app_length. cbn. lia.
    + intros i pt' w' H1 H2. destruct (Nat.lt_ge_cases i (length sent)) as [HL|HL].
      * rewrite nth_error_app1 in H1 by exact HL. rewrite nth_error_app1 in H2 by lia. auto.
      * rewrite nth_error_app2 in H1 by exact HL. rewrite nth_error_app2 in H2 by lia.
        assert (i = length sent) as ->.
        { assert (i - length sent < length [pt])%nat by (apply nth_error_Some; congruence). cbn [length] in H. lia. }
        rewrite Nat.sub_diag in H1. rewrite Hlen, Nat.sub_diag in H2. cbn in H1, H2. injection H1 as <-. injection H2 as <-. exact HW.
  - cbn [grun gspec]. unfold sends in Hb. cbn [filter] in Hb. fold (sends evs) in Hb.
    assert (Hsz' : small_sends evs) by (intros pt' g' HI; apply (Hsz pt' g'); right; exact HI).
    destruct (nth_error sent i) as [pt|] eqn:E1.
    + assert (HL : (i < length sent)%nat) by (apply nth_error_Some; congruence).
      destruct (nth_error wire i) as [w|] eqn:E2; [|apply nth_error_None in E2; lia].
      destruct (deliver_ok ck0 _ _ v r i pt w HR (Hw i pt w E1 E2)) as (m & EM & HA); [unfold u32_modulus in Hb; lia|exact Hv|].
      rewrite EM. destruct (gaccept v (gc_iter ck0 + N.of_nat i)) as [v'|].
      * destruct HA as (r' & EA & HR' & Hv'). rewrite EA. constructor; [reflexivity|]. apply (IH ck0 s seed); auto.
      * destruct HA as (e & EA). rewrite EA. constructor; [exists e; reflexivity|]. apply (IH ck0 s seed); auto.
    + assert (HL : (length sent <= i)%nat) by (apply nth_error_None; exact E1).
      replace (nth_error wire i) with (@None bytes) by (symmetry; apply nth_error_None; lia). apply (IH ck0 s seed); auto.
Qed.

(** From Create's distribution message on. *)
Lemma schedule_from_create : forall st g d st1 rcv evs,
  own_store C st -> gw_create C g st = (Ok d, st1) ->
  (forall s, In s (match rcv with Some r => r | None => [] end) -> gs_id s <> dm_id d) ->
  (N.of_nat (length (match rcv with Some r => r | None => [] end)) < 2000)%N ->
  (dm_iter d + N.of_nat (sends evs) < 4294967296)%N -> small_sends evs ->
  exists dm, skd_from_bytes (skd_bytes d) = Ok dm /\
  Forall2 agrees (grun C st1 (gw_process dm rcv) [] evs)
                 (gspec (dm_iter d) [] {| gv_next := dm_iter d; gv_kept := [] |} evs).
Proof.
  intros st g d st1 rcv evs HO HC Hnew Hlen Hb Hsz. destruct (own_store_shape _ HO) as (s & -> & (seed & HS) & Hid & HK & HI).
  unfold gw_create, group_create in HC. cbn [g_is_empty g_first] in HC. injection HC as <- <-. cbn [gcommit fold_left].
  unfold skd_of_state in *. cbn [new_skd dm_id dm_iter] in *.
  destruct (skd_fields_roundtrip (gs_id s) (gc_iter (gs_chain s)) (gc_key (gs_chain s)) (kp_pub (gs_signing s))) as (dm & E & D1 & D2 & D3 & D4);
    [exact Hid|exact HI|unfold fits; lia|].
  exists dm. split; [exact E|]. set (r := match rcv with Some r => r | None => [] end) in *.
  assert (EP : gw_process dm rcv = Some (greload (r ++ [new_gstate (gs_id s) (gc_iter (gs_chain s)) (gc_key (gs_chain s)) {| kp_pub := kp_pub (gs_signing s); kp_priv := None |}]))).
  { assert (HL : forall x : gstate, (max_group_keys <? length (r ++ [x]))%nat = false).
    { intros x. apply Nat.ltb_ge. rewrite app_length. cbn [length]. unfold max_group_keys. lia. }
    unfold gw_process, group_process. rewrite D1, D2, D3, D4. unfold g_add_state. cbv zeta. unfold r in HL. rewrite HL. reflexivity. }
  rewrite EP. apply (schedule_ok evs (gs_chain s) s seed); auto.
  - cbn [length]. unfold u32_modulus. lia.
  - intros i pt w H. destruct i; discriminate.
  - eexists. exists 0%nat. split.
    + rewrite by_id_reload. replace (by_id (gs_id s) _) with (Some (new_gstate (gs_id s) (gc_iter (gs_chain s)) (gc_key (gs_chain s)) {| kp_pub := kp_pub (gs_signing s); kp_priv := None |}));
        [reflexivity|]. clear - Hnew. unfold by_id. induction r as [|x r IH].
      * cbn. rewrite N.eqb_refl. reflexivity.
      * cbn [app find]. destruct (N.eqb_spec (gs_id x) (gs_id s)) as [E|E]; [exfalso; apply (Hnew x); [left; reflexivity|exact E]|].
        apply IH. intros y Hy. apply Hnew. right. exact Hy.
    + cbn. split; [reflexivity|]. split; [destruct (gs_chain s); reflexivity|]. split; [lia|]. split; [reflexivity|]. split; [constructor|].
      split; [intros n []|lia].
  - cbn [gv_next]. unfold u32_modulus in HI. lia.
Qed.
End Schedule.
