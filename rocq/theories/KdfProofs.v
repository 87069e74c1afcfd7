(** KdfProofs.v: the model's key schedule and message bytes meet WireFormatSpec.v. *)
From Verif Require Import Base Labels Crypto Ecc Cbc Keys X3dh Messages Bytehelper Itoa Wire WireProofs CodecProofs CodecProofs2 CryptoProofs
  SessionState SessionRecord SessionBuilder SessionCipher Group SessionProofs HistoryProofs OpsProofs WireFormatSpec Field25519 FieldSpec FieldProofs2 FieldProofs4.
From Coq Require Import ZifyBool ZifyN ZifyNat.

Lemma ok_eq : forall A (a b : A), Ok a = Ok b -> a = b.
Proof. congruence. Qed.

Section K.
Context (C : crypto) (HL : forall k x, length (hmac C k x) = 32%nat).

Lemma expand_T : forall k prk info i, hkdf_expand C k prk (rfc_T C prk info i) info (N.of_nat (S i)) =
  List.concat (map (rfc_T C prk info) (seq (S i) k)).
Proof.
  intros k prk info. induction k as [|k IH]; intros i; [reflexivity|].
  cbn [hkdf_expand seq map List.concat]. cbn [rfc_T]. f_equal.
  replace (N.of_nat (S i) + 1)%N with (N.of_nat (S (S i))) by lia.
  rewrite <- (IH (S i)). reflexivity.
Qed.

Lemma hkdf_spec : forall ikm salt info n,
  hkdf_output C (match salt with Some s => s | None => no_salt end) ikm info n (hkdf_bytes C ikm salt info n).
Proof.
  intros ikm salt info n. split; [apply hkdf_bytes_length; exact HL|].
  exists (hkdf_blocks n), (skipn n (hkdf_expand C (hkdf_blocks n) (hkdf_extract C ikm salt) [] info 1)).
  unfold hkdf_bytes. rewrite firstn_skipn. exact (expand_T (hkdf_blocks n) _ info 0).
Qed.

Lemma split_64 : forall l : bytes, length l = 64%nat -> length (firstn 32 l) = 32%nat /\ length (skipn 32 l) = 32%nat /\
  firstn 32 l ++ skipn 32 l = l.
Proof. intros l H. rewrite firstn_length, skipn_length, firstn_skipn. split; [lia|]. split; [lia|reflexivity]. Qed.

Lemma message_keys_spec : forall ck, message_keys_of_chain C (ck_key ck) (mk_cipher (message_keys C ck)) (mk_mac (message_keys C ck)) (mk_iv (message_keys C ck)).
Proof.
  intros ck. pose proof (hkdf_spec (hmac C (ck_key ck) [x01]) None message_kdf_info 80) as H.
  unfold message_keys, new_key_material. cbn [mk_cipher mk_mac mk_iv].
  change (base_material C ck message_key_seed) with (hmac C (ck_key ck) [x01]). change message_secrets_size with 80%nat.
  remember (hkdf_bytes C (hmac C (ck_key ck) [x01]) None message_kdf_info 80) as km eqn:E.
  assert (HN : length km = 80%nat) by exact (proj1 H). clear E.
  unfold message_keys_of_chain. rewrite !firstn_length, !skipn_length, HN.
  split; [reflexivity|]. split; [reflexivity|]. split; [reflexivity|].
  assert (H16 : firstn 16 (skipn 64 km) = skipn 64 km) by (apply firstn_all2; rewrite skipn_length; lia).
  rewrite H16.
  change (skipn 64 km) with (skipn (32 + 32) km). rewrite <- (skipn_skipn' _ 32 32 km).
  rewrite firstn_skipn, firstn_skipn. exact H.
Qed.

Lemma chain_after_spec : forall n ck, ck_key (Nat.iter n (next_key C) ck) = chain_after C n (ck_key ck).
Proof. intros n ck. induction n as [|n IH]; [reflexivity|]. 
  change (hmac C (ck_key (Nat.iter n (next_key C) ck)) [x02] = hmac C (chain_after C n (ck_key ck)) [x02]). rewrite IH. reflexivity. Qed.

Lemma derived_spec : forall km (P : bytes -> Prop), length km = 64%nat -> P km ->
  length (sk_root (derived_secrets km)) = 32%nat /\ length (ck_key (sk_chain (derived_secrets km))) = 32%nat /\
  P (sk_root (derived_secrets km) ++ ck_key (sk_chain (derived_secrets km))).
Proof.
  intros km P H HP. destruct (split_64 km H) as (A & B & D). cbn [derived_secrets sk_root sk_chain ck_key].
  rewrite D. auto.
Qed.

Lemma create_chain_spec : forall root their our priv k, kp_priv our = Some priv -> create_chain C root their our = Ok k ->
  root_step C root (abytes (x_mult C priv their)) (sk_root k) (ck_key (sk_chain k)) /\ ck_index (sk_chain k) = 0%N.
Proof.
  intros root their our priv k Hp H. unfold create_chain in H. rewrite Hp, derive_secrets_64 in H. cbn [bind] in H.
  injection H as <-. split; [|reflexivity].
  pose proof (hkdf_spec (abytes (shared_secret C their priv)) (Some root) root_kdf_info 64) as H.
  exact (derived_spec _ (hkdf_output C root (abytes (x_mult C priv their)) root_kdf_info 64) (proj1 H) H).
Qed.

Lemma derive_session_spec : forall ms k, derive_session C ms = Ok k -> x3dh_output C ms (sk_root k) (ck_key (sk_chain k)) /\ ck_index (sk_chain k) = 0%N.
Proof.
  intros ms k H. unfold derive_session in H. rewrite derive_secrets_64 in H. cbn [bind] in H. injection H as <-.
  split; [|reflexivity]. pose proof (hkdf_spec ms None x3dh_info 64) as H.
  exact (derived_spec _ (hkdf_output C no_salt ms x3dh_info 64) (proj1 H) H).
Qed.

Lemma group_keys_spec : forall ck k, g_message_key C ck = Ok k ->
  group_keys_of_chain C (gc_key ck) (gm_iv k) (gm_cipher k) /\ gm_iter k = gc_iter ck.
Proof.
  intros ck k H. unfold g_message_key, new_gmsg_key, derive_secrets in H.
  change (N.of_nat 48 <=? 255 * 32)%N with true in H. cbn [bind] in H.
  pose proof (hkdf_spec (hmac C (gc_key ck) [x01]) None group_kdf_info 48) as HS.
  change (g_derivative C [x01] (gc_key ck)) with (hmac C (gc_key ck) [x01]) in H.
  remember (hkdf_bytes C (hmac C (gc_key ck) [x01]) None group_kdf_info 48) as km eqn:E. clear E.
  assert (HN : length km = 48%nat) by exact (proj1 HS).
  unfold split_two in H. rewrite HN in H. change (48 <? 16)%nat with false in H. cbn [bind fst snd] in H.
  assert (HT : take_pad 32 (skipn 16 km) = skipn 16 km)
    by (unfold take_pad; apply firstn_app_exact; rewrite skipn_length; lia).
  rewrite HT in H. apply ok_eq in H. subst k. cbn [gm_iv gm_cipher gm_iter].
  unfold group_keys_of_chain. rewrite firstn_length, skipn_length, firstn_skipn, HN.
  split; [|reflexivity]. do 2 (split; [reflexivity|]). exact HS.
Qed.

Lemma g_chain_after_spec : forall n ck, gc_key (Nat.iter n (g_next C) ck) = chain_after C n (gc_key ck).
Proof. intros n ck. induction n as [|n IH]; [reflexivity|]. 
  change (hmac C (gc_key (Nat.iter n (g_next C) ck)) [x02] = hmac C (chain_after C n (gc_key ck)) [x02]). rewrite IH. reflexivity. Qed.

(** * CBC *)

Lemma xor_block_bytes : forall a b, xor_bytes a b = xor_block a b.
Proof. intros a. induction a as [|x a IH]; intros [|y b]; [reflexivity..|]. cbn. f_equal. apply IH. Qed.

Lemma block_0 : forall l, block l 0 = firstn 16 l.
Proof. reflexivity. Qed.
Lemma block_S : forall l i, block l (S i) = block (skipn 16 l) i.
Proof. intros l i. unfold block. rewrite skipn_skipn'. f_equal. f_equal. lia. Qed.
Lemma block_app : forall a l i, length a = 16%nat -> block (a ++ l) (S i) = block l i.
Proof. intros a l i H. rewrite block_S. f_equal. apply skipn_app_exact. exact H. Qed.

Lemma cbc_enc_blocks : (forall k b, aes_key_ok k = true -> length b = 16%nat -> length (aes_enc C k b) = 16%nat) ->
  forall n key iv l, aes_key_ok key = true -> length iv = 16%nat -> length l = (16 * n)%nat ->
  length (cbc_enc C n key iv l) = (16 * n)%nat /\
  forall i, (i < n)%nat -> block (cbc_enc C n key iv l) i = aes_enc C key (xor_block (block l i) (block (iv ++ cbc_enc C n key iv l) i)).
Proof.
  intros HA n. induction n as [|n IH]; intros key iv l Hk Hi Hl; [split; [reflexivity|lia]|].
  cbn [cbc_enc]. rewrite xor_block_bytes.
  set (c := aes_enc C key (xor_block (firstn 16 l) iv)).
  assert (Hc : length c = 16%nat).
  { apply HA; [exact Hk|]. unfold xor_block. rewrite map_length, combine_length, firstn_length. lia. }
  destruct (IH key c (skipn 16 l) Hk Hc) as [IL IB]; [rewrite skipn_length; lia|].
  split; [rewrite app_length; lia|]. intros [|i] Hlt.
  - rewrite !block_0, !firstn_app_exact by assumption. reflexivity.
  - rewrite !block_app by assumption. rewrite IB by lia. rewrite block_S. reflexivity.
Qed.

Lemma cbc_spec : (forall k b, aes_key_ok k = true -> length b = 16%nat -> length (aes_enc C k b) = 16%nat) ->
  forall iv key pt ct, aes_key_ok key = true -> length iv = 16%nat -> encrypt_cbc C iv key pt = Ok ct ->
  cbc_ciphertext C key iv pt ct.
Proof.
  intros HA iv key pt ct Hk Hi H. unfold encrypt_cbc, encrypt_cbc_rng in H. cbv zeta in H.
  destruct (pad_facts pt) as (HP & HN & HM). rewrite HM, Hk, Hi in H. cbn in H. injection H as <-.
  assert (HB := blocks_mul _ HM).
  destruct (cbc_enc_blocks HA (blocks (pad pt 16)) key iv (pad pt 16) Hk Hi HB) as [A B].
  exists (blocks (pad pt 16)), (16 - length pt mod 16)%nat. split; [exact HP|]. split; [exact A|]. split; [lia|exact B].
Qed.
End K.

(** * Wire bytes *)

Lemma varint_fuel : forall f n, (n < 128 ^ N.of_nat f)%N -> (0 < f)%nat -> varint n (enc_varint_fuel f n).
Proof.
  intros f. induction f as [|f IH]; intros n Hn Hf; [lia|]. cbn [enc_varint_fuel].
  destruct (n <? 128)%N eqn:E; [constructor; lia|]. destruct f as [|f].
  - change (128 ^ N.of_nat 1)%N with 128%N in Hn. lia.
  - apply varint_more; [lia|]. apply IH; [|lia]. apply N.div_lt_upper_bound; [lia|].
    replace (N.of_nat (S (S f))) with (1 + N.of_nat (S f))%N in Hn by lia. rewrite N.pow_add_r in Hn. exact Hn.
Qed.

Lemma varint_enc : forall n, (n < 2 ^ 64)%N -> varint n (enc_varint n).
Proof.
  intros n H. apply varint_fuel; [|lia]. change (128 ^ N.of_nat 10)%N with 1180591620717411303424%N.
  change (2 ^ 64)%N with 18446744073709551616%N in H. lia.
Qed.

Lemma varint_det : forall n l, varint n l -> forall l', varint n l' -> l = l'.
Proof.
  intros n l H. induction H as [n Hn|n l Hn H IH]; intros l' H'; inversion H'; subst; try lia; [reflexivity|].
  f_equal. apply IH. assumption.
Qed.

Lemma fits_64 : forall l : bytes, fits l -> (N.of_nat (length l) < 2 ^ 64)%N.
Proof. intros l H. unfold fits in H. change (2 ^ 64)%N with 18446744073709551616%N. lia. Qed.

Lemma marshal_signal : forall ratchet counter prev ct s, (counter < 2 ^ 32)%N -> (prev < 2 ^ 32)%N -> fits ct ->
  sg_ratchet s = Some (ser_pub ratchet) -> sg_counter s = counter -> sg_prev s = prev -> sg_ct s = Some ct ->
  signal_proto ratchet counter prev ct (marshal (sig_fields s)).
Proof.
  intros ratchet counter prev ct s H1 H2 H3 E1 E2 E3 E4. exists (enc_varint counter), (enc_varint prev), (enc_varint (N.of_nat (length ct))).
  change (2 ^ 32)%N with 4294967296%N in *.
  assert (A : (counter < 2 ^ 64)%N) by (change (2 ^ 64)%N with 18446744073709551616%N; lia).
  assert (B : (prev < 2 ^ 64)%N) by (change (2 ^ 64)%N with 18446744073709551616%N; lia).
  split; [apply varint_enc; exact A|]. split; [apply varint_enc; exact B|].
  split; [apply varint_enc, fits_64; exact H3|].
  unfold sig_fields. rewrite E1, E2, E3, E4. unfold opt_bytes_field, marshal. cbn [app flat_map].
  unfold enc_field. rewrite ser_pub_length.
  change (enc_varint (1 * 8 + wt_bytes)) with [x0a]. change (enc_varint (N.of_nat 33)) with [x21].
  change (enc_varint (2 * 8 + wt_varint)) with [x10]. change (enc_varint (3 * 8 + wt_varint)) with [x18].
  change (enc_varint (4 * 8 + wt_bytes)) with [x22]. unfold ser_pub. change djb_type with x05.
  cbn [app]. rewrite app_nil_r. repeat (rewrite <- ?app_assoc; cbn [app]). reflexivity.
Qed.

Lemma signal_wire_spec : forall C counter prev mac_key ratchet ct sender receiver m,
  (forall k x, length (hmac C k x) = 32%nat) -> (counter < 2 ^ 32)%N -> (prev < 2 ^ 32)%N -> fits ct ->
  new_signal_message C 3 counter prev mac_key ratchet ct sender receiver = Ok m ->
  signal_wire C mac_key sender receiver ratchet counter prev ct (sig_msg_bytes m).
Proof.
  intros C counter prev mac_key ratchet ct sender receiver m HL H1 H2 H3 H.
  destruct (new_signal_message_ok C counter prev mac_key ratchet ct sender receiver HL) as (mac & _ & Hmac & E).
  rewrite E in H. apply ok_eq in H. subst m. clear E.
  match type of Hmac with context [sig_serialize ?s0] => set (s := s0) in * end.
  exists (marshal (sig_fields s)). split; [apply marshal_signal; try assumption; reflexivity|].
  unfold sig_msg_bytes, sig_serialize. cbn [sm_struct sg_version sg_mac]. change (3 =? 0)%Z with false. cbv iota.
  change (itoa 3) with [x33] in *. cbn [app]. apply (f_equal (cons x33)). apply (f_equal (app (marshal (sig_fields s)))). rewrite Hmac.
  f_equal. f_equal. unfold mac_input. change (3 >=? 3)%Z with true. cbv iota. unfold ser_pub. change djb_type with x05.
  unfold sig_serialize. subst s. cbn [sg_version sg_mac]. change (0 =? 0)%Z with true. cbv iota.
  rewrite app_nil_r. cbn [app]. rewrite <- !app_assoc. reflexivity.
Qed.

Lemma prekey_wire_spec : forall version reg o signed base ident sm pm,
  version = 3%Z -> (reg < 2 ^ 32)%N -> (signed < 2 ^ 32)%N -> (ou_value o < 2 ^ 32)%N -> fits (sig_msg_bytes sm) ->
  new_prekey_message version reg (Some o) signed base ident sm = Ok pm ->
  exists wire, pk_msg_bytes pm = Ok wire /\
    prekey_wire (if ou_empty o then None else Some (ou_value o)) base ident (sig_msg_bytes sm) reg signed wire.
Proof.
  intros version reg o signed base ident sm pm -> H1 H2 H3 HF H. change (2 ^ 32)%N with 4294967296%N in *.
  assert (HS : pm_struct pm = {| pk_reg := reg; pk_prekey_id := Some o; pk_signed_id := signed;
                    pk_base := Some (ser_pub base); pk_identity := Some (ser_pub ident);
                    pk_message := Some (sig_msg_bytes sm); pk_version := 3 |}).
  { unfold new_prekey_message, pk_from_struct in H. cbn [pk_version pk_base pk_identity pk_message] in H.
    change (3 <=? unsupported_version)%Z with false in H. change (3 >? current_version)%Z with false in H. cbv iota in H.
    rewrite !decode_ser_pub in H. cbn [bind] in H. destruct (sig_from_bytes (sig_msg_bytes sm)); cbn [bind] in H; try discriminate.
    apply ok_eq in H. subst pm. reflexivity. }
  unfold pk_msg_bytes, pk_serialize. rewrite HS. cbn [pk_reg pk_prekey_id pk_signed_id pk_base pk_identity pk_message pk_version].
  eexists. split; [reflexivity|].
  assert (HV : forall n, (n < 4294967296)%N -> varint n (enc_varint n)).
  { intros n Hn. apply varint_enc. change (2 ^ 64)%N with 18446744073709551616%N. lia. }
  exists (if ou_empty o then [] else x08 :: enc_varint (ou_value o)), (enc_varint (N.of_nat (length (sig_msg_bytes sm)))), (enc_varint reg), (enc_varint signed).
  split; [destruct (ou_empty o); [reflexivity|]; exists (enc_varint (ou_value o)); split; [apply HV; exact H3|reflexivity]|].
  split; [apply varint_enc, fits_64; exact HF|]. split; [apply HV; exact H1|]. split; [apply HV; exact H2|].
  change (itoa 3) with [x33]. unfold opt_bytes_field, marshal. rewrite !flat_map_app. cbn [app flat_map].
  unfold enc_field. rewrite !ser_pub_length.
  change (enc_varint (1 * 8 + wt_varint)) with [x08]. change (enc_varint (2 * 8 + wt_bytes)) with [x12].
  change (enc_varint (3 * 8 + wt_bytes)) with [x1a]. change (enc_varint (4 * 8 + wt_bytes)) with [x22].
  change (enc_varint (5 * 8 + wt_varint)) with [x28]. change (enc_varint (6 * 8 + wt_varint)) with [x30].
  change (enc_varint (N.of_nat 33)) with [x21]. unfold ser_pub. change djb_type with x05.
  destruct (ou_empty o); cbn [flat_map app]; rewrite ?app_nil_r; repeat (rewrite <- ?app_assoc; cbn [app]); reflexivity.
Qed.

(** * Clamping *)

Lemma clamp_first : forall b, zb (n2b (N.land (b2n b) 248)) = (8 * (zb b / 8))%Z.
Proof. intros b. destruct b; reflexivity. Qed.
Lemma clamp_last : forall b, zb (n2b (N.lor (N.land (b2n b) 127) 64)) = (64 + zb b mod 64)%Z.
Proof. intros b. destruct b; reflexivity. Qed.

Lemma arr32_ends : forall s : arr32, exists a m b, abytes s = a :: m ++ [b] /\ length m = 30%nat.
Proof.
  intros s. destruct (arr32_snoc s) as (l & b & E & L). destruct l as [|a m]; [discriminate|].
  exists a, m, b. split; [exact E|]. cbn in L. lia.
Qed.

Lemma clamp_bytes : forall k a m b, abytes k = a :: m ++ [b] -> length m = 30%nat ->
  abytes (clamp k) = n2b (N.land (b2n a) 248) :: m ++ [n2b (N.lor (N.land (b2n b) 127) 64)].
Proof.
  intros k a m b E L. unfold clamp. rewrite E. rewrite to_arr_exact.
  - assert (H0 : forall f, upd_nth 0 f (a :: m ++ [b]) = f a :: m ++ [b]) by reflexivity. rewrite H0.
    assert (H1 : forall f x l, upd_nth 31 f (x :: l) = x :: upd_nth 30 f l) by reflexivity. rewrite H1.
    unfold upd_nth. rewrite firstn_app_exact, skipn_app_exact by exact L. reflexivity.
  - rewrite !upd_nth_length. cbn [length]. rewrite app_length, L. reflexivity.
Qed.

Lemma clamp_arith : forall a m b, (0 <= a)%Z -> (0 <= m < 2 ^ 240)%Z -> (0 <= b < 256)%Z -> (a < 256)%Z ->
  (8 * (a / 8) + 256 * (m + 2 ^ 240 * (64 + b mod 64)) = 2 ^ 254 + 8 * (((a + 256 * (m + 2 ^ 240 * b)) / 8) mod 2 ^ 251))%Z.
Proof.
  intros a m b Ha Hm Hb Ha'.
  assert (E : ((a + 256 * (m + 2 ^ 240 * b)) / 8 = a / 8 + 32 * m + 2 ^ 245 * (b mod 64) + (b / 64) * 2 ^ 251)%Z).
  { replace (a + 256 * (m + 2 ^ 240 * b))%Z with (a + (32 * m + 2 ^ 245 * b) * 8)%Z by ring. rewrite Z.div_add by lia.
    pose proof (Z.div_mod b 64 ltac:(lia)) as D. generalize dependent (b / 64)%Z. generalize dependent (b mod 64)%Z.
    intros r q ->. ring. }
  rewrite E, Z.mod_add by lia. rewrite (Z.mod_small _ (2 ^ 251)); [ring|].
  pose proof (Z.mod_pos_bound b 64 ltac:(lia)). assert (0 <= a / 8 < 32)%Z by (split; [apply Z.div_pos; lia|apply Z.div_lt_upper_bound; lia]).
  lia.
Qed.

Lemma clamp_val : forall k, le_val (abytes (clamp k)) = (2 ^ 254 + 8 * ((le_val (abytes k) / 8) mod 2 ^ 251))%Z.
Proof.
  intros k. destruct (arr32_ends k) as (a & m & b & E & L). rewrite (clamp_bytes k a m b E L), E.
  cbn [le_val]. rewrite !le_val_snoc, L, clamp_first, clamp_last. change (256 ^ Z.of_nat 30)%Z with (2 ^ 240)%Z.
  pose proof (le_val_bound m) as B. rewrite L in B. change (256 ^ Z.of_nat 30)%Z with (2 ^ 240)%Z in B.
  pose proof (zb_range a). pose proof (zb_range b). apply clamp_arith; lia.
Qed.
