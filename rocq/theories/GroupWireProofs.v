(** GroupWireProofs.v: proofs for C70. *)
From Verif Require Import Base Labels Crypto Bytehelper Ecc Cbc Wire Itoa Keys Messages SessionState Group WireFormatSpec GroupWireSpec
  CryptoProofs WireProofs CodecProofs CodecProofs2 SessionProofs KdfProofs GroupSpec GroupProofs GroupProofs2 GroupConvProofs.
From Coq Require Import List Lia ZifyBool ZifyN ZifyNat.
Import ListNotations.

(** * The description determines the bytes *)

Lemma concat_prefix : forall (a b r r' : bytes) n, length a = n -> length b = n -> a ++ r = b ++ r' -> a = b.
Proof. intros a b r r' n Ha Hb H. apply (f_equal (firstn n)) in H. rewrite !firstn_app_exact in H by assumption. exact H. Qed.

Lemma concat_seq_app : forall (f : nat -> bytes) a b, List.concat (map f (seq 1 (a + b))) = List.concat (map f (seq 1 a)) ++ List.concat (map f (seq (1 + a) b)).
Proof. intros f a b. rewrite seq_app, map_app, concat_app. reflexivity. Qed.

Lemma hkdf_output_det : forall C salt ikm info n o o', hkdf_output C salt ikm info n o -> hkdf_output C salt ikm info n o' -> o = o'.
Proof.
  intros C salt ikm info n o o' (H & k & r & E) (H' & k' & r' & E'). set (f := rfc_T C (hmac C salt ikm) info) in *.
  apply (concat_prefix o o' (r ++ List.concat (map f (seq (1 + k) k'))) (r' ++ List.concat (map f (seq (1 + k') k))) n H H').
  rewrite !app_assoc, E, E', <- !concat_seq_app. rewrite Nat.add_comm. reflexivity.
Qed.

Lemma split2 : forall (a b a' b' : bytes), length a = length a' -> a ++ b = a' ++ b' -> a = a' /\ b = b'.
Proof.
  intros a b a' b' HL H. split; [exact (concat_prefix a a' b b' (length a) eq_refl (eq_sym HL) H)|].
  apply (f_equal (skipn (length a))) in H. rewrite skipn_app_exact in H by reflexivity. rewrite skipn_app_exact in H by (symmetry; exact HL). exact H.
Qed.

Lemma message_keys_det : forall C chain c m i c' m' i', message_keys_of_chain C chain c m i -> message_keys_of_chain C chain c' m' i' -> c = c' /\ m = m' /\ i = i'.
Proof.
  intros C chain c m i c' m' i' (A & B & D & E) (A' & B' & D' & E'). pose proof (hkdf_output_det _ _ _ _ _ _ _ E E') as H.
  apply split2 in H; [|rewrite A, A'; reflexivity]. destruct H as [H1 H]. apply split2 in H; [|rewrite B, B'; reflexivity]. destruct H as [H2 H3].
  split; [exact H1|]. split; [exact H2|exact H3].
Qed.

Lemma group_keys_det : forall C chain i c i' c', group_keys_of_chain C chain i c -> group_keys_of_chain C chain i' c' -> i = i' /\ c = c'.
Proof.
  intros C chain i c i' c' (A & B & E) (A' & B' & E'). pose proof (hkdf_output_det _ _ _ _ _ _ _ E E') as H.
  apply split2 in H; [|rewrite A, A'; reflexivity]. exact H.
Qed.

Lemma block_next : forall l i, block l (S i) = block (skipn 16 l) i.
Proof. intros l i. unfold block. rewrite skipn_skipn'. f_equal. f_equal. lia. Qed.
Lemma block_after : forall (a l : bytes) i, length a = 16%nat -> block (a ++ l) (S i) = block l i.
Proof. intros a l i H. rewrite block_next, skipn_app_exact by exact H. reflexivity. Qed.
Lemma blocks_ext : forall n (a b : bytes), length a = (16 * n)%nat -> length b = (16 * n)%nat -> (forall i, (i < n)%nat -> block a i = block b i) -> a = b.
Proof.
  induction n as [|n IH]; intros a b Ha Hb H.
  - destruct a; [|discriminate Ha]. destruct b; [reflexivity|discriminate Hb].
  - rewrite <- (firstn_skipn 16 a), <- (firstn_skipn 16 b). f_equal.
    + specialize (H 0%nat ltac:(lia)). rewrite !block_0 in H. exact H.
    + apply IH; [rewrite skipn_length; lia|rewrite skipn_length; lia|]. intros i Hi. specialize (H (S i) ltac:(lia)). rewrite !block_next in H. exact H.
Qed.

Lemma firstn_app_le : forall (l r : bytes) n, (n <= length l)%nat -> firstn n (l ++ r) = firstn n l.
Proof. intros l r n H. rewrite firstn_app. replace (n - length l)%nat with 0%nat by lia. rewrite firstn_O, app_nil_r. reflexivity. Qed.

Lemma cbc_det : forall C key iv pt ct ct', length iv = 16%nat -> cbc_ciphertext C key iv pt ct -> cbc_ciphertext C key iv pt ct' -> ct = ct'.
Proof.
  intros C key iv pt ct ct' Hi (n & p & P1 & P2 & P3 & P4) (n' & p' & Q1 & Q2 & Q3 & Q4).
  assert (n' = n /\ p' = p) by lia. destruct H as [-> ->].
  apply (blocks_ext n); [exact P2|exact Q2|].
  assert (HB : forall i, (i < n)%nat -> block ct i = block ct' i).
  { induction i as [|i IH]; intros Hlt; rewrite P4, Q4 by exact Hlt.
    - rewrite !(block_0 (iv ++ _)), !firstn_app_exact by exact Hi. reflexivity.
    - rewrite !(block_after iv) by exact Hi. rewrite IH by lia. reflexivity. }
  exact HB.
Qed.

Lemma group_unsigned_det : forall id iter body l l', group_unsigned id iter body l -> group_unsigned id iter body l' -> l = l'.
Proof.
  intros id iter body l l' (a & b & c & A & B & D & ->) (a' & b' & c' & A' & B' & D' & ->).
  rewrite (varint_det _ _ A _ A'), (varint_det _ _ B _ B'), (varint_det _ _ D _ D'). reflexivity.
Qed.
Lemma group_distribution_det : forall id iter chain k l l', group_distribution id iter chain k l -> group_distribution id iter chain k l' -> l = l'.
Proof.
  intros id iter body k l l' (a & b & c & A & B & D & ->) (a' & b' & c' & A' & B' & D' & ->).
  rewrite (varint_det _ _ A _ A'), (varint_det _ _ B _ B'), (varint_det _ _ D _ D'). reflexivity.
Qed.

(** * The code produces these bytes *)

Lemma u32_64 : forall n, (n < 2 ^ 32)%N -> (n < 2 ^ 64)%N.
Proof. intros n H. change (2 ^ 32)%N with 4294967296%N in H. change (2 ^ 64)%N with 18446744073709551616%N. lia. Qed.

Lemma unsigned_spec : forall m body, (km_id m < 2 ^ 32)%N -> (km_iter m < 2 ^ 32)%N -> fits body -> km_ct m = Some body -> km_version m = 3%N ->
  group_unsigned (km_id m) (km_iter m) body (skm_unsigned m).
Proof.
  intros m body H1 H2 H3 E V. exists (enc_varint (km_id m)), (enc_varint (km_iter m)), (enc_varint (N.of_nat (length body))).
  split; [apply varint_enc, u32_64; exact H1|]. split; [apply varint_enc, u32_64; exact H2|]. split; [apply varint_enc, fits_64; exact H3|].
  unfold skm_unsigned, skm_serialize. cbn [km_id km_iter km_ct km_version km_sig]. rewrite E, V. change (3 =? 0)%N with false. cbv iota.
  change (dec_n 3) with [x33]. unfold opt_bytes_field, marshal. cbn [app flat_map]. unfold enc_field.
  change (enc_varint (1 * 8 + wt_varint)) with [x08]. change (enc_varint (2 * 8 + wt_varint)) with [x10]. change (enc_varint (3 * 8 + wt_bytes)) with [x1a].
  cbn [app]. rewrite !app_nil_r. repeat (rewrite <- ?app_assoc; cbn [app]). reflexivity.
Qed.

Lemma distribution_spec : forall d chain, (dm_id d < 2 ^ 32)%N -> (dm_iter d < 2 ^ 32)%N -> fits chain -> dm_chain d = Some chain ->
  group_distribution (dm_id d) (dm_iter d) chain (dm_sigkey d) (skd_bytes d).
Proof.
  intros d chain H1 H2 H3 E. exists (enc_varint (dm_id d)), (enc_varint (dm_iter d)), (enc_varint (N.of_nat (length chain))).
  split; [apply varint_enc, u32_64; exact H1|]. split; [apply varint_enc, u32_64; exact H2|]. split; [apply varint_enc, fits_64; exact H3|].
  unfold skd_bytes, skd_serialize. cbn [ds_id ds_iter ds_chain ds_signing ds_version]. rewrite E.
  change (dec_n 3) with [x33]. unfold opt_bytes_field, marshal. cbn [app flat_map]. unfold enc_field. rewrite ser_pub_length.
  change (enc_varint (1 * 8 + wt_varint)) with [x08]. change (enc_varint (2 * 8 + wt_varint)) with [x10]. change (enc_varint (3 * 8 + wt_bytes)) with [x1a].
  change (enc_varint (4 * 8 + wt_bytes)) with [x22]. change (enc_varint (N.of_nat 33)) with [x21]. unfold ser_pub. change djb_type with x05.
  cbn [app]. rewrite !app_nil_r. repeat (rewrite <- ?app_assoc; cbn [app]). reflexivity.
Qed.

Lemma signed_split : forall m sig, km_sig m = Some sig -> skm_signed m = skm_unsigned m ++ sig.
Proof.
  intros m sig E. unfold skm_signed, skm_unsigned, skm_serialize. cbn [km_id km_iter km_ct km_version km_sig]. rewrite E, app_nil_r. reflexivity.
Qed.

Section Laws.
Context (C : crypto) (L : crypto_laws C).

Lemma gmk_keys : forall ck, group_keys_of_chain C (gc_key ck) (gm_iv (gmk C ck)) (gm_cipher (gmk C ck)).
Proof. intros ck. exact (proj1 (group_keys_spec C (law_hmac_len C L) ck _ (message_key_ok C L ck))). Qed.

Lemma group_body_decrypts : forall ck iv cipher pt body, group_keys_of_chain C (gc_key ck) iv cipher -> cbc_ciphertext C cipher iv pt body ->
  decrypt_cbc C (Some (gm_iv (gmk C ck))) (gm_cipher (gmk C ck)) body = Ok pt.
Proof.
  intros ck iv cipher pt body HK HB. destruct (group_keys_det _ _ _ _ _ _ HK (gmk_keys ck)) as [-> ->].
  destruct (gmk_sizes C L ck) as [Z1 Z2]. assert (HA : aes_key_ok (gm_cipher (gmk C ck)) = true) by (unfold aes_key_ok; rewrite Z2; reflexivity).
  destruct (cbc_roundtrip_given C L _ _ pt HA Z1) as (ct & E1 & E2 & _).
  pose proof (cbc_spec C (law_hmac_len C L) (law_aes_enc_len C L) _ _ _ _ HA Z1 E1) as HS.
  rewrite (cbc_det _ _ _ _ _ _ Z1 HB HS). exact E2.
Qed.

Lemma body_fits : forall cipher iv pt body, (N.of_nat (length pt) + 16 < 2 ^ 63)%N -> cbc_ciphertext C cipher iv pt body -> fits body.
Proof. intros cipher iv pt body H (n & p & P1 & P2 & P3 & _). unfold fits. change (2 ^ 63)%N with 9223372036854775808%N in H. lia. Qed.

(** A message made by anybody who follows the description, signed so that the signature is accepted, is a message of the chain. *)
Lemma conforming_wire_ok : forall ck0 id pub i pt l sig, (id < 2 ^ 32)%N -> (gc_iter ck0 + N.of_nat i < 2 ^ 32)%N -> (N.of_nat (length pt) + 16 < 2 ^ 63)%N ->
  group_message C id (gc_iter ck0 + N.of_nat i) (chain_after C i (gc_key ck0)) pt l -> xed_verify C pub l sig = true ->
  wire_ok C ck0 id pub i pt (l ++ abytes sig).
Proof.
  intros ck0 id pub i pt l sig Hid Hit Hpt (iv & cipher & body & HK & HB & HU) HV.
  set (m := {| km_id := id; km_iter := gc_iter ck0 + N.of_nat i; km_ct := Some body; km_version := 3; km_sig := Some (abytes sig) |}).
  assert (HF : fits body) by (eapply body_fits; [exact Hpt|exact HB]).
  assert (HL : skm_unsigned m = l) by (apply (group_unsigned_det id (gc_iter ck0 + N.of_nat i) body); [exact (unsigned_spec m body Hid Hit HF eq_refl eq_refl)|exact HU]).
  exists m, body. split; [|split; [reflexivity|]; split; [reflexivity|]; split; [reflexivity|]; split].
  - rewrite <- HL, <- (signed_split m (abytes sig) eq_refl). apply skm_fields_roundtrip; [exact Hid|exact Hit|exact HF|apply arr_length].
  - rewrite HL. unfold verify_signature, skm_signature. cbn [km_sig m]. rewrite to_arr_abytes. exact HV.
  - apply (group_body_decrypts (gck C i ck0) iv cipher); [|exact HB]. rewrite <- (g_chain_after_spec C i ck0) in HK. exact HK.
Qed.

Lemma foreign_deliveries : forall js ck0 id pub r v sent wire,
  (gc_iter ck0 + N.of_nat (length sent) < u32_modulus)%N -> length wire = length sent ->
  (forall i pt w, nth_error sent i = Some pt -> nth_error wire i = Some w -> wire_ok C ck0 id pub i pt w) ->
  rcv_ok C ck0 id pub v r -> (gv_next v <= 4294967295)%N ->
  Forall2 agrees (grun C None (Some r) wire (map GDeliver js)) (gspec (gc_iter ck0) sent v (map GDeliver js)).
Proof.
  induction js as [|i js IH]; intros ck0 id pub r v sent wire Hb Hlen Hw HR Hv; [constructor|]. cbn [map grun gspec].
  destruct (nth_error sent i) as [pt|] eqn:E1.
  - assert (HL : (i < length sent)%nat) by (apply nth_error_Some; congruence).
    destruct (nth_error wire i) as [w|] eqn:E2; [|apply nth_error_None in E2; lia].
    destruct (deliver_ok C L ck0 _ _ v r i pt w HR (Hw i pt w E1 E2)) as (m & EM & HA); [unfold u32_modulus in Hb; lia|exact Hv|].
    rewrite EM. destruct (gaccept v (gc_iter ck0 + N.of_nat i)) as [v'|].
    + destruct HA as (r' & EA & HR' & Hv'). rewrite EA. constructor; [reflexivity|]. eapply IH; eauto.
    + destruct HA as (e & EA). rewrite EA. constructor; [exists e; reflexivity|]. eapply IH; eauto.
  - assert (HL : (length sent <= i)%nat) by (apply nth_error_None; exact E1).
    replace (nth_error wire i) with (@None bytes) by (symmetry; apply nth_error_None; lia). eapply IH; eauto.
Qed.

Lemma process_new : forall dm id iter chain pub rcv, dm_id dm = id -> dm_iter dm = iter -> dm_chain dm = Some chain -> dm_sigkey dm = pub ->
  (forall s, In s (match rcv with Some r => r | None => [] end) -> gs_id s <> id) ->
  (N.of_nat (length (match rcv with Some r => r | None => [] end)) < 2000)%N ->
  exists r, gw_process dm rcv = Some r /\ rcv_ok C {| gc_key := chain; gc_iter := iter |} id pub {| gv_next := iter; gv_kept := [] |} r.
Proof.
  intros dm id iter chain pub rcv D1 D2 D3 D4 Hnew Hlen. set (r := match rcv with Some r => r | None => [] end) in *.
  exists (greload (r ++ [new_gstate id iter chain {| kp_pub := pub; kp_priv := None |}])). split.
  - assert (HL : forall x : gstate, (max_group_keys <? length (r ++ [x]))%nat = false).
    { intros x. apply Nat.ltb_ge. rewrite app_length. cbn [length]. unfold max_group_keys. lia. }
    unfold gw_process, group_process. rewrite D1, D2, D3, D4. unfold g_add_state. cbv zeta. unfold r in HL. rewrite HL. reflexivity.
  - eexists. exists 0%nat. split.
    + rewrite by_id_reload. replace (by_id id _) with (Some (new_gstate id iter chain {| kp_pub := pub; kp_priv := None |}));
        [reflexivity|]. clear - Hnew. unfold by_id. induction r as [|x r IH].
      * cbn. rewrite N.eqb_refl. reflexivity.
      * cbn [app find]. destruct (N.eqb_spec (gs_id x) id) as [E|E]; [exfalso; apply (Hnew x); [left; reflexivity|exact E]|].
        apply IH. intros y Hy. apply Hnew. right. exact Hy.
    + cbn. split; [reflexivity|]. split; [reflexivity|]. split; [lia|]. split; [reflexivity|]. split; [constructor|].
      split; [intros n []|lia].
Qed.
End Laws.
