(** CryptoProofs.v: CBC, padding, key derivation sizes, X3DH agreement. *)
From Verif Require Import Base Labels Crypto Bytehelper Ecc Cbc Keys X3dh Toy CodecProofs.
From Coq Require Import ZifyBool ZifyN ZifyNat.

Section P.
Context (C : crypto) (L : crypto_laws C).

(** * CBC *)

Lemma cbc_enc_length : forall n key iv l, aes_key_ok key = true -> length iv = 16%nat ->
  length l = (16 * n)%nat -> length (cbc_enc C n key iv l) = (16 * n)%nat.
Proof.
  intros n. induction n as [|n IH]; intros key iv l Hk Hi Hl; [reflexivity|]. cbn [cbc_enc].
  assert (HX : length (xor_bytes (firstn 16 l) iv) = 16%nat) by (rewrite xor_bytes_length, firstn_length; lia).
  assert (HC := law_aes_enc_len C L key _ Hk HX).
  rewrite app_length, HC, IH; auto; [lia|]. rewrite skipn_length. lia.
Qed.

Lemma cbc_dec_length : forall n key iv l, aes_key_ok key = true -> length iv = 16%nat ->
  length l = (16 * n)%nat -> length (cbc_dec C n key iv l) = (16 * n)%nat.
Proof.
  intros n. induction n as [|n IH]; intros key iv l Hk Hi Hl; [reflexivity|]. cbn [cbc_dec].
  assert (HX : length (firstn 16 l) = 16%nat) by (rewrite firstn_length; lia).
  assert (HC := law_aes_dec_len C L key _ Hk HX).
  rewrite app_length, xor_bytes_length, HC, IH; auto; [lia|]. rewrite skipn_length. lia.
Qed.

Lemma firstn_app_exact : forall (A : Type) n (a b : list A), length a = n -> firstn n (a ++ b) = a.
Proof. intros A n a b <-. rewrite firstn_app, Nat.sub_diag, firstn_all. cbn. apply app_nil_r. Qed.
Lemma skipn_app_exact : forall (A : Type) n (a b : list A), length a = n -> skipn n (a ++ b) = b.
Proof. intros A n a b <-. rewrite skipn_app, Nat.sub_diag, skipn_all. reflexivity. Qed.

Lemma cbc_roundtrip : forall n key iv l, aes_key_ok key = true -> length iv = 16%nat ->
  length l = (16 * n)%nat -> cbc_dec C n key iv (cbc_enc C n key iv l) = l.
Proof.
  intros n. induction n as [|n IH]; intros key iv l Hk Hi Hl.
  - destruct l; [reflexivity|cbn in Hl; lia].
  - cbn [cbc_enc cbc_dec].
    assert (HX : length (xor_bytes (firstn 16 l) iv) = 16%nat) by (rewrite xor_bytes_length, firstn_length; lia).
    assert (HC := law_aes_enc_len C L key _ Hk HX).
    rewrite firstn_app_exact by exact HC. rewrite skipn_app_exact by exact HC.
    rewrite (law_aes C L key _ Hk HX).
    rewrite xor_bytes_cancel by (rewrite firstn_length; lia).
    rewrite IH; auto.
    + apply firstn_skipn.
    + rewrite skipn_length. lia.
Qed.

(** * pad / unpad *)

Lemma pad_facts : forall l, let p := (16 - length l mod 16)%nat in
  (1 <= p <= 16)%nat /\ length (pad l 16) = (length l + p)%nat /\ (length (pad l 16) mod 16 = 0)%nat.
Proof.
  intros l p. pose proof (Nat.mod_upper_bound (length l) 16 ltac:(discriminate)) as HB.
  assert (HP : (1 <= p <= 16)%nat) by (subst p; lia).
  assert (HL : length (pad l 16) = (length l + p)%nat).
  { unfold pad. rewrite app_length, repeat_length. reflexivity. }
  repeat split; lia.
Qed.

Lemma rev_repeat_cons : forall (A : Type) (x : A) n, rev (repeat x (S n)) = x :: rev (repeat x n).
Proof.
  intros A x n. assert (H : forall k, rev (repeat x k) = repeat x k).
  { intros k. induction k as [|k IH]; [reflexivity|]. cbn. rewrite IH.
    clear. induction k as [|k IH]; [reflexivity|]. cbn. rewrite IH. reflexivity. }
  rewrite !H. reflexivity.
Qed.

Lemma unpad_app : forall l p, (1 <= p <= 255)%nat -> unpad (l ++ repeat (n2b (N.of_nat p)) p) = Ok l.
Proof.
  intros l p Hp. unfold unpad. rewrite rev_app_distr.
  destruct p as [|p']; [lia|]. rewrite rev_repeat_cons. cbn [app].
  rewrite b2n_n2b, N.mod_small by lia. rewrite Nat2N.id, app_length, repeat_length.
  replace (length l + S p' <? S p')%nat with false by lia.
  replace (length l + S p' - S p')%nat with (length l) by lia.
  rewrite firstn_app_exact by reflexivity. reflexivity.
Qed.

Lemma blocks_mul : forall l, (length l mod 16 = 0)%nat -> length l = (16 * blocks l)%nat.
Proof. intros l H. unfold blocks. pose proof (Nat.div_mod (length l) 16 ltac:(discriminate)). lia. Qed.

Lemma encrypt_cbc_ok : forall iv key pt, aes_key_ok key = true -> length iv = 16%nat ->
  encrypt_cbc C iv key pt = Ok (cbc_enc C (blocks (pad pt 16)) key iv (pad pt 16)).
Proof.
  intros iv key pt Hk Hi. unfold encrypt_cbc, encrypt_cbc_rng. cbv zeta.
  destruct (pad_facts pt) as (_ & _ & HM). rewrite HM, Hk, Hi. reflexivity.
Qed.

Lemma decrypt_cbc_enc : forall iv key pt, aes_key_ok key = true -> length iv = 16%nat ->
  decrypt_cbc C (Some iv) key (cbc_enc C (blocks (pad pt 16)) key iv (pad pt 16)) = Ok pt.
Proof.
  intros iv key pt Hk Hi. destruct (pad_facts pt) as (HP & HL & HM).
  assert (HB := blocks_mul _ HM). assert (HE := cbc_enc_length (blocks (pad pt 16)) key iv (pad pt 16) Hk Hi HB).
  assert (HBl : blocks (cbc_enc C (blocks (pad pt 16)) key iv (pad pt 16)) = blocks (pad pt 16)).
  { unfold blocks at 1. rewrite HE. rewrite Nat.mul_comm, Nat.div_mul; auto. }
  unfold decrypt_cbc, decrypt_cbc_full. rewrite Hk. cbn [negb].
  replace (length (cbc_enc C (blocks (pad pt 16)) key iv (pad pt 16)) <? 16)%nat with false by lia.
  rewrite Hi. change (negb (16 =? 16)%nat) with false. cbv iota.
  replace (length (cbc_enc C (blocks (pad pt 16)) key iv (pad pt 16)) mod 16)%nat with 0%nat by lia.
  change (negb (0 =? 0)%nat) with false. cbv iota zeta. cbn [fst].
  rewrite HBl, cbc_roundtrip by auto. unfold pad. apply unpad_app. lia.
Qed.

Lemma cbc_roundtrip_given : forall iv key pt, aes_key_ok key = true -> length iv = 16%nat ->
  exists ct, encrypt_cbc C iv key pt = Ok ct /\ decrypt_cbc C (Some iv) key ct = Ok pt /\
    (length ct mod 16 = 0)%nat /\ (length pt + 1 <= length ct <= length pt + 16)%nat.
Proof.
  intros iv key pt Hk Hi. eexists. split; [apply encrypt_cbc_ok; assumption|].
  split; [apply decrypt_cbc_enc; assumption|].
  destruct (pad_facts pt) as (HP & HL & HM). assert (HB := blocks_mul _ HM).
  rewrite cbc_enc_length by auto. rewrite <- HB. split; [exact HM|lia].
Qed.

Lemma cbc_roundtrip_generated : forall key pt seed g, aes_key_ok key = true ->
  exists ct, encrypt_cbc_rng C None key pt (Some seed :: g) = (Ok ct, g) /\
    decrypt_cbc C None key ct = Ok pt /\ firstn 16 ct = abytes (to_arr 16 seed) /\
    (length ct mod 16 = 0)%nat /\ (length pt + 17 <= length ct <= length pt + 32)%nat.
Proof.
  intros key pt seed g Hk. unfold encrypt_cbc_rng. cbv zeta. cbn [rng_read].
  destruct (pad_facts pt) as (HP & HL & HM). assert (HB := blocks_mul _ HM).
  rewrite HM, Hk. cbn [negb Nat.eqb]. set (iv := to_arr 16 seed).
  assert (Hi := arr_length 16 iv).
  assert (HE := cbc_enc_length (blocks (pad pt 16)) key (abytes iv) (pad pt 16) Hk Hi HB).
  eexists. split; [reflexivity|]. rewrite firstn_app_exact by exact Hi.
  split.
  - pose proof (decrypt_cbc_enc (abytes iv) key pt Hk Hi) as D. revert D.
    unfold decrypt_cbc, decrypt_cbc_full. rewrite Hk. cbn [negb].
    rewrite app_length, Hi.
    replace (16 + length (cbc_enc C (blocks (pad pt 16)) key (abytes iv) (pad pt 16)) <? 16)%nat with false by lia.
    replace (length (cbc_enc C (blocks (pad pt 16)) key (abytes iv) (pad pt 16)) <? 16)%nat with false by lia.
    rewrite firstn_app_exact by exact Hi. rewrite skipn_app_exact by exact Hi. rewrite Hi.
    intros D. destruct (negb (16 =? 16)%nat); [exact D|].
    destruct (negb (length (cbc_enc C (blocks (pad pt 16)) key (abytes iv) (pad pt 16)) mod 16 =? 0)%nat); exact D.
  - split; [reflexivity|]. rewrite app_length, HE, Hi, <- HB. split; [|lia].
    rewrite <- Nat.add_mod_idemp_r, HM by discriminate. reflexivity.
Qed.

(** * Arbitrary ciphertexts *)

Definition cbc_plain (iv : option bytes) (key ct : bytes) : bytes :=
  match iv with
  | Some v => cbc_dec C (blocks ct) key v ct
  | None => cbc_dec C (blocks (skipn 16 ct)) key (firstn 16 ct) (skipn 16 ct)
  end.

Lemma unpad_nonempty : forall l, l <> [] ->
  exists b, last l x00 = b /\
  unpad l = (if (length l <? N.to_nat (b2n b))%nat then Err EPadTooLong else Ok (firstn (length l - N.to_nat (b2n b)) l)).
Proof.
  intros l H. destruct (exists_last H) as (l' & b & ->). exists b. split; [apply last_last|].
  unfold unpad. rewrite rev_app_distr. reflexivity.
Qed.

(** The outcome of DecryptCbc on every input. *)
Lemma decrypt_cbc_outcome : forall iv key ct,
  decrypt_cbc C iv key ct =
  if negb (aes_key_ok key) then Err EAesKeySize
  else if (length ct <? 16)%nat then Err ECipherTooShort
  else match iv with
       | Some v =>
           if negb (length v =? 16)%nat || negb (length ct mod 16 =? 0)%nat then Panic
           else let p := cbc_plain iv key ct in
                let n := N.to_nat (b2n (last p x00)) in
                if (length ct <? n)%nat then Err EPadTooLong else Ok (firstn (length ct - n) p)
       | None =>
           if (length ct =? 16)%nat || negb (length ct mod 16 =? 0)%nat then Panic
           else let p := cbc_plain iv key ct in
                let n := N.to_nat (b2n (last p x00)) in
                if (length ct - 16 <? n)%nat then Err EPadTooLong else Ok (firstn (length ct - 16 - n) p)
       end.
Proof.
  intros iv key ct. unfold decrypt_cbc, decrypt_cbc_full.
  destruct (aes_key_ok key) eqn:Hk; [|reflexivity]. cbn [negb].
  destruct (length ct <? 16)%nat eqn:Hl; [reflexivity|].
  destruct iv as [v|].
  - destruct (length v =? 16)%nat eqn:Hv; [|reflexivity]. cbn [negb orb].
    destruct (length ct mod 16 =? 0)%nat eqn:Hm; [|reflexivity]. cbn [negb fst].
    apply Nat.eqb_eq in Hv. apply Nat.eqb_eq in Hm. cbn [cbc_plain].
    assert (HB := blocks_mul _ Hm). assert (HLn := cbc_dec_length (blocks ct) key v ct Hk Hv HB).
    destruct (unpad_nonempty (cbc_dec C (blocks ct) key v ct)) as (b & -> & ->).
    { intros E. rewrite E in HLn. cbn [length] in HLn. lia. }
    rewrite HLn, <- HB. reflexivity.
  - rewrite firstn_length. replace (Nat.min 16 (length ct)) with 16%nat by lia.
    change (negb (16 =? 16)%nat) with false. cbv iota.
    assert (HS : length (skipn 16 ct) = (length ct - 16)%nat) by apply skipn_length.
    assert (HMm : (length (skipn 16 ct) mod 16 = length ct mod 16)%nat).
    { rewrite HS. replace (length ct) with (length ct - 16 + 1 * 16)%nat at 2 by lia.
      rewrite Nat.mod_add by discriminate. reflexivity. }
    rewrite HMm. destruct (length ct mod 16 =? 0)%nat eqn:Hm; cbn [negb fst].
    2:{ rewrite orb_true_r. reflexivity. }
    rewrite orb_false_r. apply Nat.eqb_eq in Hm.
    destruct (length ct =? 16)%nat eqn:H16.
    + apply Nat.eqb_eq in H16. assert (HN : skipn 16 ct = []) by (apply length_zero_iff_nil; lia).
      rewrite HN. reflexivity.
    + apply Nat.eqb_neq in H16. cbn [cbc_plain].
      assert (HB := blocks_mul _ (eq_trans HMm Hm)).
      assert (HI : length (firstn 16 ct) = 16%nat) by (rewrite firstn_length; lia).
      assert (HLn := cbc_dec_length _ key _ _ Hk HI HB).
      destruct (unpad_nonempty (cbc_dec C (blocks (skipn 16 ct)) key (firstn 16 ct) (skipn 16 ct))) as (b & -> & ->).
      { intros E. rewrite E in HLn. cbn [length] in HLn. lia. }
      rewrite HLn, <- HB, HS. reflexivity.
Qed.

(** * PKCS7 *)

Lemma last_app_repeat : forall (l : bytes) x n, rev (l ++ repeat x (S n)) = x :: rev (l ++ repeat x n).
Proof. intros l x n. rewrite !rev_app_distr, rev_repeat_cons. reflexivity. Qed.

Lemma pkcs7_roundtrip : forall b bs, b <> [] -> (1 <= bs <= 255)%Z ->
  exists p, pkcs7_pad b bs = Ok p /\ pkcs7_unpad p bs = Ok b.
Proof.
  intros b bs Hb Hs. unfold pkcs7_pad.
  replace (bs <=? 0)%Z with false by lia.
  assert (HL : (0 < length b)%nat) by (destruct b; [congruence|cbn; lia]).
  replace (length b =? 0)%nat with false by lia.
  set (k := Z.to_nat bs). assert (Hk : (1 <= k <= 255)%nat) by lia.
  pose proof (Nat.mod_upper_bound (length b) k ltac:(lia)) as HU.
  set (n := (k - length b mod k)%nat). assert (Hn : (1 <= n <= 255)%nat) by lia.
  eexists. split; [reflexivity|]. unfold pkcs7_unpad.
  replace (bs <=? 0)%Z with false by lia. rewrite app_length, repeat_length.
  replace (length b + n =? 0)%nat with false by lia. fold k.
  assert (HM : ((length b + n) mod k = 0)%nat).
  { pose proof (Nat.div_mod (length b) k ltac:(lia)) as HD.
    replace (length b + n)%nat with ((length b / k + 1) * k)%nat by (subst n; lia).
    apply Nat.mod_mul. lia. }
  rewrite HM. cbn [Nat.eqb negb].
  destruct n as [|n'] eqn:En; [lia|]. rewrite last_app_repeat.
  rewrite b2n_n2b, N.mod_small by lia. rewrite Nat2N.id. cbn [Nat.eqb orb].
  replace (length b + S n' <? S n')%nat with false by lia.
  replace (length b + S n' - S n')%nat with (length b) by lia.
  rewrite skipn_app_exact, firstn_app_exact by reflexivity.
  assert (HF : forall x m, forallb (Byte.eqb x) (repeat x m) = true).
  { intros x m. induction m as [|m IH]; [reflexivity|]. cbn. rewrite IH, (Byte.byte_dec_lb (eq_refl x)). reflexivity. }
  rewrite HF. reflexivity.
Qed.

Lemma pkcs7_unpad_sound : forall p bs r, pkcs7_unpad p bs = Ok r ->
  exists n, (1 <= n <= 255)%nat /\ p = r ++ repeat (n2b (N.of_nat n)) n.
Proof.
  intros p bs r H. unfold pkcs7_unpad in H.
  destruct (bs <=? 0)%Z; [discriminate|]. destruct (length p =? 0)%nat; [discriminate|].
  destruct (negb (length p mod Z.to_nat bs =? 0)%nat); [discriminate|].
  destruct (rev p) as [|c rr] eqn:ER; [discriminate|].
  set (n := N.to_nat (b2n c)) in *.
  destruct ((n =? 0)%nat || (length p <? n)%nat) eqn:EB; [discriminate|].
  destruct (forallb (Byte.eqb c) (skipn (length p - n) p)) eqn:EF; [|discriminate].
  injection H as <-. exists n.
  pose proof (b2n_lt c). split; [lia|].
  rewrite <- (firstn_skipn (length p - n) p) at 1. f_equal.
  replace (n2b (N.of_nat n)) with c by (subst n; rewrite N2Nat.id, n2b_b2n; reflexivity).
  assert (HLn : length (skipn (length p - n) p) = n) by (rewrite skipn_length; lia).
  rewrite <- HLn at 2. clear - EF. induction (skipn (length p - n) p) as [|x l IH]; [reflexivity|].
  cbn in *. apply andb_prop in EF. destruct EF as [E1 E2]. apply Byte.byte_dec_bl in E1. subst x.
  rewrite <- IH by exact E2. reflexivity.
Qed.

Lemma pkcs7_pad_errors : forall b bs, (exists p, pkcs7_pad b bs = Ok p) <-> b <> [] /\ (0 < bs)%Z.
Proof.
  intros b bs. unfold pkcs7_pad. destruct (bs <=? 0)%Z eqn:E1; [split; [intros [p H]; discriminate|lia]|].
  destruct b as [|x b]; cbn [length Nat.eqb]; [split; [intros [p H]; discriminate|intros [H _]; congruence]|].
  split; [intros _; split; [discriminate|lia]|intros _; eauto].
Qed.

Lemma cipher_roundtrip : forall iv key pt, aes_key_ok key = true -> length iv = 16%nat -> pt <> [] ->
  exists ct, cipher_encrypt C iv key pt = Ok ct /\ cipher_decrypt C iv key ct = Ok pt.
Proof.
  intros iv key pt Hk Hi Hp. unfold cipher_encrypt. rewrite Hk. cbn [negb].
  destruct (pkcs7_roundtrip pt 16 Hp ltac:(lia)) as (p & E & U). rewrite E, Hi. cbn [negb Nat.eqb].
  eexists. split; [reflexivity|].
  assert (HM : (length p mod 16 = 0)%nat /\ (16 <= length p)%nat).
  { unfold pkcs7_unpad in U. change (16 <=? 0)%Z with false in U. cbv iota in U.
    destruct (length p =? 0)%nat eqn:E0; [discriminate|].
    change (Z.to_nat 16) with 16%nat in U.
    destruct (length p mod 16 =? 0)%nat eqn:E1; [|discriminate].
    apply Nat.eqb_eq in E1. split; [exact E1|]. pose proof (blocks_mul _ E1). lia. }
  destruct HM as [HM H16]. assert (HB := blocks_mul _ HM).
  assert (HE := cbc_enc_length _ key iv _ Hk Hi HB).
  unfold cipher_decrypt. rewrite Hk, HE, Hi. cbn [negb].
  replace (16 * blocks p <? 16)%nat with false by lia.
  change (negb (16 =? 16)%nat) with false. cbv iota. rewrite <- HB, HM.
  change (negb (0 =? 0)%nat) with false. cbv iota.
  assert (HBl : blocks (cbc_enc C (blocks p) key iv p) = blocks p).
  { unfold blocks at 1. rewrite HE. rewrite Nat.mul_comm, Nat.div_mul; auto. }
  rewrite HBl, cbc_roundtrip by auto. exact U.
Qed.

(** * Key derivation sizes *)

Lemma message_keys_sizes : forall ck, let k := message_keys C ck in
  length (mk_cipher k) = 32%nat /\ length (mk_mac k) = 32%nat /\ length (mk_iv k) = 16%nat /\ mk_index k = ck_index ck.
Proof.
  intros ck k. unfold k, message_keys, new_key_material. cbn [mk_cipher mk_mac mk_iv mk_index].
  pose proof (hkdf_bytes_length C (base_material C ck message_key_seed) None message_kdf_info message_secrets_size
                (law_hmac_len C L)) as HL.
  rewrite !firstn_length, !skipn_length, HL. repeat split; reflexivity.
Qed.

Lemma next_key_size : forall ck, length (ck_key (next_key C ck)) = 32%nat.
Proof. intros ck. apply (law_hmac_len C L). Qed.

Lemma derived_sizes : forall ikm salt info,
  let d := derived_secrets (hkdf_bytes C ikm salt info root_secrets_size) in
  length (sk_root d) = 32%nat /\ length (ck_key (sk_chain d)) = 32%nat /\ ck_index (sk_chain d) = 0%N.
Proof.
  intros ikm salt info d. unfold d, derived_secrets. cbn [sk_root sk_chain ck_key ck_index].
  pose proof (hkdf_bytes_length C ikm salt info root_secrets_size (law_hmac_len C L)) as HL.
  rewrite firstn_length, skipn_length, HL. repeat split; reflexivity.
Qed.

Lemma create_chain_ok : forall root their our priv, kp_priv our = Some priv ->
  create_chain C root their our =
  Ok (derived_secrets (hkdf_bytes C (abytes (x_mult C priv their)) (Some root) root_kdf_info root_secrets_size)).
Proof. intros root their our priv H. unfold create_chain. rewrite H. reflexivity. Qed.

Lemma create_chain_agree : forall root a b,
  exists k, create_chain C root (x_base C b) (pair_of C a) = Ok k /\
            create_chain C root (x_base C a) (pair_of C b) = Ok k /\
            length (sk_root k) = 32%nat /\ length (ck_key (sk_chain k)) = 32%nat /\ ck_index (sk_chain k) = 0%N.
Proof.
  intros root a b.
  rewrite (create_chain_ok _ _ (pair_of C a) a) by reflexivity.
  rewrite (create_chain_ok _ _ (pair_of C b) b) by reflexivity.
  rewrite (law_dh C L a b). eexists. split; [reflexivity|]. split; [reflexivity|]. apply derived_sizes.
Qed.

(** * X3DH *)

Lemma derive_session_ok : forall ms, derive_session C ms = Ok (derived_secrets (hkdf_bytes C ms None x3dh_info root_secrets_size)).
Proof. reflexivity. Qed.

Lemma x3dh_agree : forall a_id a_base b_id b_signed (b_otk : option arr32),
  exists k,
    calculate_sender_session C
      {| sp_our_identity := {| ip_pub := x_base C a_id; ip_priv := a_id |}; sp_our_base := pair_of C a_base;
         sp_their_identity := x_base C b_id; sp_their_signed := x_base C b_signed;
         sp_their_ratchet := x_base C b_signed; sp_their_one_time := option_map (x_base C) b_otk |} = Ok k /\
    calculate_receiver_session C
      {| rp_our_identity := {| ip_pub := x_base C b_id; ip_priv := b_id |}; rp_our_signed := pair_of C b_signed;
         rp_our_one_time := option_map (pair_of C) b_otk; rp_our_ratchet := pair_of C b_signed;
         rp_their_base := x_base C a_base; rp_their_identity := x_base C a_id |} = Ok k /\
    length (sk_root k) = 32%nat /\ length (ck_key (sk_chain k)) = 32%nat /\ ck_index (sk_chain k) = 0%N.
Proof.
  intros a_id a_base b_id b_signed b_otk.
  unfold calculate_sender_session, calculate_receiver_session, shared_secret, priv_of.
  cbn [sp_our_identity sp_our_base sp_their_identity sp_their_signed sp_their_ratchet sp_their_one_time
       rp_our_identity rp_our_signed rp_our_one_time rp_our_ratchet rp_their_base rp_their_identity
       ip_priv kp_priv pair_of bind].
  rewrite !derive_session_ok.
  rewrite (law_dh C L b_signed a_id), (law_dh C L b_id a_base), (law_dh C L b_signed a_base).
  destruct b_otk as [o|]; cbn [option_map kp_priv pair_of bind].
  - rewrite derive_session_ok, (law_dh C L o a_base). eexists. split; [reflexivity|]. split; [reflexivity|]. apply derived_sizes.
  - eexists. split; [reflexivity|]. split; [reflexivity|]. apply derived_sizes.
Qed.

Lemma master_secret_inj : forall d1 d2 d3 d4 e1 e2 e3 e4,
  master_secret d1 d2 d3 d4 = master_secret e1 e2 e3 e4 -> d1 = e1 /\ d2 = e2 /\ d3 = e3 /\ d4 = e4.
Proof.
  intros d1 d2 d3 d4 e1 e2 e3 e4 H. unfold master_secret in H.
  apply app_inv_head in H.
  apply app_inj_len in H; [|rewrite !arr_length; reflexivity]. destruct H as [H1 H].
  apply app_inj_len in H; [|rewrite !arr_length; reflexivity]. destruct H as [H2 H].
  apply app_inj_len in H; [|rewrite !arr_length; reflexivity]. destruct H as [H3 H4].
  repeat split; try (apply arr_eq; assumption).
  destruct d4 as [d|]; destruct e4 as [e|]; try reflexivity.
  - f_equal. apply arr_eq. exact H4.
  - exfalso. assert (length (abytes d) = 0)%nat by (rewrite H4; reflexivity). rewrite arr_length in H. discriminate.
  - exfalso. assert (length (abytes e) = 0)%nat by (rewrite <- H4; reflexivity). rewrite arr_length in H. discriminate.
Qed.

(** * Symmetric agreement *)

Lemma be_uint32_prefix : forall a b : arr32,
  be_uint32 (ser_pub a) = be_uint32 (ser_pub b) <-> firstn 3 (abytes a) = firstn 3 (abytes b).
Proof.
  intros a b. pose proof (arr_length 32 a) as HA. pose proof (arr_length 32 b) as HB.
  destruct (abytes a) as [|a0 [|a1 [|a2 ra]]] eqn:EA; try (cbn in HA; lia).
  destruct (abytes b) as [|b0 [|b1 [|b2 rb]]] eqn:EB; try (cbn in HB; lia).
  unfold ser_pub. rewrite EA, EB. cbn [firstn be_uint32]. split.
  - intros H. pose proof (b2n_lt a0). pose proof (b2n_lt a1). pose proof (b2n_lt a2).
    pose proof (b2n_lt b0). pose proof (b2n_lt b1). pose proof (b2n_lt b2).
    assert (b2n a0 = b2n b0 /\ b2n a1 = b2n b1 /\ b2n a2 = b2n b2) as (E0 & E1 & E2) by lia.
    apply b2n_inj in E0. apply b2n_inj in E1. apply b2n_inj in E2. subst. reflexivity.
  - intros H. injection H as -> -> ->. reflexivity.
Qed.

End P.

Section Q.
Context (C : crypto) (L : crypto_laws C).

(** Bytes the initiator feeds to the KDF, spelled out. *)
Lemma sender_session_explicit : forall p base, kp_priv (sp_our_base p) = Some base ->
  calculate_sender_session C p = Ok (derived_secrets (hkdf_bytes C
    (repeat xff 32 ++ abytes (x_mult C (ip_priv (sp_our_identity p)) (sp_their_signed p))
      ++ abytes (x_mult C base (sp_their_identity p)) ++ abytes (x_mult C base (sp_their_signed p))
      ++ match sp_their_one_time p with Some o => abytes (x_mult C base o) | None => [] end)
    None x3dh_info 64)).
Proof.
  intros p base H. unfold calculate_sender_session, priv_of. rewrite H. cbn [bind]. rewrite derive_session_ok.
  unfold master_secret, discontinuity, shared_secret, root_secrets_size. destruct (sp_their_one_time p); reflexivity.
Qed.

Lemma receiver_session_explicit : forall p signed otk, kp_priv (rp_our_signed p) = Some signed ->
  match rp_our_one_time p with Some o => kp_priv o = otk /\ otk <> None | None => otk = None end ->
  calculate_receiver_session C p = Ok (derived_secrets (hkdf_bytes C
    (repeat xff 32 ++ abytes (x_mult C signed (rp_their_identity p))
      ++ abytes (x_mult C (ip_priv (rp_our_identity p)) (rp_their_base p)) ++ abytes (x_mult C signed (rp_their_base p))
      ++ match otk with Some o => abytes (x_mult C o (rp_their_base p)) | None => [] end)
    None x3dh_info 64)).
Proof.
  intros p signed otk H Ho. unfold calculate_receiver_session, priv_of. rewrite H. cbn [bind].
  destruct (rp_our_one_time p) as [o|].
  - destruct Ho as [Ho Hn]. rewrite Ho. destruct otk as [k|]; [|congruence]. reflexivity.
  - subst otk. reflexivity.
Qed.

Definition symm_params (base ratchet ident : arr32) (their_base their_ratchet their_ident : arr32) : symmetric_params :=
  {| yp_our_base := pair_of C base; yp_our_ratchet := pair_of C ratchet;
     yp_our_identity := {| ip_pub := x_base C ident; ip_priv := ident |};
     yp_their_base := their_base; yp_their_ratchet := their_ratchet; yp_their_identity := their_ident |}.

Lemma symmetric_agree : forall a_base a_ratchet a_id b_base b_ratchet b_id,
  firstn 3 (abytes (x_base C a_base)) <> firstn 3 (abytes (x_base C b_base)) ->
  exists k,
    calculate_symmetric_session C (symm_params a_base a_ratchet a_id (x_base C b_base) (x_base C b_ratchet) (x_base C b_id)) = Ok k /\
    calculate_symmetric_session C (symm_params b_base b_ratchet b_id (x_base C a_base) (x_base C a_ratchet) (x_base C a_id)) = Ok k.
Proof.
  intros a_base a_ratchet a_id b_base b_ratchet b_id HN.
  rewrite <- be_uint32_prefix in HN.
  unfold calculate_symmetric_session, is_sender, symm_params.
  cbn [yp_our_base yp_our_ratchet yp_our_identity yp_their_base yp_their_ratchet yp_their_identity kp_pub pair_of].
  set (x := be_uint32 (ser_pub (x_base C a_base))) in *. set (y := be_uint32 (ser_pub (x_base C b_base))) in *.
  destruct (x <? y)%N eqn:E1; destruct (y <? x)%N eqn:E2; try lia.
  - destruct (x3dh_agree C L a_id a_base b_id b_base None) as (k & H1 & H2 & _).
    exists k. split; [exact H1|exact H2].
  - destruct (x3dh_agree C L b_id b_base a_id a_base None) as (k & H1 & H2 & _).
    exists k. split; [exact H2|exact H1].
Qed.

(** The KDF input of each side when the role comparison cannot tell them apart: both use the receiver's order. *)
Lemma symmetric_tie : forall a_base a_ratchet a_id b_base b_ratchet b_id,
  firstn 3 (abytes (x_base C a_base)) = firstn 3 (abytes (x_base C b_base)) ->
  let d1 := x_mult C a_base (x_base C b_id) in
  let d2 := x_mult C a_id (x_base C b_base) in
  let d3 := x_mult C a_base (x_base C b_base) in
  calculate_symmetric_session C (symm_params a_base a_ratchet a_id (x_base C b_base) (x_base C b_ratchet) (x_base C b_id))
    = Ok (derived_secrets (hkdf_bytes C (repeat xff 32 ++ abytes d1 ++ abytes d2 ++ abytes d3) None x3dh_info 64)) /\
  calculate_symmetric_session C (symm_params b_base b_ratchet b_id (x_base C a_base) (x_base C a_ratchet) (x_base C a_id))
    = Ok (derived_secrets (hkdf_bytes C (repeat xff 32 ++ abytes d2 ++ abytes d1 ++ abytes d3) None x3dh_info 64)).
Proof.
  intros a_base a_ratchet a_id b_base b_ratchet b_id HE d1 d2 d3.
  rewrite <- be_uint32_prefix in HE.
  unfold calculate_symmetric_session, is_sender, symm_params.
  cbn [yp_our_base yp_our_ratchet yp_our_identity yp_their_base yp_their_ratchet yp_their_identity kp_pub pair_of].
  rewrite HE, N.ltb_irrefl.
  split.
  - rewrite (receiver_session_explicit _ a_base None) by reflexivity.
    cbn [rp_their_identity rp_our_identity rp_their_base ip_priv]. rewrite app_nil_r. reflexivity.
  - rewrite (receiver_session_explicit _ b_base None) by reflexivity.
    cbn [rp_their_identity rp_our_identity rp_their_base ip_priv]. rewrite app_nil_r.
    rewrite (law_dh C L b_base a_id), (law_dh C L b_id a_base), (law_dh C L b_base a_base). reflexivity.
Qed.

Lemma symmetric_tie_inputs : forall d1 d2 d3 : arr32,
  repeat xff 32 ++ abytes d1 ++ abytes d2 ++ abytes d3 = repeat xff 32 ++ abytes d2 ++ abytes d1 ++ abytes d3 <-> d1 = d2.
Proof.
  intros d1 d2 d3. split; [|intros ->; reflexivity]. intros H. apply app_inv_head in H.
  apply app_inj_len in H; [|rewrite !arr_length; reflexivity]. apply arr_eq. tauto.
Qed.
End Q.

Lemma decrypt_cbc_panics : forall C, crypto_laws C -> forall iv key ct,
  decrypt_cbc C iv key ct = Panic <->
  aes_key_ok key = true /\ (16 <= length ct)%nat /\
  match iv with
  | Some v => length v <> 16%nat \/ (length ct mod 16 <> 0)%nat
  | None => length ct = 16%nat \/ (length ct mod 16 <> 0)%nat
  end.
Proof.
  intros C L iv key ct. rewrite (decrypt_cbc_outcome C L).
  destruct (aes_key_ok key); cbn [negb]; [|split; [discriminate|intros [H _]; discriminate]].
  destruct (length ct <? 16)%nat eqn:E; [split; [discriminate|lia]|].
  destruct iv as [v|].
  - destruct (negb (length v =? 16)%nat || negb (length ct mod 16 =? 0)%nat) eqn:EB.
    + split; [intros _|reflexivity]. repeat split; lia.
    + cbv zeta. match goal with |- context [if ?b then _ else _] => destruct b end; split; try discriminate; lia.
  - destruct ((length ct =? 16)%nat || negb (length ct mod 16 =? 0)%nat) eqn:EB.
    + split; [intros _|reflexivity]. repeat split; lia.
    + cbv zeta. match goal with |- context [if ?b then _ else _] => destruct b end; split; try discriminate; lia.
Qed.
