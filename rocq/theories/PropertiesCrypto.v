(** PropertiesCrypto.v: C01, C02, C03, C04, C21, C22, C23 and the key-size part of C47.

    [crypto_laws C] are the laws of the primitives (HMAC output length, Diffie-Hellman commutes, AES
    decryption inverts encryption on blocks and keeps lengths, signatures verify); [toy_laws] shows they
    have an instance. *)
From Verif Require Import Base Labels Crypto Bytehelper Ecc Cbc Keys X3dh Toy CryptoProofs.

(** ** C01 *)

(** [a_*] are the initiator's private keys, [b_*] the responder's; the one-time prekey may be absent. *)
Theorem C01_x3dh_agreement : forall C, crypto_laws C -> forall a_id a_base b_id b_signed (b_otk : option arr32),
  exists k,
    calculate_sender_session C
      {| sp_our_identity := {| ip_pub := x_base C a_id; ip_priv := a_id |}; sp_our_base := pair_of C a_base;
         sp_their_identity := x_base C b_id; sp_their_signed := x_base C b_signed;
         sp_their_ratchet := x_base C b_signed; sp_their_one_time := option_map (x_base C) b_otk |} = Ok k /\
    calculate_receiver_session C
      {| rp_our_identity := {| ip_pub := x_base C b_id; ip_priv := b_id |}; rp_our_signed := pair_of C b_signed;
         rp_our_one_time := option_map (pair_of C) b_otk; rp_our_ratchet := pair_of C b_signed;
         rp_their_base := x_base C a_base; rp_their_identity := x_base C a_id |} = Ok k /\
    length (sk_root k) = 32%nat /\ length (ck_key (sk_chain k)) = 32%nat /\ ck_index (sk_chain k) = 0%N.
Proof. exact x3dh_agree. Qed.

Example C01_example :
  match calculate_sender_session toy
      {| sp_our_identity := {| ip_pub := to_arr 32 [x01]; ip_priv := to_arr 32 [x01] |}; sp_our_base := pair_of toy (to_arr 32 [x02]);
         sp_their_identity := to_arr 32 [x03]; sp_their_signed := to_arr 32 [x04];
         sp_their_ratchet := to_arr 32 [x04]; sp_their_one_time := Some (to_arr 32 [x05]) |} with
  | Ok k => length (sk_root k) = 32%nat | _ => False end.
Proof. vm_compute. reflexivity. Qed.

(** ** C02 *)

(** What the initiator feeds to the derivation: 32 bytes 0xff, the three Diffie-Hellman results and, with a
    one-time prekey, a fourth. *)
Definition initiator_secret (C : crypto) (identity base : arr32) (their_identity their_signed : arr32)
    (their_otk : option arr32) : bytes :=
  repeat xff 32 ++ abytes (x_mult C identity their_signed) ++ abytes (x_mult C base their_identity)
  ++ abytes (x_mult C base their_signed) ++ match their_otk with Some o => abytes (x_mult C base o) | None => [] end.

Theorem C02_session_keys_are_kdf_of_secret : forall C p base, kp_priv (sp_our_base p) = Some base ->
  calculate_sender_session C p =
  Ok (derived_secrets (hkdf_bytes C (initiator_secret C (ip_priv (sp_our_identity p)) base (sp_their_identity p)
        (sp_their_signed p) (sp_their_one_time p)) None x3dh_info 64)).
Proof. exact sender_session_explicit. Qed.

Theorem C02_secret_determines_every_dh : forall C i b ti ts to i' b' ti' ts' to',
  initiator_secret C i b ti ts to = initiator_secret C i' b' ti' ts' to' ->
  x_mult C i ts = x_mult C i' ts' /\ x_mult C b ti = x_mult C b' ti' /\ x_mult C b ts = x_mult C b' ts' /\
  option_map (x_mult C b) to = option_map (x_mult C b') to'.
Proof.
  intros C i b ti ts to i' b' ti' ts' to' H.
  apply (master_secret_inj (x_mult C i ts) (x_mult C b ti) (x_mult C b ts) (option_map (x_mult C b) to)).
  unfold master_secret, discontinuity. unfold initiator_secret in H.
  destruct to; destruct to'; exact H.
Qed.

Corollary C02_one_time_key_use_is_bound : forall C i b ti ts to i' b' ti' ts',
  initiator_secret C i b ti ts (Some to) <> initiator_secret C i' b' ti' ts' None.
Proof.
  intros C i b ti ts to i' b' ti' ts' H. apply C02_secret_determines_every_dh in H.
  destruct H as (_ & _ & _ & H). discriminate.
Qed.

Example C02_example :
  initiator_secret toy (to_arr 32 [x01]) (to_arr 32 [x02]) (to_arr 32 [x03]) (to_arr 32 [x04]) None <>
  initiator_secret toy (to_arr 32 [x01]) (to_arr 32 [x02]) (to_arr 32 [x03]) (to_arr 32 [x05]) None.
Proof. vm_compute. discriminate. Qed.

(** ** C03 *)

(** Parameters of one side: its private base, ratchet and identity keys and the other's public ones. *)
Theorem C03_symmetric_agreement : forall C, crypto_laws C -> forall a_base a_ratchet a_id b_base b_ratchet b_id,
  firstn 3 (abytes (x_base C a_base)) <> firstn 3 (abytes (x_base C b_base)) ->
  exists k,
    calculate_symmetric_session C (symm_params C a_base a_ratchet a_id (x_base C b_base) (x_base C b_ratchet) (x_base C b_id)) = Ok k /\
    calculate_symmetric_session C (symm_params C b_base b_ratchet b_id (x_base C a_base) (x_base C a_ratchet) (x_base C a_id)) = Ok k.
Proof. exact symmetric_agree. Qed.

(** When the three bytes coincide the two sides feed the derivation different orders ... *)
Theorem C03_symmetric_tie_swaps_the_secret : forall C, crypto_laws C -> forall a_base a_ratchet a_id b_base b_ratchet b_id,
  firstn 3 (abytes (x_base C a_base)) = firstn 3 (abytes (x_base C b_base)) ->
  let d1 := x_mult C a_base (x_base C b_id) in
  let d2 := x_mult C a_id (x_base C b_base) in
  let d3 := x_mult C a_base (x_base C b_base) in
  calculate_symmetric_session C (symm_params C a_base a_ratchet a_id (x_base C b_base) (x_base C b_ratchet) (x_base C b_id))
    = Ok (derived_secrets (hkdf_bytes C (repeat xff 32 ++ abytes d1 ++ abytes d2 ++ abytes d3) None x3dh_info 64)) /\
  calculate_symmetric_session C (symm_params C b_base b_ratchet b_id (x_base C a_base) (x_base C a_ratchet) (x_base C a_id))
    = Ok (derived_secrets (hkdf_bytes C (repeat xff 32 ++ abytes d2 ++ abytes d1 ++ abytes d3) None x3dh_info 64)).
Proof. exact symmetric_tie. Qed.

(** ... which are the same bytes only if the two mixed Diffie-Hellman results coincide. *)
Theorem C03_symmetric_tie_inputs_differ : forall d1 d2 d3 : arr32,
  repeat xff 32 ++ abytes d1 ++ abytes d2 ++ abytes d3 = repeat xff 32 ++ abytes d2 ++ abytes d1 ++ abytes d3 <-> d1 = d2.
Proof. exact symmetric_tie_inputs. Qed.

Definition key4 (d : byte) : arr32 := to_arr 32 [x01; x02; x03; d].
Theorem C03_symmetric_tie_refuted : exists C a_base a_ratchet a_id b_base b_ratchet b_id,
  crypto_laws C /\ x_base C a_base <> x_base C b_base /\
  calculate_symmetric_session C (symm_params C a_base a_ratchet a_id (x_base C b_base) (x_base C b_ratchet) (x_base C b_id)) <>
  calculate_symmetric_session C (symm_params C b_base b_ratchet b_id (x_base C a_base) (x_base C a_ratchet) (x_base C a_id)).
Proof.
  exists toy, (key4 x10), (key4 x11), (key4 x12), (key4 x20), (key4 x21), (key4 x23).
  split; [exact toy_laws|]. split; vm_compute; discriminate.
Qed.

Example C03_example :
  firstn 3 (abytes (x_base toy (to_arr 32 [x01]))) <> firstn 3 (abytes (x_base toy (to_arr 32 [x02]))).
Proof. vm_compute. discriminate. Qed.

(** ** C04 *)

Theorem C04_ratchet_step_agreement : forall C, crypto_laws C -> forall root a b,
  exists k, create_chain C root (x_base C b) (pair_of C a) = Ok k /\
            create_chain C root (x_base C a) (pair_of C b) = Ok k /\
            length (sk_root k) = 32%nat /\ length (ck_key (sk_chain k)) = 32%nat /\ ck_index (sk_chain k) = 0%N.
Proof. exact create_chain_agree. Qed.

Example C04_example :
  create_chain toy [x01] (to_arr 32 [x07]) (pair_of toy (to_arr 32 [x08])) <>
  create_chain toy [x02] (to_arr 32 [x07]) (pair_of toy (to_arr 32 [x08])).
Proof. vm_compute. discriminate. Qed.

(** ** C21 *)

Theorem C21_roundtrip_given_iv : forall C, crypto_laws C -> forall iv key pt,
  aes_key_ok key = true -> length iv = 16%nat ->
  exists ct, encrypt_cbc C iv key pt = Ok ct /\ decrypt_cbc C (Some iv) key ct = Ok pt /\
    (length ct mod 16 = 0)%nat /\ (length pt + 1 <= length ct <= length pt + 16)%nat.
Proof. exact cbc_roundtrip_given. Qed.

Theorem C21_roundtrip_generated_iv : forall C, crypto_laws C -> forall key pt seed g,
  aes_key_ok key = true ->
  exists ct, encrypt_cbc_rng C None key pt (Some seed :: g) = (Ok ct, g) /\
    decrypt_cbc C None key ct = Ok pt /\ firstn 16 ct = abytes (to_arr 16 seed) /\
    (length ct mod 16 = 0)%nat /\ (length pt + 17 <= length ct <= length pt + 32)%nat.
Proof. exact cbc_roundtrip_generated. Qed.

Example C21_example : aes_key_ok (repeat x07 32) = true /\
  decrypt_cbc toy (Some (repeat x01 16)) (repeat x07 32) (match encrypt_cbc toy (repeat x01 16) (repeat x07 32) [x61] with Ok c => c | _ => [] end) = Ok [x61].
Proof. split; vm_compute; reflexivity. Qed.

(** ** C22 *)

(** The CBC-decrypted bytes before padding removal ([cbc_plain]) and the outcome of DecryptCbc on every
    key, IV and ciphertext: the key size, minimal length, IV length and block multiple are checked in that
    order; then only the last byte of the plaintext matters. *)
Theorem C22_decrypt_outcome : forall C, crypto_laws C -> forall iv key ct,
  decrypt_cbc C iv key ct =
  if negb (aes_key_ok key) then Err EAesKeySize
  else if (length ct <? 16)%nat then Err ECipherTooShort
  else match iv with
       | Some v =>
           if negb (length v =? 16)%nat || negb (length ct mod 16 =? 0)%nat then Panic
           else let p := cbc_plain C iv key ct in
                let n := N.to_nat (b2n (last p x00)) in
                if (length ct <? n)%nat then Err EPadTooLong else Ok (firstn (length ct - n) p)
       | None =>
           if (length ct =? 16)%nat || negb (length ct mod 16 =? 0)%nat then Panic
           else let p := cbc_plain C iv key ct in
                let n := N.to_nat (b2n (last p x00)) in
                if (length ct - 16 <? n)%nat then Err EPadTooLong else Ok (firstn (length ct - 16 - n) p)
       end.
Proof. exact decrypt_cbc_outcome. Qed.

(** When it panics, read off as an equivalence. *)
Theorem C22_panics_iff : forall C, crypto_laws C -> forall iv key ct,
  decrypt_cbc C iv key ct = Panic <->
  aes_key_ok key = true /\ (16 <= length ct)%nat /\
  match iv with
  | Some v => length v <> 16%nat \/ (length ct mod 16 <> 0)%nat
  | None => length ct = 16%nat \/ (length ct mod 16 <> 0)%nat
  end.
Proof. exact decrypt_cbc_panics. Qed.

(** The padding bytes are not checked: a final byte 0 removes nothing, a final byte up to 255 removes that many. *)
Theorem C22_padding_contents_unchecked_refuted : exists C iv key ct pt,
  crypto_laws C /\ decrypt_cbc C (Some iv) key ct = Ok pt /\
  encrypt_cbc C iv key pt <> Ok ct.
Proof.
  exists toy, (repeat x00 16), (repeat x00 16), (repeat x61 15 ++ [x02]), (repeat x61 14).
  split; [exact toy_laws|]. split; [vm_compute; reflexivity|vm_compute; discriminate].
Qed.

Example C22_example_zero : decrypt_cbc toy (Some (repeat x00 16)) (repeat x00 16) (repeat x61 15 ++ [x00]) = Ok (repeat x61 15 ++ [x00]).
Proof. vm_compute. reflexivity. Qed.
Example C22_example_long :
  decrypt_cbc toy (Some (repeat x00 16)) (repeat x00 16) (repeat x00 255 ++ [xff]) = Err EPadTooLong -> False.
Proof. vm_compute. discriminate. Qed.

(** ** C23 *)

Theorem C23_pkcs7_roundtrip : forall b bs, b <> [] -> (1 <= bs <= 255)%Z ->
  exists p, pkcs7_pad b bs = Ok p /\ pkcs7_unpad p bs = Ok b.
Proof. exact pkcs7_roundtrip. Qed.

Theorem C23_unpad_sound : forall p bs r, pkcs7_unpad p bs = Ok r ->
  exists n, (1 <= n <= 255)%nat /\ p = r ++ repeat (n2b (N.of_nat n)) n.
Proof. exact pkcs7_unpad_sound. Qed.

Theorem C23_pad_domain : forall b bs, (exists p, pkcs7_pad b bs = Ok p) <-> b <> [] /\ (0 < bs)%Z.
Proof. exact pkcs7_pad_errors. Qed.

(** cipher.Encrypt / cipher.Decrypt built on it. *)
Theorem C23_cipher_roundtrip : forall C, crypto_laws C -> forall iv key pt,
  aes_key_ok key = true -> length iv = 16%nat -> pt <> [] ->
  exists ct, cipher_encrypt C iv key pt = Ok ct /\ cipher_decrypt C iv key ct = Ok pt.
Proof. exact cipher_roundtrip. Qed.

Theorem C23_cipher_rejects_empty : forall C iv key, aes_key_ok key = true ->
  cipher_encrypt C iv key [] = Err EInvalidPkcs7Data.
Proof. intros C iv key H. unfold cipher_encrypt. rewrite H. reflexivity. Qed.

Example C23_example : pkcs7_pad [x61; x62] 5 = Ok [x61; x62; x03; x03; x03] /\ pkcs7_unpad [x61; x62; x03; x03; x03] 5 = Ok [x61; x62] /\
  pkcs7_unpad [x61; x62; x01; x03; x03] 5 = Err EInvalidPkcs7Padding.
Proof. repeat split; vm_compute; reflexivity. Qed.

(** A block size of 256 or more cannot be undone: the pad length does not fit the pad byte. *)
Theorem C23_large_block_size_refuted : exists b p, pkcs7_pad b 256 = Ok p /\ pkcs7_unpad p 256 <> Ok b.
Proof. exists (repeat x61 256). eexists. split; [vm_compute; reflexivity|vm_compute; discriminate]. Qed.

(** ** C47 (sizes; Encrypt's success is in PropertiesSession.v) *)

Theorem C47_message_key_sizes : forall C, crypto_laws C -> forall ck, let k := message_keys C ck in
  length (mk_cipher k) = 32%nat /\ length (mk_mac k) = 32%nat /\ length (mk_iv k) = 16%nat /\ mk_index k = ck_index ck.
Proof. exact message_keys_sizes. Qed.

Theorem C47_chain_key_size : forall C, crypto_laws C -> forall ck, length (ck_key (next_key C ck)) = 32%nat.
Proof. exact next_key_size. Qed.

Print Assumptions C01_x3dh_agreement.
Print Assumptions C02_session_keys_are_kdf_of_secret.
Print Assumptions C02_secret_determines_every_dh.
Print Assumptions C03_symmetric_agreement.
Print Assumptions C03_symmetric_tie_swaps_the_secret.
Print Assumptions C03_symmetric_tie_refuted.
Print Assumptions C04_ratchet_step_agreement.
Print Assumptions C21_roundtrip_given_iv.
Print Assumptions C21_roundtrip_generated_iv.
Print Assumptions C22_decrypt_outcome.
Print Assumptions C23_pkcs7_roundtrip.
Print Assumptions C23_unpad_sound.
Print Assumptions C23_cipher_roundtrip.
Print Assumptions C47_message_key_sizes.
Print Assumptions C02_one_time_key_use_is_bound.
Print Assumptions C03_symmetric_tie_inputs_differ.
Print Assumptions C22_panics_iff.
Print Assumptions C22_padding_contents_unchecked_refuted.
Print Assumptions C23_pad_domain.
Print Assumptions C23_cipher_rejects_empty.
Print Assumptions C23_large_block_size_refuted.
Print Assumptions C47_chain_key_size.
