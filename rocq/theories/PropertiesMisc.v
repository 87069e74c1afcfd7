(** PropertiesMisc.v: C38, C39, C40, C41, C53. *)
From Verif Require Import Base Labels Crypto Bytehelper Ecc Cbc Itoa Keys X3dh Messages SessionState SessionRecord SessionBuilder
  SessionCipher Address Fingerprint PreKeyRecords KeyHelper Provision Toy CryptoProofs OpsProofs MiscProofs.
From Coq Require Import String List Lia ZifyBool ZifyN ZifyNat.
Local Open Scope list_scope.

(** ** C38 *)

Theorem C38_well_formed : forall f g, (30 <= length f)%nat -> (30 <= length g)%nat ->
  exists d, new_display f g = Ok d /\ length (display_text d) = 60%nat /\ forallb is_digit (display_text d) = true.
Proof.
  intros f g Hf Hg. unfold new_display. rewrite !display_string_ok by assumption. cbn [bind]. eexists. split; [reflexivity|].
  assert (A := display_string_30 _ _ (display_string_ok f Hf)). assert (B := display_string_30 _ _ (display_string_ok g Hg)).
  destruct A as (A1 & A2 & _). destruct B as (B1 & B2 & _). unfold display_text. cbn [d_local d_remote].
  destruct (str_lt _ _); rewrite app_length, forallb_app, A1, A2, B1, B2; auto.
Qed.

(** The same text whichever side computes it. *)
Theorem C38_symmetric : forall f g d d', new_display f g = Ok d -> new_display g f = Ok d' -> display_text d = display_text d'.
Proof.
  intros f g d d' H H'. unfold new_display in H, H'.
  destruct (display_string f) as [a| |] eqn:Ef; cbn [bind] in H; try discriminate.
  destruct (display_string g) as [b| |] eqn:Eg; cbn [bind] in H, H'; try discriminate. rewrite ?Ef in H'. cbn [bind] in H'.
  injection H as <-. injection H' as <-. unfold display_text. cbn [d_local d_remote].
  destruct (str_lt a b) eqn:A.
  - rewrite (str_lt_asym _ _ A). reflexivity.
  - destruct (str_lt b a) eqn:B; [reflexivity|].
    rewrite (str_lt_antisym a b); [reflexivity| |exact A|exact B].
    apply display_string_30 in Ef. apply display_string_30 in Eg. destruct Ef as [-> _]. destruct Eg as [-> _]. reflexivity.
Qed.

(** Only the first 30 bytes of each fingerprint matter. *)
Theorem C38_first_30_bytes : forall f g f' g', firstn 30 f = firstn 30 f' -> firstn 30 g = firstn 30 g' ->
  new_display f g = new_display f' g'.
Proof.
  intros f g f' g' Hf Hg. unfold new_display. rewrite (display_string_first30 _ _ Hf), (display_string_first30 _ _ Hg). reflexivity.
Qed.

Theorem C38_short_fingerprints_panic : forall f g, (length f < 30)%nat \/ (length g < 30)%nat -> new_display f g = Panic.
Proof.
  intros f g H. unfold new_display. destruct (Nat.le_gt_cases 30 (length f)) as [L|L].
  - rewrite (display_string_ok f L). cbn [bind]. rewrite (display_string_panics g) by lia. reflexivity.
  - rewrite (display_string_panics f L). reflexivity.
Qed.

(** Digits 5i..5i+4 of one side's half are the decimal value of its bytes 5i..5i+4, big endian, modulo 100000. *)
Theorem C38_chunks : forall f s i, display_string f = Ok s -> (i < 6)%nat ->
  digits_value (firstn 5 (skipn (5 * i) s)) = (be_value (firstn 5 (skipn (5 * i) f)) mod 100000)%N.
Proof.
  intros f s i H Hi. destruct (Nat.le_gt_cases 30 (length f)) as [L|L]; [|rewrite display_string_panics in H by exact L; discriminate].
  rewrite display_string_ok in H by exact L. injection H as <-. fold (chunk_number f i). cbn [map concat].
  assert (P : forall k, length (pad5 (chunk_number f k)) = 5%nat) by (intros k; apply pad5_length, chunk_lt).
  assert (S1 : forall k (r : bytes), skipn 5 (pad5 (chunk_number f k) ++ r) = r) by (intros k r; apply skipn_exact, P).
  assert (S5 : forall n (l : bytes), skipn (5 * S n) l = skipn (5 * n) (skipn 5 l)).
  { intros n l. rewrite <- skipn_add. f_equal. lia. }
  assert (F : forall k (r : bytes), firstn 5 (pad5 (chunk_number f k) ++ r) = pad5 (chunk_number f k)) by (intros k r; apply firstn_exact, P).
  destruct i as [|[|[|[|[|[|i]]]]]]; [..|lia]; rewrite ?S5, ?S1; change (skipn (5 * 0) ?l) with l; cbn [Nat.mul skipn]; rewrite F, pad5_value; reflexivity.
Qed.

(** The text determines the two halves up to order. *)
Theorem C38_text_determines_halves : forall f g f' g' d d', new_display f g = Ok d -> new_display f' g' = Ok d' ->
  display_text d = display_text d' ->
  (d_local d = d_local d' /\ d_remote d = d_remote d') \/ (d_local d = d_remote d' /\ d_remote d = d_local d').
Proof.
  assert (K : forall f g d, new_display f g = Ok d -> length (d_local d) = 30%nat /\ length (d_remote d) = 30%nat).
  { intros f g d H. unfold new_display in H. destruct (display_string f) as [a| |] eqn:Ef; cbn [bind] in H; try discriminate.
    destruct (display_string g) as [b| |] eqn:Eg; cbn [bind] in H; try discriminate. injection H as <-. cbn.
    apply display_string_30 in Ef. apply display_string_30 in Eg. tauto. }
  intros f g f' g' d d' H H' E. destruct (K _ _ _ H) as [A B]. destruct (K _ _ _ H') as [A' B'].
  unfold display_text in E. destruct (str_lt (d_local d) (d_remote d)); destruct (str_lt (d_local d') (d_remote d'));
    apply app_split in E; try congruence; destruct E; auto.
Qed.

Example C38_example : match new_display (repeat xff 30) (repeat x01 31) with
  | Ok d => display_text d = concat (repeat (str "10305"%string) 6) ++ concat (repeat (str "27775"%string) 6) | _ => False end.
Proof. vm_compute. reflexivity. Qed.

(** ** C39 *)

Theorem C39_address_string_injective : forall a b, address_string a = address_string b -> a = b.
Proof. exact address_string_inj. Qed.

(** Names may contain the separator and digits. *)
Example C39_example : address_string {| a_name := str "a:1"%string; a_device := 2 |} = str "a:1:2"%string /\
  address_string {| a_name := str "a"%string; a_device := 12 |} = str "a:12"%string.
Proof. split; reflexivity. Qed.

(** ** C40 *)

(** On success: exactly count - start + 1 keys (none when that is negative), the k-th with id start + k reduced
    modulo 2^32, its private key the clamped k-th random block and its public key the matching one. *)
Theorem C40_generated_prekeys : forall C start count g l g',
  generate_pre_keys C start count g = (Ok l, g') ->
  Z.of_nat (List.length l) = Z.max 0 (count - start + 1) /\ g' = skipn (length l) g /\
  forall k r, nth_error l k = Some r -> exists seed, nth_error g k = Some (Some seed) /\
  pkr_id r = ou_some (Z.to_N ((start + Z.of_nat k) mod 4294967296)) /\
  kp_priv (kr_pair r) = Some (clamp (to_arr 32 seed)) /\ kp_pub (kr_pair r) = x_base C (clamp (to_arr 32 seed)).
Proof.
  intros C start count g l g' H. unfold generate_pre_keys in H.
  assert (S := gen_pre_keys_spec C (Z.to_nat (count - start + 1)) start g). rewrite H in S. destruct S as (S1 & S2 & S3 & S4).
  split; [rewrite S3; lia|]. split; [rewrite S3; exact S2|]. intros k r Hk.
  assert (Hlt : (k < length l)%nat) by (apply nth_error_Some; congruence). rewrite S3 in Hlt.
  destruct (S4 k r Hlt) as (seed & E1 & E2). exists seed. split; [exact E1|].
  cbv zeta in E2. rewrite (nth_error_nth _ _ r Hk) in E2. subst r. repeat split.
Qed.

(** It fails exactly when one of the needed random reads fails, with that error and no keys; it never panics. *)
Theorem C40_failure : forall C start count g,
  match fst (generate_pre_keys C start count g) with
  | Ok _ => forall k, (Z.of_nat k < count - start + 1)%Z -> exists seed, nth_error g k = Some (Some seed)
  | Err e => e = ERand /\ exists k, (Z.of_nat k < count - start + 1)%Z /\ (nth_error g k = None \/ nth_error g k = Some None)
  | Panic => False
  end.
Proof.
  intros C start count g. unfold generate_pre_keys.
  assert (S := gen_pre_keys_spec C (Z.to_nat (count - start + 1)) start g).
  destruct (gen_pre_keys C _ start g) as [[l|e|] g']; cbn [fst].
  - destruct S as (_ & _ & S3 & S4). intros k Hk.
    destruct (S4 k {| kr_struct := {| ks_id := 0; ks_pub := []; ks_priv := [] |}; kr_pair := pair_of C (zero_arr 32) |} ltac:(lia)) as (seed & E & _).
    eauto.
  - destruct S as (-> & k & Hk & Hd). split; [reflexivity|]. exists k. split; [lia|exact Hd].
  - exact S.
Qed.

(** The ids are distinct as long as at most 2^32 are generated. *)
Theorem C40_ids_distinct : forall C start count g l g' i j r r',
  generate_pre_keys C start count g = (Ok l, g') -> (count - start < 4294967296)%Z ->
  nth_error l i = Some r -> nth_error l j = Some r' -> pkr_id r = pkr_id r' -> i = j.
Proof.
  intros C start count g l g' i j r r' H HL Hi Hj E.
  assert (Li : (i < length l)%nat) by (apply nth_error_Some; congruence). assert (Lj : (j < length l)%nat) by (apply nth_error_Some; congruence).
  destruct (C40_generated_prekeys _ _ _ _ _ _ H) as (HN & _ & HK).
  destruct (HK i r Hi) as (? & _ & Ei & _). destruct (HK j r' Hj) as (? & _ & Ej & _). rewrite Ei, Ej in E.
  injection E as E. apply Z2N.inj in E; try (apply Z.mod_pos_bound; reflexivity).
  assert (D : exists q, (start + Z.of_nat i - (start + Z.of_nat j) = 4294967296 * q)%Z).
  { exists ((start + Z.of_nat i) / 4294967296 - (start + Z.of_nat j) / 4294967296)%Z.
    assert (A := Z.div_mod (start + Z.of_nat i) 4294967296 ltac:(discriminate)).
    assert (B := Z.div_mod (start + Z.of_nat j) 4294967296 ltac:(discriminate)).
    lia. }
  destruct D as [q D]. destruct (Z.eq_dec q 0) as [->|Hq]; lia.
Qed.

Example C40_example :
  match generate_pre_keys toy 5 7 [Some [x01]; Some [x02]; Some [x03]; Some [x04]] with
  | (Ok l, g') => map pkr_id l = [ou_some 5; ou_some 6; ou_some 7] /\ g' = [Some [x04]] | _ => False end.
Proof. vm_compute. split; reflexivity. Qed.

(** ** C41 *)

(** The envelope format: the sender's public key; version 1, IV, ciphertext, and the HMAC of these under the
    second half of the keys derived from the shared secret. *)
Definition provision_keys (C : crypto) (secret : arr32) : bytes := hkdf_bytes C (abytes secret) None provision_info 64.
Definition provision_envelope (C : crypto) (their_priv our_pub : arr32) (iv ct : bytes) : envelope :=
  let authed := x01 :: iv ++ ct in
  {| en_public := ser_pub (x_base C their_priv);
     en_body := authed ++ hmac C (skipn 32 (provision_keys C (x_mult C their_priv our_pub))) authed |}.

Theorem C41_roundtrip : forall C, crypto_laws C -> forall our_priv their_priv iv pt ct, length iv = 16%nat ->
  encrypt_cbc C iv (firstn 32 (provision_keys C (x_mult C their_priv (x_base C our_priv)))) pt = Ok ct ->
  provision_decrypt C (abytes our_priv) (provision_envelope C their_priv (x_base C our_priv) iv ct) = Ok pt.
Proof.
  intros C L our_priv their_priv iv pt ct Hiv HE.
  assert (HM := law_hmac_len C L). rewrite (provision_long C _ _ (x_base C their_priv)).
  - unfold provision_envelope. cbn [en_public en_body]. cbv zeta. rewrite to_arr_abytes, <- (law_dh C L).
    fold (provision_keys C (x_mult C their_priv (x_base C our_priv))). set (K := provision_keys C (x_mult C their_priv (x_base C our_priv))) in *.
    set (A := x01 :: iv ++ ct). set (M := hmac C (skipn 32 K) A).
    assert (HN : (length (A ++ M) - 32 = length A)%nat) by (rewrite app_length; unfold M; rewrite HM; lia).
    rewrite HN, firstn_exact, skipn_exact by reflexivity. fold M.
    replace (bytes_eqb M M) with true by (symmetry; apply bytes_eqb_eq; reflexivity).
    assert (E17 : skipn 17 A = ct) by (unfold A; change (skipn 16 (iv ++ ct) = ct); apply skipn_exact; exact Hiv).
    assert (E16 : firstn 16 (skipn 1 (A ++ M)) = iv).
    { unfold A. change (firstn 16 ((iv ++ ct) ++ M) = iv). rewrite <- app_assoc. apply firstn_exact. exact Hiv. }
    rewrite E17, E16.
    destruct (cbc_roundtrip_given C L iv (firstn 32 K) pt) as (ct' & E1 & E2 & _); [|exact Hiv|congruence].
    unfold encrypt_cbc, encrypt_cbc_rng in HE. destruct (negb (length (pad pt 16) mod 16 =? 0)%nat); [discriminate|].
    destruct (aes_key_ok (firstn 32 K)); [reflexivity|discriminate].
  - unfold provision_envelope, ser_pub. cbn [en_public decode_point]. change (Byte.eqb djb_type djb_type) with true. cbv iota. f_equal. apply to_arr_abytes.
  - unfold provision_envelope. cbn [en_body]. cbv zeta. rewrite app_length, HM. cbn [length]. rewrite app_length, Hiv. lia.
  - reflexivity.
Qed.

(** Nothing is decrypted unless the last 32 bytes of the body are the HMAC of the rest under the derived key. *)
Theorem C41_only_authenticated : forall C priv e pub, decode_point (en_public e) = Ok pub ->
  (49 <= length (en_body e))%nat -> hd_error (en_body e) = Some x01 ->
  let m := en_body e in let n := (length m - 32)%nat in let keys := provision_keys C (x_mult C (to_arr 32 priv) pub) in
  provision_decrypt C priv e =
    if bytes_eqb (skipn n m) (hmac C (skipn 32 keys) (firstn n m))
    then decrypt_cbc C (Some (firstn 16 (skipn 1 m))) (firstn 32 keys) (skipn 17 (firstn n m)) else Err EProvisionMac.
Proof.
  intros C priv e pub HP HL HH m n keys. rewrite (provision_long C priv e pub HP HL HH). cbv zeta. fold m n. fold (provision_keys C (x_mult C (to_arr 32 priv) pub)).
  fold keys. destruct (bytes_eqb (skipn n m) _) eqn:E.
  - apply bytes_eqb_eq in E. rewrite E. replace (bytes_eqb _ _) with true by (symmetry; apply bytes_eqb_eq; reflexivity). reflexivity.
  - apply bytes_eqb_neq in E. replace (bytes_eqb _ _) with false by (symmetry; apply bytes_eqb_neq; congruence). reflexivity.
Qed.

(** Which inputs crash. *)
Theorem C41_malformed_panics : forall C priv e,
  (length (en_body e) < 49)%nat \/ hd_error (en_body e) <> Some x01 \/ (forall pub, decode_point (en_public e) <> Ok pub) ->
  provision_decrypt C priv e = Panic.
Proof.
  intros C priv e H. unfold provision_decrypt. destruct (decode_point (en_public e)) as [pub| |] eqn:E; try reflexivity.
  destruct (en_body e) as [|v m] eqn:EB; [reflexivity|]. destruct (Byte.eqb v x01) eqn:EV; [|reflexivity]. cbn [negb].
  destruct (Nat.ltb_spec (length (v :: m)) 49) as [L|L]; [reflexivity|].
  destruct H as [H|[H|H]]; [lia| |exfalso; exact (H pub eq_refl)].
  apply Byte.byte_dec_bl in EV. subst v. cbn in H. congruence.
Qed.

Example C41_example :
  let ct := match encrypt_cbc toy (repeat x04 16) (firstn 32 (provision_keys toy (x_mult toy (to_arr 32 [x09]) (x_base toy (to_arr 32 [x08]))))) (str "secret"%string) with
            | Ok c => c | _ => [] end in
  provision_decrypt toy (abytes (to_arr 32 [x08])) (provision_envelope toy (to_arr 32 [x09]) (x_base toy (to_arr 32 [x08])) (repeat x04 16) ct) = Ok (str "secret"%string) /\
  provision_decrypt toy (abytes (to_arr 32 [x07])) (provision_envelope toy (to_arr 32 [x09]) (x_base toy (to_arr 32 [x08])) (repeat x04 16) ct) = Err EProvisionMac.
Proof. vm_compute. split; reflexivity. Qed.

(** ** C53 *)

(** A bundle assembled from an identity made by GenerateIdentityKeyPair and a signed prekey made for it by
    GenerateSignedPreKey, with any registration id, one-time prekey and ids, is accepted by every peer that trusts
    the identity and whose randomness works. *)
Theorem C53_generated_bundle_accepted : forall C, crypto_laws C -> forall g ident g1 id now g2 signed g3 b v s1 s2 h,
  generate_identity C g = (Ok ident, g1) -> generate_signed_pre_key C ident id now g2 = (Ok signed, g3) ->
  b_identity b = ip_pub ident -> b_signed b = Some (kp_pub (zr_pair signed)) -> b_sig b = zr_sig signed ->
  v_trusted v (ip_pub ident) = true ->
  exists r' es, process_bundle C v b (Some s1 :: Some s2 :: h) = (Ok tt, r', es, h).
Proof.
  intros C L g ident g1 id now g2 signed g3 b v s1 s2 h HI HS E1 E2 E3 HT.
  eapply bundle_accepts; [rewrite E1; exact HT|exact E2|]. rewrite E1, E3.
  unfold generate_identity in HI. destruct (rng_read 32 g) as [[seed|] ?]; [|discriminate]. injection HI as <- _.
  unfold generate_signed_pre_key in HS. destruct (generate_key_pair C g2) as [[kp| |] ?]; try discriminate.
  unfold calculate_signature in HS. cbn [ip_pub ip_priv] in *.
  destruct (rng_read 64 _) as [[z|] g4]; cbv iota beta zeta in HS; unfold new_skr in HS;
    (destruct (kp_priv kp); [|discriminate HS]); assert (ES := f_equal fst HS); cbn [fst] in ES; injection ES as <-;
    cbn [zr_pair zr_sig]; apply (law_sign C L).
Qed.

Example C53_example : exists ident g1 signed g3, generate_identity toy [Some [x01]] = (Ok ident, g1) /\
  generate_signed_pre_key toy ident 9 1 [Some [x02]; Some [x03]] = (Ok signed, g3).
Proof. do 4 eexists. split; vm_compute; reflexivity. Qed.

Print Assumptions C38_well_formed.
Print Assumptions C38_symmetric.
Print Assumptions C38_first_30_bytes.
Print Assumptions C38_short_fingerprints_panic.
Print Assumptions C38_chunks.
Print Assumptions C38_text_determines_halves.
Print Assumptions C39_address_string_injective.
Print Assumptions C40_generated_prekeys.
Print Assumptions C40_failure.
Print Assumptions C40_ids_distinct.
Print Assumptions C41_roundtrip.
Print Assumptions C41_only_authenticated.
Print Assumptions C41_malformed_panics.
Print Assumptions C53_generated_bundle_accepted.
