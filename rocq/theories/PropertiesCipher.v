(** PropertiesCipher.v: the outcome of every call of the symmetric ciphers (C21, C22, C23). Specification: CipherSpec.v. *)
From Verif Require Import Base Labels Crypto Cbc WireFormatSpec BodySpec CipherSpec CryptoProofs KdfProofs GroupWireProofs BodyProofs Toy.
From Coq Require Import ZArith NArith List Lia ZifyBool ZifyN ZifyNat.
Import ListNotations.

Lemma key_ok : forall key, aes_key_ok key = true <-> key_size key.
Proof. intros key. unfold aes_key_ok, key_size. lia. Qed.
Lemma key_not_ok : forall key, aes_key_ok key = false <-> ~ key_size key.
Proof. intros key. unfold aes_key_ok, key_size. lia. Qed.
Lemma mod_z : forall n bs, (0 < bs)%Z -> (Z.of_nat n mod bs = 0)%Z <-> (n mod Z.to_nat bs = 0)%nat.
Proof. intros n bs H. rewrite <- (Z2Nat.id bs) at 1 by lia. rewrite <- Nat2Z.inj_mod. lia. Qed.

(** ** C23 *)
Lemma closed_det : forall b r r', closed b r -> closed b r' -> r = r'.
Proof.
  intros b r r' (z & n & Hn & Hz & ->) (z' & n' & Hn' & Hz' & E). destruct n as [|n]; [lia|]. destruct n' as [|n']; [lia|].
  assert (X : forall (a : bytes) y k, a ++ repeat y (S k) = (a ++ repeat y k) ++ [y]) by (intros a y k; rewrite <- app_assoc, <- repeat_cons; reflexivity).
  rewrite (X r z n), (X r' z' n') in E. apply app_inj_tail in E. destruct E as [E EZ]. subst z'. assert (n = n') by lia. subst n'. apply app_inv_tail in E. exact E.
Qed.
Lemma unpad_closed : forall b bs r, (0 < bs)%Z -> (Z.of_nat (length b) mod bs = 0)%Z -> closed b r -> pkcs7_unpad b bs = Ok r.
Proof.
  intros b bs r HB HM (z & n & Hn & Hz & ->). apply mod_z in HM; [|exact HB]. unfold pkcs7_unpad. destruct (bs <=? 0)%Z eqn:E1; [lia|]. rewrite app_length, repeat_length in *. destruct (length r + n =? 0)%nat eqn:E2; [lia|].
  rewrite HM. cbn [Nat.eqb negb]. assert (ER : rev (r ++ repeat z n) = z :: rev (r ++ repeat z (n - 1))).
  { destruct n as [|n]; [lia|]. cbn [Nat.sub]. rewrite Nat.sub_0_r. replace (repeat z (S n)) with (repeat z n ++ [z]) by (rewrite <- repeat_cons; reflexivity). rewrite app_assoc, rev_app_distr. reflexivity. }
  rewrite ER. replace (N.to_nat (b2n z)) with n by lia. destruct ((n =? 0)%nat || (length r + n <? n)%nat) eqn:E3; [lia|]. replace (length r + n - n)%nat with (length r) by lia.
  rewrite skipn_app, skipn_all, Nat.sub_diag. cbn [skipn app]. assert (EF : forallb (Byte.eqb z) (repeat z n) = true).
  { apply forallb_forall. intros x Hx. apply repeat_spec in Hx. subst. apply Byte.byte_dec_lb. reflexivity. }
  rewrite EF, firstn_app, firstn_all, Nat.sub_diag. cbn [firstn]. rewrite app_nil_r. reflexivity.
Qed.
Theorem C23_unpad_fate : forall b bs o, unpad_fate b bs o <-> pkcs7_unpad b bs = o.
Proof.
  assert (S : forall b bs o, unpad_fate b bs o -> pkcs7_unpad b bs = o).
  { intros b bs o H. destruct H as [H|H ->|H HN HM|H HN HC|r H HM HC].
    - unfold pkcs7_unpad. destruct (bs <=? 0)%Z eqn:E; [reflexivity|lia].
    - unfold pkcs7_unpad. destruct (bs <=? 0)%Z eqn:E; [lia|reflexivity].
    - rewrite mod_z in HM by exact H. unfold pkcs7_unpad. destruct (bs <=? 0)%Z eqn:E; [lia|]. destruct (length b =? 0)%nat eqn:E1; [destruct b; [destruct (HN eq_refl)|cbn [length] in E1; lia]|].
      destruct (length b mod Z.to_nat bs =? 0)%nat eqn:E2; [lia|reflexivity].
    - unfold pkcs7_unpad. destruct (bs <=? 0)%Z eqn:E; [lia|]. destruct (length b =? 0)%nat eqn:E1; [destruct b; [destruct (HN eq_refl)|cbn [length] in E1; lia]|].
      destruct (negb _); [reflexivity|]. destruct (exists_last HN) as (q & z & ->). rewrite rev_app_distr. cbn [rev app]. destruct (_ || _) eqn:E3; [reflexivity|]. destruct (forallb _ _) eqn:E4; [|reflexivity].
      exfalso. set (n := N.to_nat (b2n z)) in *. set (l := q ++ [z]) in *. apply (HC (firstn (length l - n) l)). exists z, n. split; [lia|]. split; [lia|]. rewrite <- (firstn_skipn (length l - n) l) at 1. f_equal.
      rewrite forallb_forall in E4. apply (nth_ext _ _ z z); [rewrite skipn_length, repeat_length; lia|]. intros i Hi. rewrite nth_repeat. symmetry. apply Byte.byte_dec_bl. apply E4. apply nth_In. exact Hi.
    - apply unpad_closed; assumption. }
  intros b bs o. split; [apply S|]. intros <-. destruct (bs <=? 0)%Z eqn:E1; [unfold pkcs7_unpad; rewrite E1; apply unpad_size; lia|]. assert (HB : (0 < bs)%Z) by lia.
  destruct b as [|x b]; [rewrite (S [] bs _ (unpad_nothing [] bs HB eq_refl)); apply unpad_nothing; [exact HB|reflexivity]|]. assert (HN : x :: b <> []) by discriminate. set (l := x :: b) in *.
  destruct (pkcs7_unpad l bs) as [r|e|] eqn:EU.
  - apply unpad_done; [exact HB| |].
    + rewrite mod_z by exact HB. unfold pkcs7_unpad in EU. rewrite E1 in EU. destruct (length l =? 0)%nat; [discriminate EU|]. destruct (length l mod Z.to_nat bs =? 0)%nat eqn:E2; [lia|discriminate EU].
    + destruct (pkcs7_unpad_sound l bs r EU) as (n & Hn & E). exists (n2b (N.of_nat n)), n. split; [lia|]. split; [|exact E]. rewrite b2n_n2b. apply N.mod_small. lia.
  - assert (EE : e = EInvalidPkcs7Padding).
    { unfold pkcs7_unpad in EU. rewrite E1 in EU. destruct (length l =? 0)%nat eqn:E0; [unfold l in E0; cbn [length] in E0; lia|]. destruct (negb _); [injection EU as <-; reflexivity|]. destruct (rev l); [discriminate EU|].
      destruct (_ || _); [injection EU as <-; reflexivity|]. destruct (forallb _ _); [discriminate EU|injection EU as <-; reflexivity]. }
    subst e. destruct (Z.eq_dec (Z.of_nat (length l) mod bs) 0) as [HM|HM]; [|apply unpad_ragged; assumption]. apply unpad_open; [exact HB|exact HN|]. intros r HC. rewrite (unpad_closed l bs r HB HM HC) in EU. discriminate EU.
  - exfalso. unfold pkcs7_unpad in EU. rewrite E1 in EU. destruct (length l =? 0)%nat; [discriminate EU|]. destruct (negb _); [discriminate EU|]. destruct (rev l) as [|c q] eqn:ER.
    + apply (f_equal (@length byte)) in ER. rewrite rev_length in ER. discriminate ER.
    + destruct (_ || _); [discriminate EU|]. destruct (forallb _ _); discriminate EU.
Qed.
Theorem C23_pad_fate : forall b bs o, pad_fate b bs o <-> pkcs7_pad b bs = o.
Proof.
  intros b bs o. unfold pkcs7_pad. split.
  - intros H. destruct H as [H|H ->|n HS HN HM].
    + destruct (bs <=? 0)%Z eqn:E; [reflexivity|lia].
    + destruct (bs <=? 0)%Z eqn:E; [lia|reflexivity].
    + destruct (bs <=? 0)%Z eqn:E; [lia|]. destruct (length b =? 0)%nat eqn:E1; [destruct b; [destruct (HN eq_refl)|cbn [length] in E1; lia]|]. cbv zeta. assert (HB : (0 < bs)%Z) by lia.
      rewrite mod_z in HM by exact HB. set (k := Z.to_nat bs) in *. assert (HK : (0 < n <= k)%nat) by lia. assert (EN : (k - length b mod k)%nat = n); [|rewrite EN; reflexivity].
      pose proof (Nat.mod_upper_bound (length b) k ltac:(lia)) as HU. rewrite Nat.add_mod in HM by lia. destruct (Nat.eq_dec n k) as [-> | N].
      * rewrite Nat.mod_same, Nat.add_0_r, Nat.mod_mod in HM by lia. lia.
      * rewrite (Nat.mod_small n k) in HM by lia. destruct (Nat.lt_ge_cases (length b mod k + n) k) as [HLt|HGe]; [rewrite Nat.mod_small in HM by exact HLt; lia|].
        assert (EQ : (length b mod k + n = k + (length b mod k + n - k))%nat) by lia. rewrite EQ in HM. rewrite Nat.add_mod, Nat.mod_same, Nat.add_0_l, Nat.mod_mod in HM by lia. rewrite Nat.mod_small in HM by lia. lia.
  - intros <-. destruct (bs <=? 0)%Z eqn:E; [apply pad_size; lia|]. destruct (length b =? 0)%nat eqn:E1; [apply pad_nothing; [lia|destruct b; [reflexivity|cbn [length] in E1; lia]]|]. cbv zeta. set (k := Z.to_nat bs) in *.
    pose proof (Nat.mod_upper_bound (length b) k ltac:(lia)) as HU. apply pad_done; [lia|intros ->; cbn [length] in E1; lia|]. rewrite mod_z by lia. fold k.
    rewrite (Nat.div_mod (length b) k) at 1 by lia. replace (k * (length b / k) + length b mod k + (k - length b mod k))%nat with ((length b / k + 1) * k)%nat by lia. apply Nat.mod_mul. lia.
Qed.

(** cipher.Decrypt and cipher.Encrypt, for keys, ivs and texts of any length. *)
Theorem C23_decrypt_fate : forall C, crypto_laws C -> forall iv key ct o, dec_fate C iv key ct o <-> cipher_decrypt C iv key ct = o.
Proof.
  intros C L iv key ct o. unfold cipher_decrypt. destruct (aes_key_ok key) eqn:EK; cbn [negb].
  2:{ apply key_not_ok in EK. split; [intros H; destruct H; try contradiction; reflexivity|intros <-; apply dec_key; exact EK]. }
  assert (HK := EK). apply key_ok in HK. destruct (length ct <? 16)%nat eqn:E1; [split; [intros H; destruct H; try contradiction; try lia; reflexivity|intros <-; apply dec_short; [exact HK|lia]]|].
  destruct (length iv =? 16)%nat eqn:E2; cbn [negb]; [|split; [intros H; destruct H; try contradiction; try lia; reflexivity|intros <-; apply dec_iv; [exact HK|lia|lia]]].
  destruct (length ct mod 16 =? 0)%nat eqn:E3; cbn [negb]; [|split; [intros H; destruct H; try contradiction; try lia; reflexivity|intros <-; apply dec_ragged; [exact HK|lia|lia|lia]]].
  assert (HI : length iv = 16%nat) by lia. assert (HM : (length ct mod 16 = 0)%nat) by lia. pose proof (cbc_dec_plain C L key iv ct EK HI HM) as HP. split.
  - intros H. destruct H as [| | | |p o _ _ _ _ HP' HU]; try contradiction; try lia. rewrite (cbc_plain_det C _ _ _ _ _ HM HP HP'). apply C23_unpad_fate. exact HU.
  - intros <-. apply (dec_blocks C iv key ct (cbc_dec C (blocks ct) key iv ct)); [exact HK|lia|exact HI|exact HM|exact HP|]. apply C23_unpad_fate. reflexivity.
Qed.
Lemma pad_same : forall pt, pt <> [] -> pkcs7_pad pt 16 = Ok (pad pt 16).
Proof. intros pt H. unfold pkcs7_pad. change (16 <=? 0)%Z with false. cbv iota. destruct (length pt =? 0)%nat eqn:E; [destruct pt; [destruct (H eq_refl)|discriminate E]|]. reflexivity. Qed.
Lemma cbc_encrypted : forall C, crypto_laws C -> forall iv key pt, aes_key_ok key = true -> length iv = 16%nat -> cbc_ciphertext C key iv pt (cbc_enc C (blocks (pad pt 16)) key iv (pad pt 16)).
Proof.
  intros C L iv key pt HK HI. destruct (cbc_roundtrip_given C L iv key pt HK HI) as (ct & E & _). pose proof (cbc_spec C (law_hmac_len C L) (law_aes_enc_len C L) iv key pt ct HK HI E) as HC.
  unfold encrypt_cbc, encrypt_cbc_rng in E. cbv zeta in E. destruct (negb (length (pad pt 16) mod 16 =? 0)%nat); [discriminate E|]. rewrite HK in E. cbn [negb] in E. rewrite HI in E. change (16 =? 16)%nat with true in E. cbn [negb fst] in E.
  assert (E' : cbc_enc C (blocks (pad pt 16)) key iv (pad pt 16) = ct) by exact (f_equal (fun o : res bytes => match o with Ok x => x | _ => [] end) E). rewrite E'. exact HC.
Qed.
Theorem C23_encrypt_fate : forall C, crypto_laws C -> forall iv key pt o, enc_fate C iv key pt o <-> cipher_encrypt C iv key pt = o.
Proof.
  intros C L iv key pt o. unfold cipher_encrypt. destruct (aes_key_ok key) eqn:EK; cbn [negb].
  2:{ apply key_not_ok in EK. split; [intros H; destruct H; try contradiction; reflexivity|intros <-; apply enc_key; exact EK]. }
  assert (HK := EK). apply key_ok in HK. destruct pt as [|x pt]; [split; [intros H; destruct H; try contradiction; reflexivity|intros <-; apply enc_nothing; [exact HK|reflexivity]]|].
  assert (HN : x :: pt <> []) by discriminate. set (l := x :: pt) in *. rewrite (pad_same l HN).
  destruct (length iv =? 16)%nat eqn:E2; cbn [negb]; [|split; [intros H; destruct H; try contradiction; try lia; reflexivity|intros <-; apply enc_iv; [exact HK|exact HN|lia]]].
  assert (HI : length iv = 16%nat) by lia. pose proof (cbc_encrypted C L iv key l EK HI) as HC. split.
  - intros H. destruct H as [| | |ct _ _ _ HC']; try contradiction; try lia. rewrite (cbc_det C _ _ _ _ _ HI HC HC'). reflexivity.
  - intros <-. apply enc_done; assumption.
Qed.

(** ** C22: DecryptCbc *)
Theorem C22_decrypt_fate : forall C, crypto_laws C -> forall iv key ct o, deccbc_fate C iv key ct o <-> decrypt_cbc C iv key ct = o.
Proof.
  intros C L iv key ct o. destruct (aes_key_ok key) eqn:EK.
  2:{ assert (HK := EK). apply key_not_ok in HK. unfold decrypt_cbc, decrypt_cbc_full. rewrite EK. cbn [negb fst]. split; [intros H; destruct H; try contradiction; reflexivity|intros <-; apply deccbc_key; exact HK]. }
  assert (HK := EK). apply key_ok in HK. destruct (length ct <? 16)%nat eqn:E1.
  { unfold decrypt_cbc, decrypt_cbc_full. rewrite EK, E1. cbn [negb fst]. split; [|intros <-; apply deccbc_short; [exact HK|lia]].
    intros H. destruct H as [| |v| | | |v body o0 _ _ EC HV HB _]; try contradiction; try lia; [reflexivity|]. exfalso. rewrite EC, app_length in E1. lia. }
  destruct iv as [v|].
  - destruct (length v =? 16)%nat eqn:E2.
    + assert (HV : length v = 16%nat) by lia. rewrite <- (body_spec C L key v ct o EK HV). split.
      * intros H. destruct H as [| |v' _ _ EV HV'|v' o _ _ EV HV' HB| | |]; try contradiction; try discriminate; try lia; injection EV as <-; [contradiction|exact HB].
      * intros H. apply (deccbc_body C (Some v) key ct v o); [exact HK|lia|reflexivity|exact HV|exact H].
    + unfold decrypt_cbc, decrypt_cbc_full. rewrite EK, E1, E2. cbn [negb fst]. split; [|intros <-; apply (deccbc_iv C (Some v) key ct v); [exact HK|lia|reflexivity|lia]].
      intros H. destruct H as [| |v' _ _ EV HV'|v' o _ _ EV HV' HB| | |]; try contradiction; try discriminate; try lia; injection EV as <-; [reflexivity|lia].
  - assert (HF : length (firstn 16 ct) = 16%nat) by (rewrite firstn_length; lia).
    assert (HS : length (skipn 16 ct) = (length ct - 16)%nat) by apply skipn_length. destruct (length (skipn 16 ct) <? 16)%nat eqn:E3.
    + assert (E : decrypt_cbc C None key ct = Panic).
      { unfold decrypt_cbc, decrypt_cbc_full. rewrite EK, E1. cbn [negb]. rewrite HF. change (16 =? 16)%nat with true. cbn [negb].
        destruct (length (skipn 16 ct) mod 16 =? 0)%nat eqn:E4; [|reflexivity]. cbn [negb fst]. assert (Z : length (skipn 16 ct) = 0%nat) by (rewrite Nat.mod_small in E4 by lia; lia). destruct (skipn 16 ct); [reflexivity|cbn [length] in Z; lia]. }
      rewrite E. split.
      * intros H. destruct H as [| | | | | |v body o _ _ EC HV HB _]; try contradiction; try discriminate; try lia; try reflexivity. exfalso. apply Nat.ltb_lt in E3. rewrite HS in E3. rewrite EC in E3. rewrite app_length in E3. lia.
      * intros <-. destruct (Nat.eq_dec (length ct) 16) as [E5|E5]; [apply deccbc_only_iv; [exact HK|reflexivity|exact E5]|apply deccbc_ragged; [exact HK|reflexivity|lia]].
    + pose proof (body_spec C L key (firstn 16 ct) (skipn 16 ct)) as HB. assert (EQ : decrypt_cbc C (Some (firstn 16 ct)) key (skipn 16 ct) = decrypt_cbc C None key ct).
      { unfold decrypt_cbc, decrypt_cbc_full. rewrite EK, E1, E3, HF. cbn [negb]. change (16 =? 16)%nat with true. cbn [negb]. destruct (length (skipn 16 ct) mod 16 =? 0)%nat; reflexivity. }
      rewrite <- EQ. rewrite <- (HB o EK HF). split.
      * intros H. destruct H as [| | | | | |v body o _ _ EC HV HB' HB'']; try contradiction; try discriminate; try lia. rewrite EC. rewrite <- HV. rewrite firstn_app, firstn_all, skipn_app, skipn_all, Nat.sub_diag. cbn [firstn skipn app]. rewrite app_nil_r. exact HB''.
      * intros H. apply (deccbc_with_iv C None key ct (firstn 16 ct) (skipn 16 ct) o); [exact HK|reflexivity|symmetry; apply firstn_skipn|exact HF|lia|exact H].
Qed.

(** ** C21: EncryptCbc *)
Theorem C21_encrypt_fate : forall C, crypto_laws C -> forall iv key pt g o g', enccbc_fate C iv key pt g o g' <-> encrypt_cbc_rng C iv key pt g = (o, g').
Proof.
  intros C L iv key pt g o g'. unfold encrypt_cbc_rng. cbv zeta. assert (HP : (length (pad pt 16) mod 16 =? 0)%nat = true).
  { unfold pad. rewrite app_length, repeat_length. pose proof (Nat.div_mod (length pt) 16 ltac:(lia)) as D. pose proof (Nat.mod_upper_bound (length pt) 16 ltac:(lia)) as U.
    replace (length pt + (16 - length pt mod 16))%nat with ((length pt / 16 + 1) * 16)%nat by lia. rewrite Nat.mod_mul by lia. reflexivity. }
  rewrite HP. cbn [negb]. destruct (aes_key_ok key) eqn:EK; cbn [negb].
  2:{ apply key_not_ok in EK. split; [intros H; destruct H; try contradiction; reflexivity|intros H; injection H as <- <-; apply enccbc_key; exact EK]. }
  assert (HK := EK). apply key_ok in HK. destruct iv as [v|].
  - destruct (length v =? 16)%nat eqn:E; cbn [negb].
    + assert (HV : length v = 16%nat) by lia. pose proof (cbc_encrypted C L v key pt EK HV) as HC. split.
      * intros H. destruct H as [|v' _ EV HV'|v' ct _ EV HV' HC'| |]; try contradiction; try discriminate; injection EV as <-; [contradiction|]. rewrite (cbc_det C _ _ _ _ _ HV HC HC'). reflexivity.
      * intros H. assert (EO : o = Ok (cbc_enc C (blocks (pad pt 16)) key v (pad pt 16)) /\ g' = g) by (split; [exact (eq_sym (f_equal fst H))|exact (eq_sym (f_equal snd H))]). destruct EO as [-> ->]. apply (enccbc_done C (Some v) key pt g v); [exact HK|reflexivity|exact HV|exact HC].
    + split.
      * intros H. destruct H as [|v' _ EV HV'|v' ct _ EV HV' HC'| |]; try contradiction; try discriminate; injection EV as <-; [reflexivity|lia].
      * intros H. injection H as <- <-. apply (enccbc_iv C (Some v) key pt g v); [exact HK|reflexivity|lia].
  - destruct (rng_read 16 g) as [[v|] g1] eqn:ER.
    + pose proof (cbc_encrypted C L (abytes v) key pt EK (arr_length _ v)) as HC. split.
      * intros H. destruct H as [|v' _ EV HV'|v' ct _ EV HV' HC'|g2 _ _ E|v' ct g2 _ _ E HC']; try contradiction; try discriminate; rewrite ER in E; [discriminate E|].
        pose proof (f_equal (fun p : option (arr 16) * rng => match fst p with Some x => x | None => v end) E) as E1. cbn [fst] in E1. pose proof (f_equal snd E) as E2. cbn [snd] in E2. subst v' g2. rewrite (cbc_det C _ _ _ _ _ (arr_length _ v) HC HC'). reflexivity.
      * intros H. assert (EO : o = Ok (abytes v ++ cbc_enc C (blocks (pad pt 16)) key (abytes v) (pad pt 16)) /\ g' = g1) by (split; [exact (eq_sym (f_equal fst H))|exact (eq_sym (f_equal snd H))]). destruct EO as [-> ->].
        apply (enccbc_generated C None key pt g v); [exact HK|reflexivity|exact ER|exact HC].
    + split.
      * intros H. destruct H as [|v' _ EV HV'|v' ct _ EV HV' HC'|g2 _ _ E|v' ct g2 _ _ E HC']; try contradiction; try discriminate; rewrite ER in E; [|discriminate E]. assert (E2 : g1 = g2) by exact (f_equal snd E). rewrite E2. reflexivity.
      * intros H. assert (EO : o = Err ERand /\ g' = g1) by (split; [exact (eq_sym (f_equal fst H))|exact (eq_sym (f_equal snd H))]). destruct EO as [-> ->]. apply (enccbc_random C None key pt g g1); [exact HK|reflexivity|exact ER].
Qed.

Example C23_fate_example : unpad_fate [x61; x02; x02] 3 (Ok [x61]) /\ unpad_fate [x61; x01; x02] 3 (Err EInvalidPkcs7Padding) /\ unpad_fate [x00] 1 (Err EInvalidPkcs7Padding) /\
  dec_fate toy (repeat x00 15) (repeat x00 16) (repeat x00 16) Panic /\ enc_fate toy [] [] [] (Err EAesKeySize) /\ deccbc_fate toy None (repeat x00 24) (repeat x00 16) Panic /\
  enccbc_fate toy None (repeat x00 16) [x61] [] (Err ERand) [].
Proof.
  split; [apply C23_unpad_fate; reflexivity|]. split; [apply C23_unpad_fate; reflexivity|]. split; [apply C23_unpad_fate; reflexivity|]. split; [apply (C23_decrypt_fate toy toy_laws); reflexivity|].
  split; [apply (C23_encrypt_fate toy toy_laws); reflexivity|]. split; [apply (C22_decrypt_fate toy toy_laws); reflexivity|]. apply (C21_encrypt_fate toy toy_laws). reflexivity.
Qed.

Print Assumptions C23_unpad_fate.
Print Assumptions C23_pad_fate.
Print Assumptions C23_decrypt_fate.
Print Assumptions C23_encrypt_fate.
Print Assumptions C22_decrypt_fate.
Print Assumptions C21_encrypt_fate.
