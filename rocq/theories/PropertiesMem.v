(** PropertiesMem.v: what the calls do to the caller's byte slices (C87). Model: GoMem.v. Specification: GoMemSpec.v. *)
From Coq Require Import String.
From Verif Require Import Base Labels Crypto Bytehelper Ecc Cbc Keys Messages SessionState SessionRecord SessionBuilder SessionCipher Address World Group Toy
  GoMem GoMemSpec GoMemProofs GroupSpec CryptoProofs ToySession PropertiesGroup.
From Coq Require Import List Arith Lia.
Import ListNotations.
Local Open Scope list_scope.

(** A buffer of 32 bytes with "first" and "second!" side by side. *)
Definition buffer : heap := [str "firstsecond!" ++ repeat x00 20].
Definition piece1 : slice := {| sl_arr := 0; sl_off := 0; sl_len := 5; sl_cap := 32 |}.
Definition piece2 : slice := {| sl_arr := 0; sl_off := 5; sl_len := 7; sl_cap := 27 |}.
Notation run1 := (mw_encrypt toy bob_addr piece1 alice4 buffer).
Definition sent1 : ct_msg := Eval vm_compute in match fst (fst run1) with Ok m => m | _ => CSignal sig0 end.
Notation run2 := (mw_encrypt toy bob_addr piece2 (snd (fst run1)) (snd run1)).
Definition sent2 : sig_msg := Eval vm_compute in the_sig (fst (fst run2)).
Notation got2 := (w_decrypt toy alice_addr sent2 [tseed x22] bob2).
Definition no_keys : msg_keys := {| mk_cipher := []; mk_mac := []; mk_iv := []; mk_index := 0 |}.
Definition got2_text : bytes := Eval vm_compute in match fst (fst got2) with Ok (p, _) => p | _ => [] end.
Definition got2_keys : msg_keys := Eval vm_compute in match fst (fst got2) with Ok (_, k) => k | _ => no_keys end.
Lemma run_three : forall A W G (f : A * W * G) x, fst (fst f) = x -> f = (x, snd (fst f), snd f).
Proof. intros A W G [[a w] g] x <-. reflexivity. Qed.
Lemma run1_ok : run1 = (Ok sent1, snd (fst run1), snd run1).
Proof. apply run_three. vm_compute. reflexivity. Qed.
Lemma run2_ok : run2 = (Ok (CSignal sent2), snd (fst run2), snd run2).
Proof. apply run_three. vm_compute. reflexivity. Qed.
Lemma got2_ok : got2 = (Ok (got2_text, got2_keys), snd (fst got2), snd got2).
Proof. apply run_three. vm_compute. reflexivity. Qed.

(** EncryptCbc on any slice of any memory: the answer is the encryption of what the slice held; of the memory that existed, it changes exactly the
    1 to 16 bytes after the slice, and only where the slice's capacity has room for them: they become padding. The ciphertext is in new memory. *)
Theorem C87_encrypt_cbc : forall C iv key s g h o h' g', valid h s -> mem_encrypt_cbc C iv key s g h = (o, h', g') ->
  (answer_now h' o, g') = encrypt_cbc_rng C iv key (read h s) g /\ only (after s) h h' /\
  (forall a i, after s a i -> byte_at h' a i = Some (n2b (N.of_nat (padding (sl_len s))))) /\ (forall r, o = Ok r -> new_in h h' r).
Proof. exact encrypt_cbc_mem. Qed.

(** The same of a session's Encrypt over the party's stores. *)
Theorem C87_session_encrypt : forall C a s w h o w' h', valid h s -> mw_encrypt C a s w h = (o, w', h') ->
  w_encrypt C a (read h s) w = (o, w') /\ only (after s) h h' /\
  (forall m, o = Ok m -> forall x i, after s x i -> byte_at h' x i = Some (n2b (N.of_nat (padding (sl_len s))))).
Proof. exact w_encrypt_mem. Qed.

(** And of a group's Encrypt; the message returned has a ciphertext of its own. *)
Theorem C87_group_encrypt : forall C st s g h o st' es g' h', valid h s -> mem_group_encrypt C st s g h = (o, st', es, g', h') ->
  group_encrypt C st (read h s) g = (match o with Ok m => Ok (skm_now h' m) | Err e => Err e | Panic => Panic end, st', es, g') /\ only (after s) h h' /\
  (forall m, o = Ok m -> (forall x i, after s x i -> byte_at h' x i = Some (n2b (N.of_nat (padding (sl_len s))))) /\ new_in h h' (mm_ct m)).
Proof. exact group_encrypt_mem. Qed.

(** So a slice without room behind it (such as s[:n:n], or one fresh from make) is safe to encrypt: nothing that existed changes. *)
Theorem C87_no_room : forall s, (sl_cap s < sl_len s + padding (sl_len s))%nat ->
  forall h h', only (after s) h h' -> only nothing h h'.
Proof. intros s HR h h'. apply only_weak. intros a i (_ & X & _). lia. Qed.

(** But two neighbouring pieces of one buffer: encrypting the first destroys the beginning of the second. *)
Theorem C87_neighbour : forall C a s t w h m w' h', valid h s -> valid h t -> sl_arr t = sl_arr s -> (sl_off t = sl_off s + sl_len s)%nat ->
  (sl_len s + padding (sl_len s) <= sl_cap s)%nat -> mw_encrypt C a s w h = (Ok m, w', h') ->
  read h' t = repeat (n2b (N.of_nat (padding (sl_len s)))) (Nat.min (padding (sl_len s)) (sl_len t)) ++ skipn (padding (sl_len s)) (read h t).
Proof.
  intros C a s t w h m w' h' V VT HA HO HR H. destruct (C87_session_encrypt _ _ _ _ _ _ _ _ V H) as (_ & (_ & _ & K) & F). specialize (F m eq_refl).
  apply error_ext. intros j. rewrite error_app, repeat_length, error_repeat, error_skipn, !error_read.
  assert (HP : (1 <= padding (sl_len s))%nat) by (unfold padding; pose proof (Nat.mod_upper_bound (sl_len s) 16); lia).
  destruct (Nat.ltb_spec j (sl_len t)) as [H1|H1].
  - destruct (Nat.ltb_spec j (Nat.min (padding (sl_len s)) (sl_len t))) as [H2|H2].
    + rewrite HA. apply F. split; [reflexivity|]. lia.
    + destruct (Nat.ltb_spec (padding (sl_len s) + (j - Nat.min (padding (sl_len s)) (sl_len t))) (sl_len t)) as [H3|H3]; [|lia].
      replace (padding (sl_len s) + (j - Nat.min (padding (sl_len s)) (sl_len t)))%nat with j by lia. apply K; [exact (proj1 VT)|]. intros (_ & _ & X). lia.
  - destruct (Nat.ltb_spec j (Nat.min (padding (sl_len s)) (sl_len t))); [lia|].
    destruct (Nat.ltb_spec (padding (sl_len s) + (j - Nat.min (padding (sl_len s)) (sl_len t))) (sl_len t)) as [H3|H3]; [lia|reflexivity].
Qed.

(** "Encrypting two plaintexts that share no byte sends both" is false: Bob, with a good session and no interference, reads another second text. *)
Theorem C87_disjoint_plaintexts_refuted : exists C, crypto_laws C /\ exists h s t alice m1 alice1 h1 m2 alice2 h2 bob pt k bob' g g',
  valid h s /\ valid h t /\ disjoint s t /\
  mw_encrypt C bob_addr s alice h = (Ok m1, alice1, h1) /\ mw_encrypt C bob_addr t alice1 h1 = (Ok (CSignal m2), alice2, h2) /\
  w_decrypt C alice_addr m2 g bob = (Ok (pt, k), bob', g') /\ pt <> read h t.
Proof.
  exists toy. split; [exact toy_laws|]. exists buffer, piece1, piece2, alice4, sent1, (snd (fst run1)), (snd run1), sent2, (snd (fst run2)), (snd run2), bob2,
    got2_text, got2_keys, (snd (fst got2)), [tseed x22], (snd got2).
  split; [vm_compute; repeat split; lia|]. split; [vm_compute; repeat split; lia|]. split; [intros a i; unfold inside; cbn [piece1 piece2 sl_arr sl_off sl_len]; lia|].
  split; [exact run1_ok|]. split; [exact run2_ok|]. split; [exact got2_ok|]. intros X. apply (f_equal (@hd_error byte)) in X. vm_compute in X. discriminate X.
Qed.
(** What Bob reads, the two orders, and a slice without room. *)
Example C87_example : got2_text = repeat x0b 7 /\ read buffer piece2 = str "second!" /\
  read (snd run1) piece2 = repeat x0b 7 /\ ~ spaced [piece1; piece2] /\ spaced [piece2; piece1].
Proof.
  split; [vm_compute; reflexivity|]. split; [reflexivity|]. split; [vm_compute; reflexivity|]. split.
  - intros H. inversion H as [|x y H1 H2]. subst. apply (H1 piece2 0%nat 5%nat); [left; reflexivity| |]; vm_compute; repeat split; lia.
  - constructor; [|constructor; [intros t a i []|constructor]]. intros t a i [<-|[]]. unfold inside, after. cbn [piece1 piece2 sl_arr sl_off sl_len sl_cap]. lia.
Qed.

(** Slices that keep clear of the bytes after the ones encrypted before them are all sent as they were. *)
Theorem C87_spaced : forall C a l w h, Forall (valid h) l -> spaced l ->
  fst (mw_encrypts C a l w h) = encrypts C a (map (read h) l) w /\
  only (fun x i => exists s, In s l /\ after s x i) h (snd (mw_encrypts C a l w h)).
Proof. exact encrypts_mem. Qed.

(** A session's decryption works on a copy: nothing that existed changes, and the plaintext is in new memory. *)
Theorem C87_session_decrypt : forall C, crypto_laws C -> forall k s h o h', valid h s -> mem_decrypt_body C k s h = (o, h') ->
  answer_now h' o = decrypt_cbc C (Some (mk_iv k)) (mk_cipher k) (read h s) /\ only nothing h h' /\ (forall r, o = Ok r -> (length h <= sl_arr r)%nat /\ valid h' r).
Proof. exact decrypt_body_mem. Qed.

(** A group's Decrypt does not: it decrypts inside the message object. Outcome and final message are those of the value model; of the memory
    that existed it changes only the message's ciphertext. *)
Theorem C87_group_decrypt : forall C, crypto_laws C -> forall st m h o st' es h', valid h (mm_ct m) -> mem_group_decrypt C st m h = (o, st', es, h') ->
  group_decrypt C st (skm_now h m) = (answer_now h' o, skm_now h' m, st', es) /\ only (inside (mm_ct m)) h h'.
Proof. intros C L st m h o st' es h' V H. destruct (group_decrypt_mem C L _ _ _ _ _ _ _ V H) as (A & B & _). split; assumption. Qed.

(** The plaintext it returns is the message's own memory: whatever anybody writes later, it reads as the start of the message's ciphertext. *)
Theorem C87_group_plaintext_shared : forall C, crypto_laws C -> forall st m h pt st' es h', valid h (mm_ct m) -> mem_group_decrypt C st m h = (Ok pt, st', es, h') ->
  sl_arr pt = sl_arr (mm_ct m) /\ sl_off pt = sl_off (mm_ct m) /\ (sl_len pt <= sl_len (mm_ct m))%nat /\ sl_cap pt = sl_cap (mm_ct m) /\
  forall later, read later pt = firstn (sl_len pt) (read later (mm_ct m)).
Proof.
  intros C L st m h pt st' es h' V H. destruct (group_decrypt_mem C L _ _ _ _ _ _ _ V H) as (_ & _ & D). destruct (D pt eq_refl) as (n & N1 & ->).
  split; [reflexivity|]. split; [reflexivity|]. split; [exact N1|]. split; [reflexivity|]. intros later. apply read_take. exact N1.
Qed.

(** DecryptCbc on any slice: in place. The result is the start of the slice, or of what follows the leading IV. *)
Theorem C87_decrypt_cbc : forall C, crypto_laws C -> forall iv key s h o h', valid h s -> mem_decrypt_cbc C iv key s h = (o, h') ->
  (answer_now h' o, read h' s) = decrypt_cbc_full C iv key (read h s) /\ only (inside s) h h' /\
  (forall r, o = Ok r -> sl_arr r = sl_arr s /\ sl_off r = (sl_off s + match iv with None => 16 | Some _ => 0 end)%nat /\ (sl_off r + sl_len r <= sl_off s + sl_len s)%nat /\
     (sl_off r + sl_cap r = sl_off s + sl_cap s)%nat).
Proof.
  intros C L iv key s h o h' V H. destruct (decrypt_cbc_mem C L _ _ _ _ _ _ V H) as (A & B & D). split; [exact A|]. split; [exact B|].
  intros r X. destruct (D r X) as (n & N1 & ->). destruct V as (_ & V & _).
  destruct iv; unfold take, drop; cbn [sl_arr sl_off sl_len sl_cap]; (split; [reflexivity|]; split; [lia|]); [lia|].
  destruct (Nat.le_gt_cases 16 (sl_len s)) as [Z|Z]; [lia|]. exfalso. unfold mem_decrypt_cbc in H. destruct (negb _); [subst o; discriminate H|].
  destruct (Nat.ltb_spec (sl_len s) 16); [subst o; discriminate H|lia].
Qed.

(** The package's other pair (cipher/cipher.go): Encrypt changes nothing that existed; Decrypt is in place. *)
Theorem C87_cipher_encrypt : forall C iv key s h o h', valid h s -> mem_cipher_encrypt C iv key s h = (o, h') ->
  answer_now h' o = cipher_encrypt C iv key (read h s) /\ only nothing h h' /\ (forall r, o = Ok r -> new_in h h' r).
Proof. exact cipher_encrypt_mem. Qed.
Theorem C87_cipher_decrypt : forall C, crypto_laws C -> forall iv key s h o h', valid h s -> mem_cipher_decrypt C iv key s h = (o, h') ->
  answer_now h' o = cipher_decrypt C iv key (read h s) /\ only (inside s) h h' /\
  (forall r, o = Ok r -> sl_arr r = sl_arr s /\ sl_off r = sl_off s /\ (sl_len r <= sl_len s)%nat /\ sl_cap r = sl_cap s).
Proof.
  intros C L iv key s h o h' V H. destruct (cipher_decrypt_mem C L _ _ _ _ _ _ V H) as (A & B & D). split; [exact A|]. split; [exact B|].
  intros r X. destruct (D r X) as (n & N1 & ->). unfold take. cbn [sl_arr sl_off sl_len]. split; [reflexivity|]. split; [reflexivity|]. split; [exact N1|reflexivity].
Qed.

(** A group message read in place, on the toy instance: the object then holds the plaintext and its padding, and the plaintext is part of it. *)
Definition ex_mem : heap := [match km_ct ex_skm with Some b => b | None => [] end].
Definition ex_mskm : mskm := {| mm_id := km_id ex_skm; mm_iter := km_iter ex_skm; mm_ct := {| sl_arr := 0; sl_off := 0; sl_len := 16; sl_cap := 16 |}; mm_version := km_version ex_skm; mm_sig := km_sig ex_skm |}.
Definition ex_gd := mem_group_decrypt toy (Some ex_rcv) ex_mskm ex_mem.
Example C87_group_example : skm_now ex_mem ex_mskm = ex_skm /\ valid ex_mem (mm_ct ex_mskm) /\
  fst (fst (fst ex_gd)) = Ok {| sl_arr := 0; sl_off := 0; sl_len := 1; sl_cap := 16 |} /\ snd ex_gd = [[x61] ++ repeat x0f 15].
Proof. split; [vm_compute; reflexivity|]. split; [vm_compute; repeat split; lia|]. split; vm_compute; reflexivity. Qed.

Print Assumptions C87_encrypt_cbc.
Print Assumptions C87_session_encrypt.
Print Assumptions C87_group_encrypt.
Print Assumptions C87_no_room.
Print Assumptions C87_neighbour.
Print Assumptions C87_disjoint_plaintexts_refuted.
Print Assumptions C87_spaced.
Print Assumptions C87_session_decrypt.
Print Assumptions C87_group_decrypt.
Print Assumptions C87_group_plaintext_shared.
Print Assumptions C87_decrypt_cbc.
Print Assumptions C87_cipher_encrypt.
Print Assumptions C87_cipher_decrypt.
