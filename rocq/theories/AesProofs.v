(** AesProofs.v: InvCipher undoes Cipher for every key and block; SHA-256 and HMAC lengths. *)
From Verif Require Import Base Aes Sha2.
From Coq Require Import NArith List Lia Bool Ring.
Import ListNotations.

(** * Addition *)
Lemma lxor_256 : forall a b, (a < 256 -> b < 256 -> N.lxor a b < 256)%N.
Proof.
  intros a b Ha Hb. destruct (N.eq_dec (N.lxor a b) 0) as [E|E]; [rewrite E; reflexivity|].
  apply (N.log2_lt_pow2 _ 8); [lia|]. eapply N.le_lt_trans; [apply N.log2_lxor|].
  assert (H : forall x, (x < 256 -> N.log2 x < 8)%N).
  { intros x Hx. destruct (N.eq_dec x 0) as [->|Ex]; [reflexivity|]. apply (N.log2_lt_pow2 x 8); [lia|exact Hx]. }
  apply N.max_lub_lt; apply H; assumption.
Qed.
Lemma b2n_bxor : forall a b, b2n (bxor a b) = N.lxor (b2n a) (b2n b).
Proof. intros a b. unfold bxor. rewrite b2n_n2b. apply N.mod_small. apply lxor_256; apply b2n_lt. Qed.
Lemma bxor_bits : forall a b, (forall i, N.testbit (b2n a) i = N.testbit (b2n b) i) -> a = b.
Proof. intros a b H. apply b2n_inj. apply N.bits_inj. exact H. Qed.
Lemma bxor_cancel : forall a b, bxor (bxor a b) b = a.
Proof. intros a b. apply bxor_bits. intros i. rewrite !b2n_bxor, !N.lxor_spec. ring. Qed.

(** * Multiplication by x is linear *)
Lemma b2n_xtime : forall a, b2n (xtime a) = N.lxor (N.land (N.shiftl (b2n a) 1) 255) (if N.testbit (b2n a) 7 then 27 else 0).
Proof.
  intros a. unfold xtime. rewrite b2n_n2b. apply N.mod_small. apply lxor_256.
  - change 255%N with (N.ones 8). rewrite N.land_ones. apply N.mod_lt. discriminate.
  - destruct (N.testbit (b2n a) 7); reflexivity.
Qed.
Lemma xtime_bxor : forall a b, xtime (bxor a b) = bxor (xtime a) (xtime b).
Proof.
  intros a b. apply bxor_bits. intros i. rewrite b2n_bxor, !b2n_xtime, b2n_bxor, N.shiftl_lxor, !N.lxor_spec, !N.land_spec, !N.lxor_spec.
  destruct (N.testbit (b2n a) 7); destruct (N.testbit (b2n b) 7); cbn [xorb]; rewrite ?N.bits_0; ring.
Qed.

(** * The four layers *)
Lemma inv_sub_sub : forall b, inv_sub_byte (sub_byte b) = b.
Proof. intros b. destruct b; reflexivity. Qed.
Lemma inv_sub_bytes_sub : forall s, inv_sub_bytes (sub_bytes s) = s.
Proof. intros s. unfold inv_sub_bytes, sub_bytes. rewrite map_map. induction s as [|b s IH]; [reflexivity|]. cbn [map]. rewrite inv_sub_sub, IH. reflexivity. Qed.

Ltac xor_ring := unfold bxor4, mul3, mul9, mul11, mul13, mul14; rewrite !xtime_bxor; apply bxor_bits; intros i; repeat (rewrite b2n_bxor, N.lxor_spec);
  repeat match goal with |- context [N.testbit ?x i] => generalize (N.testbit x i) end; intros; ring.
Lemma inv_mix_a : forall a b c d, bxor4 (mul14 (bxor4 (xtime a) (mul3 b) c d)) (mul11 (bxor4 a (xtime b) (mul3 c) d)) (mul13 (bxor4 a b (xtime c) (mul3 d))) (mul9 (bxor4 (mul3 a) b c (xtime d))) = a.
Proof. intros a b c d. xor_ring. Qed.
Lemma inv_mix_b : forall a b c d, bxor4 (mul9 (bxor4 (xtime a) (mul3 b) c d)) (mul14 (bxor4 a (xtime b) (mul3 c) d)) (mul11 (bxor4 a b (xtime c) (mul3 d))) (mul13 (bxor4 (mul3 a) b c (xtime d))) = b.
Proof. intros a b c d. xor_ring. Qed.
Lemma inv_mix_c : forall a b c d, bxor4 (mul13 (bxor4 (xtime a) (mul3 b) c d)) (mul9 (bxor4 a (xtime b) (mul3 c) d)) (mul14 (bxor4 a b (xtime c) (mul3 d))) (mul11 (bxor4 (mul3 a) b c (xtime d))) = c.
Proof. intros a b c d. xor_ring. Qed.
Lemma inv_mix_d : forall a b c d, bxor4 (mul11 (bxor4 (xtime a) (mul3 b) c d)) (mul13 (bxor4 a (xtime b) (mul3 c) d)) (mul9 (bxor4 a b (xtime c) (mul3 d))) (mul14 (bxor4 (mul3 a) b c (xtime d))) = d.
Proof. intros a b c d. xor_ring. Qed.
Lemma inv_mix_mix : forall a b c d,
  inv_mix_column (bxor4 (xtime a) (mul3 b) c d) (bxor4 a (xtime b) (mul3 c) d) (bxor4 a b (xtime c) (mul3 d)) (bxor4 (mul3 a) b c (xtime d)) = [a; b; c; d].
Proof. intros a b c d. unfold inv_mix_column. rewrite inv_mix_a, inv_mix_b, inv_mix_c, inv_mix_d. reflexivity. Qed.

Lemma sixteen : forall s : bytes, length s = 16%nat -> exists a0 a1 a2 a3 b0 b1 b2 b3 c0 c1 c2 c3 d0 d1 d2 d3,
  s = [a0; a1; a2; a3; b0; b1; b2; b3; c0; c1; c2; c3; d0; d1; d2; d3].
Proof.
  intros s H. do 16 (destruct s as [|? s]; [discriminate H|]). destruct s; [|discriminate H]. repeat eexists.
Qed.
Lemma inv_mix_columns_mix : forall s, length s = 16%nat -> inv_mix_columns (mix_columns s) = s.
Proof.
  intros s H. destruct (sixteen s H) as (a0 & a1 & a2 & a3 & b0 & b1 & b2 & b3 & c0 & c1 & c2 & c3 & d0 & d1 & d2 & d3 & ->).
  unfold mix_columns, inv_mix_columns. cbn [columns mix_column app]. rewrite !inv_mix_mix. reflexivity.
Qed.
Lemma inv_shift_rows_shift : forall s, length s = 16%nat -> inv_shift_rows (shift_rows s) = s.
Proof.
  intros s H. destruct (sixteen s H) as (a0 & a1 & a2 & a3 & b0 & b1 & b2 & b3 & c0 & c1 & c2 & c3 & d0 & d1 & d2 & d3 & ->). reflexivity.
Qed.
Lemma add_round_key_cancel : forall k s, add_round_key k (add_round_key k s) = s.
Proof. intros k s. revert k. induction s as [|x s IH]; intros [|y k]; cbn [add_round_key]; try reflexivity. rewrite bxor_cancel, IH. reflexivity. Qed.

Lemma sub_bytes_len : forall s, length (sub_bytes s) = length s.
Proof. intros s. apply map_length. Qed.
Lemma inv_sub_bytes_len : forall s, length (inv_sub_bytes s) = length s.
Proof. intros s. apply map_length. Qed.
Lemma add_round_key_len : forall k s, length (add_round_key k s) = length s.
Proof. intros k s. revert k. induction s as [|x s IH]; intros [|y k]; cbn [add_round_key length]; try reflexivity. rewrite IH. reflexivity. Qed.
Lemma shift_rows_len : forall s, length s = 16%nat -> length (shift_rows s) = 16%nat.
Proof. intros s H. destruct (sixteen s H) as (a0 & a1 & a2 & a3 & b0 & b1 & b2 & b3 & c0 & c1 & c2 & c3 & d0 & d1 & d2 & d3 & ->). reflexivity. Qed.
Lemma inv_shift_rows_len : forall s, length s = 16%nat -> length (inv_shift_rows s) = 16%nat.
Proof. intros s H. destruct (sixteen s H) as (a0 & a1 & a2 & a3 & b0 & b1 & b2 & b3 & c0 & c1 & c2 & c3 & d0 & d1 & d2 & d3 & ->). reflexivity. Qed.
Lemma mix_columns_len : forall s, length s = 16%nat -> length (mix_columns s) = 16%nat.
Proof. intros s H. destruct (sixteen s H) as (a0 & a1 & a2 & a3 & b0 & b1 & b2 & b3 & c0 & c1 & c2 & c3 & d0 & d1 & d2 & d3 & ->). reflexivity. Qed.
Lemma inv_mix_columns_len : forall s, length s = 16%nat -> length (inv_mix_columns s) = 16%nat.
Proof. intros s H. destruct (sixteen s H) as (a0 & a1 & a2 & a3 & b0 & b1 & b2 & b3 & c0 & c1 & c2 & c3 & d0 & d1 & d2 & d3 & ->). reflexivity. Qed.
Lemma enc_rounds_len : forall ks s, length s = 16%nat -> length (enc_rounds ks s) = 16%nat.
Proof.
  induction ks as [|k ks IH]; intros s H; [exact H|]. destruct ks as [|k' ks].
  - cbn [enc_rounds]. rewrite add_round_key_len. apply shift_rows_len. rewrite sub_bytes_len. exact H.
  - change (length (enc_rounds (k' :: ks) (add_round_key k (mix_columns (shift_rows (sub_bytes s))))) = 16%nat). apply IH.
    rewrite add_round_key_len. apply mix_columns_len, shift_rows_len. rewrite sub_bytes_len. exact H.
Qed.
Lemma dec_rounds_len : forall ks s, length s = 16%nat -> length (dec_rounds ks s) = 16%nat.
Proof.
  induction ks as [|k ks IH]; intros s H; [exact H|]. destruct ks as [|k' ks].
  - cbn [dec_rounds]. rewrite add_round_key_len, inv_sub_bytes_len. apply inv_shift_rows_len. exact H.
  - change (length (dec_rounds (k' :: ks) (inv_mix_columns (add_round_key k (inv_sub_bytes (inv_shift_rows s))))) = 16%nat). apply IH.
    apply inv_mix_columns_len. rewrite add_round_key_len, inv_sub_bytes_len. apply inv_shift_rows_len. exact H.
Qed.
Lemma aes_encrypt_len : forall k b, length b = 16%nat -> length (aes_encrypt k b) = 16%nat.
Proof. intros k b H. unfold aes_encrypt. destruct (round_keys k) as [|k0 ks]; [exact H|]. apply enc_rounds_len. rewrite add_round_key_len. exact H. Qed.
Lemma aes_decrypt_len : forall k b, length b = 16%nat -> length (aes_decrypt k b) = 16%nat.
Proof. intros k b H. unfold aes_decrypt. destruct (rev (round_keys k)) as [|k0 ks]; [exact H|]. apply dec_rounds_len. rewrite add_round_key_len. exact H. Qed.

(** * All rounds *)
(** The rounds with keys [ks] (not the last) and then the rest; decryption takes them off in the opposite order. *)
Lemma dec_enc : forall ks kl k0 s, length s = 16%nat ->
  dec_rounds (rev ks ++ [k0]) (add_round_key kl (enc_rounds (ks ++ [kl]) (add_round_key k0 s))) = s.
Proof.
  assert (ER : forall ks k kl s, enc_rounds ((k :: ks) ++ [kl]) s = enc_rounds (ks ++ [kl]) (add_round_key k (mix_columns (shift_rows (sub_bytes s))))).
  { intros [|k1 ks] k kl s; reflexivity. }
  assert (DR : forall ks kl s, length s = 16%nat -> exists t,
    add_round_key kl (enc_rounds (ks ++ [kl]) s) = shift_rows (sub_bytes t) /\ length t = 16%nat /\ forall rest, rest <> [] ->
      dec_rounds (rev ks ++ rest) (shift_rows (sub_bytes t)) = dec_rounds rest (shift_rows (sub_bytes s))).
  { induction ks as [|k ks IH]; intros kl s H.
    - exists s. cbn [app enc_rounds rev]. rewrite add_round_key_cancel. split; [reflexivity|]. split; [exact H|]. intros rest _. reflexivity.
    - rewrite ER. set (s1 := add_round_key k (mix_columns (shift_rows (sub_bytes s)))).
      assert (H0 : length (shift_rows (sub_bytes s)) = 16%nat) by (apply shift_rows_len; rewrite sub_bytes_len; exact H).
      assert (H1 : length s1 = 16%nat) by (unfold s1; rewrite add_round_key_len; apply mix_columns_len; exact H0).
      destruct (IH kl s1 H1) as (t & E & Ht & HR). exists t. split; [exact E|]. split; [exact Ht|]. intros rest Hne.
      cbn [rev]. rewrite <- app_assoc. cbn [app]. rewrite (HR (k :: rest)) by discriminate.
      destruct rest as [|r rest]; [destruct (Hne eq_refl)|].
      change (dec_rounds (k :: r :: rest) (shift_rows (sub_bytes s1))) with
        (dec_rounds (r :: rest) (inv_mix_columns (add_round_key k (inv_sub_bytes (inv_shift_rows (shift_rows (sub_bytes s1))))))).
      rewrite inv_shift_rows_shift by (rewrite sub_bytes_len; exact H1). rewrite inv_sub_bytes_sub. unfold s1. rewrite add_round_key_cancel.
      rewrite inv_mix_columns_mix by exact H0. reflexivity. }
  intros ks kl k0 s H. destruct (DR ks kl (add_round_key k0 s)) as (t & E & Ht & HR); [rewrite add_round_key_len; exact H|].
  rewrite E. rewrite (HR [k0]) by discriminate. cbn [dec_rounds].
  rewrite inv_shift_rows_shift by (rewrite sub_bytes_len, add_round_key_len; exact H). rewrite inv_sub_bytes_sub. apply add_round_key_cancel.
Qed.
Lemma round_keys_len : forall k, length (round_keys k) = (length k / 4 + 7)%nat.
Proof.
  intros k. unfold round_keys. generalize (rev (expand (4 * (length k / 4 + 6 + 1) - length k / 4) (length k / 4) (length k / 4) (rev (key_words (length k / 4) k)))).
  assert (H : forall n l, length (group4 n l) = n) by (induction n as [|n IH]; intros l; [reflexivity|cbn [group4 length]; rewrite IH; reflexivity]).
  intros l. rewrite H. lia.
Qed.
Theorem aes_inverse : forall k b, length b = 16%nat -> aes_decrypt k (aes_encrypt k b) = b.
Proof.
  intros k b H. unfold aes_decrypt, aes_encrypt. pose proof (round_keys_len k) as HL. destruct (round_keys k) as [|k0 ks]; [cbn [length] in HL; lia|].
  destruct (exists_last (l := ks)) as (ks' & kl & ->); [intros ->; cbn [length] in HL; lia|].
  assert (ER : rev (k0 :: ks' ++ [kl]) = kl :: (rev ks' ++ [k0])) by (cbn [rev]; rewrite rev_app_distr; reflexivity).
  rewrite ER. apply dec_enc. exact H.
Qed.

(** * Lengths of hashes *)
Lemma be_bytes_len : forall n x, length (be_bytes n x) = n.
Proof. induction n as [|n IH]; intros x; [reflexivity|]. cbn [be_bytes]. rewrite app_length, IH. cbn [length]. lia. Qed.
Lemma add_words_len : forall S a b, length a = length b -> length (add_words S a b) = length a.
Proof. intros S. induction a as [|x a IH]; intros [|y b] H; try discriminate H; [reflexivity|]. cbn [add_words length]. rewrite IH; [reflexivity|]. cbn [length] in H. lia. Qed.
Lemma rounds_len : forall S ks w st, length (rounds S ks w st) = length st.
Proof.
  intros S. induction ks as [|k ks IH]; intros w st; [reflexivity|]. cbn [rounds].
  do 8 (destruct st as [|? st]; [reflexivity|]). destruct st; [|reflexivity]. rewrite IH. reflexivity.
Qed.
Lemma sha_blocks_len : forall S n l h, length (sha_blocks S n l h) = length h.
Proof. intros S. induction n as [|n IH]; intros l h; [reflexivity|]. cbn [sha_blocks]. rewrite IH, add_words_len; [reflexivity|]. symmetry. apply rounds_len. Qed.
Lemma sha_len : forall S m, length (sha S m) = (length (s_init S) * wbytes S)%nat.
Proof.
  intros S m. unfold sha. generalize (length (sha_pad S m) / (16 * wbytes S))%nat. intros n. rewrite <- (sha_blocks_len S n (sha_pad S m) (s_init S)).
  generalize (sha_blocks S n (sha_pad S m) (s_init S)). intros l. induction l as [|x l IH]; [reflexivity|]. cbn [map concat length]. rewrite app_length, be_bytes_len, IH. reflexivity.
Qed.
Lemma sha256_len : forall m, length (sha256 m) = 32%nat.
Proof. intros m. unfold sha256. rewrite sha_len. reflexivity. Qed.
Lemma sha512_bytes_len : forall m, length (sha sha512_params m) = 64%nat.
Proof. intros m. rewrite sha_len. reflexivity. Qed.
Lemma hmac_sha256_len : forall k m, length (hmac_sha256 k m) = 32%nat.
Proof. intros k m. unfold hmac_sha256. apply sha256_len. Qed.
