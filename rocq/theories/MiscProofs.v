(** MiscProofs.v: lemmas for C38-C41 and C53 (fingerprints, addresses, key helper, provisioning). *)
From Verif Require Import Base Labels Crypto Bytehelper Ecc Cbc Itoa Keys X3dh Messages Address Fingerprint PreKeyRecords KeyHelper
  Provision CryptoProofs.
From Coq Require Import Lia ZifyBool ZifyN ZifyNat.
From Coq Require Decimal DecimalN DecimalPos DecimalFacts.

(** * Addresses *)

Lemma no_colon : forall l, forallb is_digit l = true -> ~ In x3a l.
Proof. intros l H HI. rewrite forallb_forall in H. specialize (H _ HI). discriminate. Qed.

Lemma last_separator : forall s (a b x y : bytes), ~ In s x -> ~ In s y -> a ++ s :: x = b ++ s :: y -> a = b /\ x = y.
Proof.
  intros s. induction a as [|p a IH]; intros [|q b] x y Hx Hy E; cbn in E.
  - injection E as ->. auto.
  - injection E as -> E. exfalso. apply Hx. rewrite E. apply in_or_app. right. left. reflexivity.
  - injection E as -> E. exfalso. apply Hy. rewrite <- E. apply in_or_app. right. left. reflexivity.
  - injection E as -> E. destruct (IH b x y Hx Hy E) as [-> ->]. auto.
Qed.

Lemma address_string_inj : forall a b, address_string a = address_string b -> a = b.
Proof.
  intros [n d] [n' d'] H. unfold address_string in H. cbn [a_name a_device] in H.
  change address_separator with [x3a] in H. cbn [app] in H.
  apply last_separator in H; try (apply no_colon; apply dec_n_digits).
  destruct H as [-> H]. apply dec_n_inj in H. subst. reflexivity.
Qed.

(** * Decimal numerals *)

(** The value of a string of ASCII digits. *)
Definition digits_value (l : bytes) : N := fold_left (fun acc b => (acc * 10 + (b2n b - 48))%N) l 0%N.

Lemma digits_from_pos : forall u p,
  fold_left (fun acc b => (acc * 10 + (b2n b - 48))%N) (uint_bytes u) (Npos p) = Npos (Pos.of_uint_acc u p).
Proof.
  induction u as [|u IH|u IH|u IH|u IH|u IH|u IH|u IH|u IH|u IH|u IH]; intros p; cbn [uint_bytes fold_left Pos.of_uint_acc]; [reflexivity|..];
    rewrite <- IH; f_equal; cbv [b2n Byte.to_N]; lia.
Qed.

Lemma digits_value_uint : forall u, digits_value (uint_bytes u) = N.of_uint u.
Proof.
  unfold digits_value, N.of_uint.
  induction u as [|u IH|u IH|u IH|u IH|u IH|u IH|u IH|u IH|u IH|u IH]; cbn [uint_bytes fold_left Pos.of_uint]; [reflexivity|exact IH|..];
    exact (digits_from_pos u _).
Qed.

Lemma digits_value_dec : forall n, digits_value (dec_n n) = n.
Proof. intros n. unfold dec_n. rewrite digits_value_uint. apply DecimalN.Unsigned.of_to. Qed.

Lemma digits_pos_lower : forall l p, (Npos p * 10 ^ N.of_nat (length l) <=
  fold_left (fun acc b => acc * 10 + (b2n b - 48)) l (Npos p))%N.
Proof.
  induction l as [|b l IH]; intros p.
  - cbn. lia.
  - cbn [fold_left length]. rewrite Nat2N.inj_succ, N.pow_succ_r'.
    destruct (N.pos p * 10 + (b2n b - 48))%N as [|q] eqn:E; [lia|].
    eapply N.le_trans; [|apply IH]. rewrite <- E. nia.
Qed.

Lemma dec_n_length : forall n k, (n < 10 ^ N.of_nat (S k))%N -> (length (dec_n n) <= S k)%nat.
Proof.
  intros n k H. destruct (Nat.le_gt_cases (length (dec_n n)) (S k)) as [L|L]; [exact L|exfalso].
  assert (HV := digits_value_dec n).
  assert (HN : Decimal.unorm (N.to_uint n) = N.to_uint n).
  { rewrite <- (DecimalN.Unsigned.of_to n) at 2. rewrite DecimalN.Unsigned.to_of. reflexivity. }
  unfold dec_n in *. destruct (N.to_uint n) as [|u|u|u|u|u|u|u|u|u|u] eqn:EU; cbn [uint_bytes length] in *; try lia.
  1:{ assert (u = Decimal.Nil) as ->; [|cbn in L; lia].
      unfold Decimal.unorm in HN. cbn [Decimal.nzhead] in HN. destruct (Decimal.nzhead u) as [|v|v|v|v|v|v|v|v|v|v] eqn:EV; try discriminate.
      - injection HN as <-. reflexivity.
      - exfalso. exact (DecimalFacts.nzhead_nonzero _ _ EV). }
  all: unfold digits_value in HV; cbn [fold_left] in HV;
    match type of HV with fold_left _ _ ?a = _ => let v := eval vm_compute in a in change a with v in HV;
      match v with Npos ?p => assert (HL := digits_pos_lower (uint_bytes u) p) end end;
    rewrite HV in HL;
    assert (HP : (10 ^ N.of_nat (S k) <= 10 ^ N.of_nat (length (uint_bytes u)))%N) by (apply N.pow_le_mono_r; lia);
    lia.
Qed.

(** * Fingerprints *)

Lemma pad5_length : forall n, (n < 100000)%N -> length (pad5 n) = 5%nat.
Proof.
  intros n H. assert (L := dec_n_length n 4 H). unfold pad5. rewrite app_length, repeat_length. lia.
Qed.

Lemma pad5_digits : forall n, forallb is_digit (pad5 n) = true.
Proof.
  intros n. unfold pad5. rewrite forallb_app, dec_n_digits, andb_true_r.
  induction (5 - length (dec_n n))%nat as [|k IH]; [reflexivity|exact IH].
Qed.

Lemma pad5_value : forall n, digits_value (pad5 n) = n.
Proof.
  intros n. unfold pad5, digits_value. rewrite fold_left_app.
  replace (fold_left _ (repeat x30 _) 0%N) with 0%N; [apply digits_value_dec|].
  induction (5 - length (dec_n n))%nat as [|k IH]; [reflexivity|exact IH].
Qed.

(** Big-endian value of a byte string. *)
Definition be_value (l : bytes) : N := fold_left (fun acc b => (acc * 256 + b2n b)%N) l 0%N.

Lemma lor_disjoint : forall a b k, (b < 2 ^ k)%N -> N.lor (N.shiftl a k) b = (a * 2 ^ k + b)%N.
Proof.
  intros a b k H.
  assert (HL : N.land (N.shiftl a k) b = 0%N).
  { apply N.bits_inj. intros i. rewrite N.land_spec, N.bits_0. destruct (N.lt_ge_cases i k) as [L|L].
    - rewrite N.shiftl_spec_low by exact L. reflexivity.
    - rewrite <- (N.mod_small b (2 ^ k) H), N.mod_pow2_bits_high by exact L. apply andb_false_r. }
  rewrite <- N.lxor_lor by exact HL. rewrite <- N.add_nocarry_lxor by exact HL. rewrite N.shiftl_mul_pow2. reflexivity.
Qed.

Lemma bytes5_value : forall b o, (o + 5 <= length b)%nat -> bytes5_to_int64 b o = Ok (Z.of_N (be_value (firstn 5 (skipn o b)))).
Proof.
  intros b o H. unfold bytes5_to_int64. assert (L : length (firstn 5 (skipn o b)) = 5%nat) by (rewrite firstn_length, skipn_length; lia).
  destruct (firstn 5 (skipn o b)) as [|b0 [|b1 [|b2 [|b3 [|b4 [|? ?]]]]]]; try discriminate L.
  f_equal. f_equal. unfold be_value. cbn [fold_left].
  assert (H0 := b2n_lt b0). assert (H1 := b2n_lt b1). assert (H2 := b2n_lt b2). assert (H3 := b2n_lt b3). assert (H4 := b2n_lt b4).
  rewrite (lor_disjoint (b2n b3) (b2n b4) 8) by exact H4.
  rewrite (lor_disjoint (b2n b2) _ 16) by lia. rewrite (lor_disjoint (b2n b1) _ 24) by lia.
  rewrite (lor_disjoint (b2n b0) _ 32) by lia. lia.
Qed.

Lemma bytes5_panics : forall b o, (length b < o + 5)%nat -> bytes5_to_int64 b o = Panic.
Proof.
  intros b o H. unfold bytes5_to_int64. assert (L : (length (firstn 5 (skipn o b)) < 5)%nat) by (rewrite firstn_length, skipn_length; lia).
  destruct (firstn 5 (skipn o b)) as [|b0 [|b1 [|b2 [|b3 [|b4 r]]]]]; try reflexivity. cbn in L. lia.
Qed.

Definition chunk_number (f : bytes) (i : nat) : N := (be_value (firstn 5 (skipn (5 * i) f)) mod 100000)%N.

Lemma display_string_ok : forall f, (30 <= length f)%nat ->
  display_string f = Ok (concat (map (fun i => pad5 (chunk_number f i)) [0; 1; 2; 3; 4; 5]%nat)).
Proof.
  intros f H. unfold display_string, encoded_chunk, chunk_number.
  rewrite !bytes5_value by lia. cbn [bind map concat Nat.mul Nat.add]. rewrite app_nil_r.
  rewrite !Z2N.inj_mod by lia. rewrite !N2Z.id. reflexivity.
Qed.

Lemma display_string_panics : forall f, (length f < 30)%nat -> display_string f = Panic.
Proof.
  intros f H. unfold display_string, encoded_chunk.
  destruct (Nat.le_gt_cases 5 (length f)) as [H1|H1]; [rewrite (bytes5_value f 0) by lia|rewrite (bytes5_panics f 0) by lia; reflexivity].
  destruct (Nat.le_gt_cases 10 (length f)) as [H2|H2]; [rewrite (bytes5_value f 5) by lia|rewrite (bytes5_panics f 5) by lia; reflexivity].
  destruct (Nat.le_gt_cases 15 (length f)) as [H3|H3]; [rewrite (bytes5_value f 10) by lia|rewrite (bytes5_panics f 10) by lia; reflexivity].
  destruct (Nat.le_gt_cases 20 (length f)) as [H4|H4]; [rewrite (bytes5_value f 15) by lia|rewrite (bytes5_panics f 15) by lia; reflexivity].
  destruct (Nat.le_gt_cases 25 (length f)) as [H5|H5]; [rewrite (bytes5_value f 20) by lia|rewrite (bytes5_panics f 20) by lia; reflexivity].
  rewrite (bytes5_panics f 25) by lia. reflexivity.
Qed.

Lemma chunk_lt : forall f i, (chunk_number f i < 100000)%N.
Proof. intros f i. apply N.mod_lt. discriminate. Qed.

Lemma display_string_30 : forall f s, display_string f = Ok s -> length s = 30%nat /\ forallb is_digit s = true /\ (30 <= length f)%nat.
Proof.
  intros f s H. destruct (Nat.le_gt_cases 30 (length f)) as [L|L]; [|rewrite display_string_panics in H by exact L; discriminate].
  rewrite display_string_ok in H by exact L. injection H as <-. cbn [map concat]. rewrite app_nil_r, !app_length, !forallb_app, !pad5_digits.
  rewrite !pad5_length by apply chunk_lt. repeat split. exact L.
Qed.

Lemma display_string_first30 : forall f g, firstn 30 f = firstn 30 g -> display_string f = display_string g.
Proof.
  intros f g E. assert (HL : Nat.min 30 (length f) = Nat.min 30 (length g)) by (rewrite <- !firstn_length, E; reflexivity).
  destruct (Nat.le_gt_cases 30 (length f)) as [L|L].
  - rewrite !display_string_ok by lia. f_equal. f_equal. apply map_ext_in. intros i Hi. f_equal. unfold chunk_number. f_equal. f_equal.
    assert (K : forall h : bytes, (5 * i + 5 <= 30)%nat -> firstn 5 (skipn (5 * i) (firstn 30 h)) = firstn 5 (skipn (5 * i) h)).
    { intros h Hi'. rewrite skipn_firstn_comm, firstn_firstn. f_equal. lia. }
    rewrite <- (K f), <- (K g), E; [reflexivity|..]; cbn in Hi; lia.
  - rewrite !display_string_panics by lia. reflexivity.
Qed.

Lemma b2n_inj : forall a b, b2n a = b2n b -> a = b.
Proof. intros a b H. rewrite <- (n2b_b2n a), H. apply n2b_b2n. Qed.

Lemma str_lt_antisym : forall a b, length a = length b -> str_lt a b = false -> str_lt b a = false -> a = b.
Proof.
  induction a as [|x a IH]; intros [|y b] HL H1 H2; try discriminate HL; [reflexivity|].
  cbn in H1, H2. destruct (b2n x <? b2n y)%N eqn:A; [discriminate|]. destruct (b2n y <? b2n x)%N eqn:B; [discriminate|].
  assert (x = y) as -> by (apply b2n_inj; lia). f_equal. apply IH; auto.
Qed.

Lemma str_lt_asym : forall a b, str_lt a b = true -> str_lt b a = false.
Proof.
  induction a as [|x a IH]; intros [|y b] H; cbn in *; try discriminate; try reflexivity.
  destruct (b2n x <? b2n y)%N eqn:A; destruct (b2n y <? b2n x)%N eqn:B; try discriminate; try reflexivity; try lia; apply IH; exact H.
Qed.

Lemma app_split : forall (a b c d : bytes), length a = length c -> a ++ b = c ++ d -> a = c /\ b = d.
Proof.
  induction a as [|x a IH]; intros b [|y c] d HL E; try discriminate HL; [auto|].
  injection E as -> E. destruct (IH b c d) as [-> ->]; [now injection HL|exact E|auto].
Qed.

(** * Key helper *)

Lemma gen_pre_keys_spec : forall C n i g,
  match gen_pre_keys C n i g with
  | (Ok l, g') => (n <= length g)%nat /\ g' = skipn n g /\ length l = n /\
      forall k d, (k < n)%nat -> exists seed, nth_error g k = Some (Some seed) /\
        let priv := clamp (to_arr 32 seed) in
        nth k l d = {| kr_struct := {| ks_id := u32_of_int (i + Z.of_nat k); ks_pub := ser_pub (x_base C priv); ks_priv := abytes priv |};
                       kr_pair := {| kp_pub := x_base C priv; kp_priv := Some priv |} |}
  | (Err e, g') => e = ERand /\ exists k, (k < n)%nat /\ (nth_error g k = None \/ nth_error g k = Some None)
  | (Panic, _) => False
  end.
Proof.
  intros C. induction n as [|n IH]; intros i g; cbn [gen_pre_keys].
  - split; [lia|]. split; [reflexivity|]. split; [reflexivity|]. intros k d Hk. lia.
  - unfold generate_key_pair. destruct g as [|[seed|] g]; cbn [rng_read].
    + split; [reflexivity|]. exists 0%nat. split; [lia|]. left. reflexivity.
    + cbn [new_pkr pair_of kp_priv kp_pub]. specialize (IH (i + 1)%Z g). destruct (gen_pre_keys C n (i + 1) g) as [[l|e|] g'].
      * destruct IH as (H1 & H2 & H3 & H4). cbn [length skipn]. split; [lia|]. split; [exact H2|]. split; [lia|].
        intros [|k] d Hk.
        -- exists seed. split; [reflexivity|]. cbn. rewrite Z.add_0_r. reflexivity.
        -- destruct (H4 k d ltac:(lia)) as (s & E1 & E2). exists s. split; [exact E1|]. cbv zeta in *. cbn [nth]. rewrite E2.
           replace (i + Z.of_nat (S k))%Z with (i + 1 + Z.of_nat k)%Z by lia. reflexivity.
      * destruct IH as (-> & k & Hk & Hd). split; [reflexivity|]. exists (S k). split; [lia|]. exact Hd.
      * exact IH.
    + split; [reflexivity|]. exists 0%nat. split; [lia|]. right. reflexivity.
Qed.

(** * Provisioning *)

Lemma firstn_exact : forall (a b : bytes) n, length a = n -> firstn n (a ++ b) = a.
Proof. intros a b n <-. rewrite firstn_app, Nat.sub_diag, firstn_all. cbn. apply app_nil_r. Qed.
Lemma skipn_exact : forall (a b : bytes) n, length a = n -> skipn n (a ++ b) = b.
Proof. intros a b n <-. rewrite skipn_app, Nat.sub_diag, skipn_all. reflexivity. Qed.

Lemma skipn_add : forall {A} n m (l : list A), skipn (n + m) l = skipn m (skipn n l).
Proof. intros A. induction n as [|n IH]; intros m l; [reflexivity|]. destruct l as [|x l]; cbn; [rewrite skipn_nil; reflexivity|apply IH]. Qed.

Lemma provision_long : forall C priv e pub, decode_point (en_public e) = Ok pub -> (49 <= length (en_body e))%nat ->
  hd_error (en_body e) = Some x01 ->
  provision_decrypt C priv e =
    (let m := en_body e in
     let keys := hkdf_bytes C (abytes (x_mult C (to_arr 32 priv) pub)) None provision_info 64 in
     let n := (length m - 32)%nat in
     if bytes_eqb (hmac C (skipn 32 keys) (firstn n m)) (skipn n m)
     then decrypt_cbc C (Some (firstn 16 (skipn 1 m))) (firstn 32 keys) (skipn 17 (firstn n m)) else Err EProvisionMac).
Proof.
  intros C priv e pub HP HL HH. unfold provision_decrypt. rewrite HP. destruct (en_body e) as [|v m] eqn:EB; [discriminate HH|].
  cbn [hd_error] in HH. injection HH as ->. change (Byte.eqb x01 x01) with true. cbn [negb].
  destruct (Nat.ltb_spec (length (x01 :: m)) 49) as [L|L]; [lia|]. reflexivity.
Qed.
