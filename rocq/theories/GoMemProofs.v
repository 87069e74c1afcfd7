(** GoMemProofs.v: proofs for C87. *)
From Verif Require Import Base Labels Crypto Bytehelper Ecc Cbc Keys Messages SessionState SessionRecord SessionBuilder SessionCipher Address World Group GoMem GoMemSpec CryptoProofs.
From Coq Require Import List Arith Lia.
Import ListNotations.
Local Open Scope nat_scope.

Lemma error_firstn : forall A n (l : list A) j, nth_error (firstn n l) j = if j <? n then nth_error l j else None.
Proof.
  induction n as [|n IH]; intros l j; [cbn; destruct j; reflexivity|]. destruct l as [|x l]; [cbn [firstn]; destruct j as [|j]; [reflexivity|]; destruct (S j <? S n); reflexivity|].
  destruct j as [|j]; [reflexivity|]. cbn [firstn nth_error]. rewrite IH. reflexivity.
Qed.
Lemma error_skipn : forall A n (l : list A) j, nth_error (skipn n l) j = nth_error l (n + j).
Proof. induction n as [|n IH]; intros l j; [reflexivity|]. destruct l as [|x l]; [destruct j; reflexivity|]. cbn [skipn plus nth_error]. apply IH. Qed.
Lemma error_app : forall A (l m : list A) j, nth_error (l ++ m) j = if j <? length l then nth_error l j else nth_error m (j - length l).
Proof. intros A l m j. destruct (Nat.ltb_spec j (length l)); [apply nth_error_app1|apply nth_error_app2]; assumption. Qed.
Lemma error_repeat : forall A (x : A) n j, nth_error (repeat x n) j = if j <? n then Some x else None.
Proof. induction n as [|n IH]; intros [|j]; try reflexivity. cbn [repeat nth_error]. rewrite IH. reflexivity. Qed.
Lemma error_ext : forall A (l m : list A), (forall j, nth_error l j = nth_error m j) -> l = m.
Proof.
  induction l as [|x l IH]; intros [|y m] H; [reflexivity|specialize (H 0); discriminate H|specialize (H 0); discriminate H|].
  f_equal; [specialize (H 0); injection H as ->; reflexivity|]. apply IH. intros j. exact (H (S j)).
Qed.
Lemma error_none : forall A (l : list A) j, length l <= j -> nth_error l j = None.
Proof. intros A l j H. apply nth_error_None. exact H. Qed.

Lemma set_array_length : forall a l h, length (set_array a l h) = length h.
Proof. induction a as [|a IH]; intros l [|x h]; try reflexivity. cbn. rewrite IH. reflexivity. Qed.
Lemma nth_set_array : forall a l h b, a < length h -> nth b (set_array a l h) [] = if b =? a then l else nth b h [].
Proof.
  induction a as [|a IH]; intros l [|x h] b H; cbn in H; try lia; destruct b as [|b]; try reflexivity. cbn [set_array nth]. rewrite IH by lia. reflexivity.
Qed.
Lemma overwrite_length : forall l i b, i + length b <= length l -> length (overwrite l i b) = length l.
Proof. intros l i b H. unfold overwrite. rewrite !app_length, firstn_length, skipn_length. lia. Qed.
Lemma error_overwrite : forall l i b j, i + length b <= length l ->
  nth_error (overwrite l i b) j = if (i <=? j) && (j <? i + length b) then nth_error b (j - i) else nth_error l j.
Proof.
  intros l i b j H. unfold overwrite. rewrite !error_app, error_firstn, error_skipn, firstn_length, Nat.min_l by lia.
  destruct (Nat.ltb_spec j i), (Nat.leb_spec i j); try lia; cbn [andb]; [reflexivity|].
  destruct (Nat.ltb_spec (j - i) (length b)), (Nat.ltb_spec j (i + length b)); try lia; [reflexivity|]. f_equal. lia.
Qed.

Lemma write_length : forall h a i b, length (write h a i b) = length h.
Proof. intros. apply set_array_length. Qed.
Lemma array_write : forall h a i b c, a < length h -> i + length b <= length (nth a h []) -> length (nth c (write h a i b) []) = length (nth c h []).
Proof.
  intros h a i b c H H1. unfold write, array_of. rewrite nth_set_array by exact H. destruct (Nat.eqb_spec c a) as [->|]; [|reflexivity]. apply overwrite_length. exact H1.
Qed.
Lemma byte_at_write : forall h a i b c j, a < length h -> i + length b <= length (nth a h []) ->
  byte_at (write h a i b) c j = if (c =? a) && ((i <=? j) && (j <? i + length b)) then nth_error b (j - i) else byte_at h c j.
Proof.
  intros h a i b c j H H1. unfold byte_at, write, array_of. rewrite nth_set_array by exact H. destruct (Nat.eqb_spec c a) as [->|]; [|reflexivity].
  rewrite error_overwrite by exact H1. reflexivity.
Qed.
Lemma error_read : forall h s j, nth_error (read h s) j = if j <? sl_len s then byte_at h (sl_arr s) (sl_off s + j) else None.
Proof. intros h s j. unfold read, array_of, byte_at. rewrite error_firstn, error_skipn. reflexivity. Qed.
Lemma read_length : forall h s, valid h s -> length (read h s) = sl_len s.
Proof. intros h s (H1 & H2 & H3). unfold read, array_of. rewrite firstn_length, skipn_length. lia. Qed.

Lemma only_refl : forall P h, only P h h.
Proof. intros P h. split; [lia|]. split; auto. Qed.
Lemma only_weak : forall (P Q : nat -> nat -> Prop) h h', (forall a i, P a i -> Q a i) -> only P h h' -> only Q h h'.
Proof. intros P Q h h' HW (A & B & D). split; [exact A|]. split; [exact B|]. intros a i Ha Hn. apply D; [exact Ha|]. intros X. apply Hn, HW, X. Qed.
Lemma only_trans : forall (P Q : nat -> nat -> Prop) h h1 h2, only P h h1 -> only Q h1 h2 -> (forall a i, a < length h -> Q a i -> P a i) -> only P h h2.
Proof.
  intros P Q h h1 h2 (A & B & D) (A1 & B1 & D1) HQ. split; [lia|]. split; [intros s HS; apply B1, B, HS|]. intros a i Ha Hn.
  rewrite <- (D a i Ha Hn). apply D1; [lia|]. intros X. apply Hn, HQ; [exact Ha|exact X].
Qed.
Lemma only_write : forall h a i b, a < length h -> i + length b <= length (nth a h []) ->
  only (fun c j => c = a /\ i <= j < i + length b) h (write h a i b).
Proof.
  intros h a i b H H1. split; [rewrite write_length; lia|]. split.
  - intros s (V1 & V2 & V3). unfold valid. rewrite write_length, array_write by assumption. auto.
  - intros c j Hc Hn. rewrite byte_at_write by assumption. destruct (Nat.eqb_spec c a); [|reflexivity]. destruct (Nat.leb_spec i j), (Nat.ltb_spec j (i + length b)); try reflexivity.
    exfalso. apply Hn. auto.
Qed.
Lemma only_read : forall P h h' s, only P h h' -> valid h s -> (forall a i, inside s a i -> ~ P a i) -> read h' s = read h s.
Proof.
  intros P h h' s (A & B & D) V HN. apply error_ext. intros j. rewrite !error_read. destruct (Nat.ltb_spec j (sl_len s)); [|reflexivity].
  apply D; [exact (proj1 V)|]. apply HN. split; [reflexivity|lia].
Qed.
Lemma alloc_spec : forall h b h' s, alloc h b = (h', s) -> only nothing h h' /\ read h' s = b /\ new_in h h' s /\ valid h' s.
Proof.
  intros h b h' s H. unfold alloc in H. injection H as <- <-. assert (HN : forall a, nth (length h) (h ++ [b]) a = b) by (intros a; rewrite app_nth2, Nat.sub_diag by lia; reflexivity).
  assert (V : valid (h ++ [b]) {| sl_arr := length h; sl_off := 0; sl_len := length b; sl_cap := length b |}).
  { unfold valid. cbn [sl_arr sl_off sl_len sl_cap]. rewrite HN, app_length. cbn. lia. }
  split; [|split; [|split; [|exact V]]].
  - split; [rewrite app_length; lia|]. assert (E : forall a, a < length h -> nth a (h ++ [b]) [] = nth a h []) by (intros a Ha; apply app_nth1; exact Ha). split.
    + intros s (V1 & V2 & V3). unfold valid. rewrite app_length, (E _ V1). cbn [length]. lia.
    + intros a i Ha _. unfold byte_at. rewrite E by exact Ha. reflexivity.
  - unfold read, array_of. cbn [sl_arr sl_off sl_len]. rewrite HN. cbn [skipn]. apply firstn_all.
  - split; [cbn [sl_arr sl_off sl_len sl_cap]; lia|]. split; [exact V|]. cbn [sl_arr sl_len]. rewrite HN. reflexivity.
Qed.
Lemma new_in_before : forall h h1 h2 s, length h <= length h1 -> new_in h1 h2 s -> new_in h h2 s.
Proof. intros h h1 h2 s H ((A & B) & D). split; [split; [lia|exact B]|exact D]. Qed.

(** Padding: read back, and what it writes. *)
Lemma pad_spec : forall h s h1 p, valid h s -> mem_pad h s 16 = (h1, p) ->
  only (after s) h h1 /\ read h1 p = pad (read h s) 16 /\ valid h1 p /\
  (forall a i, after s a i -> byte_at h1 a i = Some (n2b (N.of_nat (padding (sl_len s))))) /\ sl_len p = length (pad (read h s) 16).
Proof.
  intros h s h1 p V E. pose proof (read_length h s V) as HL. unfold mem_pad, go_append in E. cbv zeta in E. fold (padding (sl_len s)) in E.
  unfold pad. cbv zeta. rewrite HL. fold (padding (sl_len s)). rewrite app_length, HL, !repeat_length in *. destruct V as (V1 & V2 & V3).
  destruct (Nat.leb_spec (sl_len s + padding (sl_len s)) (sl_cap s)) as [HR|HR].
  - injection E as <- <-. set (pb := repeat (n2b (N.of_nat (padding (sl_len s)))) (padding (sl_len s))).
    assert (HB : length pb = padding (sl_len s)) by apply repeat_length.
    assert (HW : sl_off s + sl_len s + length pb <= length (nth (sl_arr s) h [])) by (rewrite HB; lia).
    split; [|split; [|split; [|split]]].
    + eapply only_weak; [|apply only_write; assumption]. cbv beta. rewrite HB. intros a i (-> & X). split; [reflexivity|]. lia.
    + apply error_ext. intros j. rewrite error_app, !error_read. cbn [sl_len sl_arr sl_off]. rewrite byte_at_write by assumption. rewrite Nat.eqb_refl, HB, HL. cbn [andb].
      unfold pb. rewrite !error_repeat.
      destruct (Nat.ltb_spec j (sl_len s + padding (sl_len s))), (Nat.ltb_spec j (sl_len s)), (Nat.leb_spec (sl_off s + sl_len s) (sl_off s + j)),
        (Nat.ltb_spec (sl_off s + j) (sl_off s + sl_len s + padding (sl_len s))), (Nat.ltb_spec (j - sl_len s) (padding (sl_len s))),
        (Nat.ltb_spec (sl_off s + j - (sl_off s + sl_len s)) (padding (sl_len s))); try lia; reflexivity.
    + unfold valid. cbn [sl_arr sl_off sl_len sl_cap]. rewrite write_length, array_write by assumption. split; [assumption|]. split; [|assumption]. lia.
    + intros a i (-> & _ & X). rewrite byte_at_write by assumption. rewrite Nat.eqb_refl, HB.
      destruct (Nat.leb_spec (sl_off s + sl_len s) i), (Nat.ltb_spec i (sl_off s + sl_len s + padding (sl_len s))); try lia. cbn [andb]. unfold pb. rewrite error_repeat.
      destruct (Nat.ltb_spec (i - (sl_off s + sl_len s)) (padding (sl_len s))); [reflexivity|lia].
    + reflexivity.
  - pose proof (alloc_spec _ _ _ _ E) as (A & B & D & F). split; [|split; [|split; [|split]]].
    + eapply only_weak; [|exact A]. intros a i [].
    + exact B.
    + exact F.
    + intros a i (_ & X & _). lia.
    + rewrite <- (read_length h1 p F), B, app_length, HL, repeat_length. reflexivity.
Qed.

Section Calls.
Context (C : crypto).

Lemma encrypt_cbc_mem : forall iv key s g h o h' g', valid h s -> mem_encrypt_cbc C iv key s g h = (o, h', g') ->
  (answer_now h' o, g') = encrypt_cbc_rng C iv key (read h s) g /\ only (after s) h h' /\
  (forall a i, after s a i -> byte_at h' a i = Some (n2b (N.of_nat (padding (sl_len s))))) /\ (forall r, o = Ok r -> new_in h h' r).
Proof.
  intros iv key s g h o h' g' V H. unfold mem_encrypt_cbc in H. destruct (mem_pad h s 16) as [h1 p] eqn:E.
  pose proof (pad_spec _ _ _ _ V E) as (P1 & P2 & P3 & P4 & P5). unfold encrypt_cbc_rng. cbv zeta. rewrite <- P5.
  assert (HL : length h <= length h1) by exact (proj1 P1).
  assert (K : forall b h2 t, alloc h1 b = (h2, t) -> only (after s) h h2 /\ (forall a i, after s a i -> byte_at h2 a i = Some (n2b (N.of_nat (padding (sl_len s))))) /\ read h2 t = b /\ new_in h h2 t).
  { intros b h2 t EA. pose proof (alloc_spec _ _ _ _ EA) as (A & B & D & F). split; [|split; [|split]].
    - eapply only_trans; [exact P1|exact A|]. intros a i _ [].
    - intros a i X. rewrite <- (P4 a i X). apply A; [|intros []]. destruct X as (-> & _). pose proof (proj1 V). lia.
    - exact B.
    - eapply new_in_before; [exact HL|exact D]. }
  destruct (negb (sl_len p mod 16 =? 0)); [injection H as <- <- <-; split; [reflexivity|split; [exact P1|split; [exact P4|intros r X; discriminate X]]]|].
  destruct (negb (aes_key_ok key)); [injection H as <- <- <-; split; [reflexivity|split; [exact P1|split; [exact P4|intros r X; discriminate X]]]|].
  rewrite P2 in H. destruct iv as [v|].
  - destruct (negb (length v =? 16)).
    + destruct (alloc h1 (repeat x00 (sl_len p))) as [h2 t] eqn:EA. injection H as <- <- <-. destruct (K _ _ _ EA) as (A & B & _). split; [reflexivity|]. split; [exact A|]. split; [exact B|].
      intros r X. discriminate X.
    + destruct (alloc h1 _) as [h2 t] eqn:EA in H. injection H as <- <- <-. destruct (K _ _ _ EA) as (A & B & D & F). split; [cbn [answer_now]; rewrite D; reflexivity|]. split; [exact A|]. split; [exact B|].
      intros r X. injection X as <-. exact F.
  - destruct (rng_read 16 g) as [[v|] g1].
    + destruct (alloc h1 _) as [h2 t] eqn:EA in H. injection H as <- <- <-. destruct (K _ _ _ EA) as (A & B & D & F). split; [cbn [answer_now]; rewrite D; reflexivity|]. split; [exact A|]. split; [exact B|].
      intros r X. injection X as <-. exact F.
    + destruct (alloc h1 (repeat x00 (16 + sl_len p))) as [h2 t] eqn:EA. injection H as <- <- <-. destruct (K _ _ _ EA) as (A & B & _). split; [reflexivity|]. split; [exact A|]. split; [exact B|].
      intros r X. discriminate X.
Qed.

(** In place: the bytes of the slice become the decryption; nothing else changes. *)
Lemma write_slice : forall h s b, valid h s -> length b = sl_len s ->
  only (inside s) h (write h (sl_arr s) (sl_off s) b) /\ read (write h (sl_arr s) (sl_off s) b) s = b.
Proof.
  intros h s b (V1 & V2 & V3) HB. assert (HW : sl_off s + length b <= length (nth (sl_arr s) h [])) by lia. split.
  - eapply only_weak; [|apply only_write; assumption]. cbv beta. rewrite HB. intros a i X. exact X.
  - apply error_ext. intros j. rewrite error_read, byte_at_write by assumption. rewrite Nat.eqb_refl, HB. cbn [andb].
    destruct (Nat.ltb_spec j (sl_len s)); [|symmetry; apply error_none; lia].
    destruct (Nat.leb_spec (sl_off s) (sl_off s + j)), (Nat.ltb_spec (sl_off s + j) (sl_off s + sl_len s)); try lia. cbn [andb]. f_equal. lia.
Qed.
Lemma read_take : forall h s n, n <= sl_len s -> read h (take n s) = firstn n (read h s).
Proof. intros h s n H. unfold read, take. cbn [sl_arr sl_off sl_len]. rewrite firstn_firstn, Nat.min_l by exact H. reflexivity. Qed.
Lemma read_drop : forall h s n, read h (drop n s) = skipn n (read h s).
Proof. intros h s n. apply error_ext. intros j. rewrite error_skipn, !error_read. unfold drop. cbn [sl_arr sl_off sl_len]. rewrite <- Nat.add_assoc.
  destruct (Nat.ltb_spec j (sl_len s - n)), (Nat.ltb_spec (n + j) (sl_len s)); try lia; reflexivity. Qed.
Lemma valid_drop : forall h s n, valid h s -> n <= sl_len s -> valid h (drop n s).
Proof. intros h s n (A & B & D) H. unfold valid, drop. cbn [sl_arr sl_off sl_len sl_cap]. lia. Qed.
Lemma inside_drop : forall s n a i, n <= sl_len s -> inside (drop n s) a i -> inside s a i.
Proof. intros s n a i H. unfold inside, drop. cbn [sl_arr sl_off sl_len]. lia. Qed.

Lemma unpad_mem : forall h s, valid h s -> answer_now h (mem_unpad h s) = unpad (read h s) /\
  (forall r, mem_unpad h s = Ok r -> exists n, n <= sl_len s /\ r = take n s).
Proof.
  intros h s V. unfold mem_unpad, unpad. rewrite (read_length h s V). destruct (rev (read h s)) as [|b l]; [split; [reflexivity|intros r X; discriminate X]|]. cbv zeta.
  destruct (Nat.ltb_spec (sl_len s) (N.to_nat (b2n b))); [split; [reflexivity|intros r X; discriminate X]|]. split.
  - cbn [answer_now]. rewrite read_take by lia. reflexivity.
  - intros r X. injection X as <-. eexists. split; [|reflexivity]. lia.
Qed.

Lemma dec_length : crypto_laws C -> forall n key iv l, length iv = 16 -> aes_key_ok key = true -> length l = 16 * n -> length (cbc_dec C n key iv l) = length l.
Proof. intros L n key iv l H1 H2 H3. rewrite (cbc_dec_length C L n key iv l H2 H1 H3). symmetry. exact H3. Qed.

(** DecryptCbc on a slice: the answer of the model, the buffer it leaves, and the result is the start of what follows the IV. *)
Lemma decrypt_cbc_mem : crypto_laws C -> forall iv key s h o h', valid h s -> mem_decrypt_cbc C iv key s h = (o, h') ->
  (answer_now h' o, read h' s) = decrypt_cbc_full C iv key (read h s) /\ only (inside s) h h' /\
  (forall r, o = Ok r -> exists n, n <= sl_len s - (match iv with None => 16 | Some _ => 0 end) /\ r = take n (match iv with None => drop 16 s | Some _ => s end)).
Proof.
  intros L iv key s h o h' V H. unfold mem_decrypt_cbc in H. unfold decrypt_cbc_full. rewrite (read_length h s V).
  destruct (negb (aes_key_ok key)) eqn:EK; [injection H as <- <-; split; [reflexivity|]; split; [apply only_refl|intros r X; discriminate X]|].
  destruct (Nat.ltb_spec (sl_len s) 16); [injection H as <- <-; split; [reflexivity|]; split; [apply only_refl|intros r X; discriminate X]|].
  assert (HK : aes_key_ok key = true) by (destruct (aes_key_ok key); [reflexivity|discriminate EK]).
  destruct iv as [v|]; cbv zeta beta iota in H |- *.
  - destruct (Nat.eqb_spec (length v) 16) as [HV|]; cbn [negb] in H |- *; [|injection H as <- <-; split; [reflexivity|]; split; [apply only_refl|intros r X; discriminate X]].
    rewrite (read_length h s V). destruct (Nat.eqb_spec (sl_len s mod 16) 0) as [HM|]; cbn [negb] in H |- *; [|injection H as <- <-; split; [reflexivity|]; split; [apply only_refl|intros r X; discriminate X]].
    set (p := cbc_dec C (blocks (read h s)) key v (read h s)) in *.
    assert (HP : length p = sl_len s).
    { unfold p. rewrite dec_length; [apply read_length; exact V|exact L|exact HV|exact HK|]. unfold blocks. rewrite (read_length h s V). pose proof (Nat.div_mod_eq (sl_len s) 16). lia. }
    destruct (write_slice h s p V HP) as (W1 & W2). assert (V' : valid (write h (sl_arr s) (sl_off s) p) s) by (apply W1; exact V).
    injection H as <- <-. destruct (unpad_mem _ s V') as (U1 & U2). rewrite W2 in U1. split; [rewrite U1, W2; reflexivity|]. split; [exact W1|]. intros r X. destruct (U2 r X) as (n & N1 & N2). exists n. split; [lia|exact N2].
  - rewrite (read_take h s 16) in H by lia. assert (HV : length (firstn 16 (read h s)) = 16) by (rewrite firstn_length, (read_length h s V); lia). rewrite HV in H |- *.
    change (16 =? 16) with true in H |- *. cbn [negb] in H |- *. rewrite skipn_length, (read_length h s V). change (sl_len (drop 16 s)) with (sl_len s - 16) in H.
    destruct (Nat.eqb_spec ((sl_len s - 16) mod 16) 0) as [HM|]; cbn [negb] in H |- *; [|injection H as <- <-; split; [reflexivity|]; split; [apply only_refl|intros r X; discriminate X]].
    assert (VD : valid h (drop 16 s)) by (apply valid_drop; [exact V|lia]). rewrite read_drop in H.
    set (p := cbc_dec C (blocks (skipn 16 (read h s))) key (firstn 16 (read h s)) (skipn 16 (read h s))) in *.
    assert (HP : length p = sl_len (drop 16 s)).
    { change (sl_len (drop 16 s)) with (sl_len s - 16). unfold p. rewrite dec_length; [rewrite skipn_length, (read_length h s V); reflexivity|exact L|exact HV|exact HK|].
      unfold blocks. rewrite skipn_length, (read_length h s V). pose proof (Nat.div_mod_eq (sl_len s - 16) 16). lia. }
    destruct (write_slice h (drop 16 s) p VD HP) as (W1 & W2). assert (V' : valid (write h (sl_arr (drop 16 s)) (sl_off (drop 16 s)) p) (drop 16 s)) by (apply W1; exact VD).
    set (h2 := write h (sl_arr (drop 16 s)) (sl_off (drop 16 s)) p) in *.
    destruct (proj1 (pair_equal_spec _ _ _ _) H) as [<- <-]. clear H. destruct (unpad_mem _ (drop 16 s) V') as (U1 & U2). rewrite W2 in U1. split; [|split].
    + rewrite U1. f_equal. rewrite <- (firstn_skipn 16 (read h2 s)), <- read_drop, W2. f_equal.
      rewrite <- !(read_take _ s 16) by lia. apply (only_read _ h h2 (take 16 s) W1).
      * destruct V as (A & B & D). unfold valid, take. cbn [sl_arr sl_off sl_len sl_cap]. lia.
      * intros a i. unfold inside, take, drop. cbn [sl_arr sl_off sl_len]. lia.
    + eapply only_weak; [|exact W1]. intros a i X. apply inside_drop in X; [exact X|lia].
    + intros r X. destruct (U2 r X) as (n & N1 & N2). exists n. split; [exact N1|exact N2].
Qed.

Lemma encrypt_fixed_mem : forall iv key s h o h' g', valid h s -> mem_encrypt_cbc C (Some iv) key s [] h = (o, h', g') ->
  answer_now h' o = encrypt_cbc C iv key (read h s) /\ only (after s) h h' /\
  (forall a i, after s a i -> byte_at h' a i = Some (n2b (N.of_nat (padding (sl_len s))))) /\ (forall r, o = Ok r -> new_in h h' r).
Proof.
  intros iv key s h o h' g' V H. destruct (encrypt_cbc_mem _ _ _ _ _ _ _ _ V H) as (A & B). split; [|exact B]. unfold encrypt_cbc. rewrite <- A. reflexivity.
Qed.

Definition filled (s : slice) (h' : heap) : Prop := forall a i, after s a i -> byte_at h' a i = Some (n2b (N.of_nat (padding (sl_len s)))).

Lemma encrypt_mem : forall v s h o r es h', valid h s -> mem_encrypt C v s h = (o, r, es, h') ->
  encrypt C v (read h s) = (o, r, es) /\ only (after s) h h' /\ (forall m, o = Ok m -> filled s h').
Proof.
  intros v s h o r es h' V H. unfold mem_encrypt in H. cbv zeta in H. unfold encrypt. cbv zeta. destruct (s_sender (r_cur (v_load v))) as [sc|].
  2:{ injection H as <- <- <- <-. split; [reflexivity|]. split; [apply only_refl|intros m X; discriminate X]. }
  destruct (mem_encrypt_cbc C _ _ s [] h) as [[o1 h1] g1] eqn:E. destruct (encrypt_fixed_mem _ _ _ _ _ _ _ V E) as (A & B & D & _).
  rewrite <- A. destruct o1 as [ct|e|]; cbn [answer_now].
  - destruct (s_local_id (r_cur (v_load v))) as [lid|]; [|injection H as <- <- <- <-; split; [reflexivity|]; split; [exact B|intros m X; exact D]].
    destruct (s_remote_id (r_cur (v_load v))) as [rid|]; [|injection H as <- <- <- <-; split; [reflexivity|]; split; [exact B|intros m X; exact D]].
    destruct (new_signal_message C _ _ _ _ _ (read h1 ct) lid rid) as [sm|e|]; [|injection H as <- <- <- <-; split; [reflexivity|]; split; [exact B|intros m X; exact D]..].
    destruct (match s_pending (r_cur (v_load v)) with None => Ok (CSignal sm) | Some p => _ end) as [m|e|];
      injection H as <- <- <- <-; (split; [reflexivity|]; split; [exact B|intros x X; exact D]).
  - injection H as <- <- <- <-. split; [reflexivity|]. split; [exact B|intros m X; exact D].
  - injection H as <- <- <- <-. split; [reflexivity|]. split; [exact B|intros m X; exact D].
Qed.

Lemma w_encrypt_mem : forall a s w h o w' h', valid h s -> mw_encrypt C a s w h = (o, w', h') ->
  w_encrypt C a (read h s) w = (o, w') /\ only (after s) h h' /\ (forall m, o = Ok m -> filled s h').
Proof.
  intros a s w h o w' h' V H. unfold mw_encrypt in H. destruct (mem_encrypt C (view_of w a) s h) as [[[o1 r] es] h1] eqn:E. destruct (commit a es w) as [w1 ok] eqn:EC.
  injection H as <- <- <-. destruct (encrypt_mem _ _ _ _ _ _ _ V E) as (A & B & D). split; [unfold w_encrypt; rewrite A, EC; reflexivity|]. split; [exact B|].
  intros m X. destruct ok; [apply (D m X)|discriminate X].
Qed.

Lemma encrypts_mem : forall a l w h, Forall (valid h) l -> spaced l ->
  fst (mw_encrypts C a l w h) = encrypts C a (map (read h) l) w /\
  only (fun x i => exists s, In s l /\ after s x i) h (snd (mw_encrypts C a l w h)).
Proof.
  intros a. induction l as [|s l IH]; intros w h HV HS; [split; [reflexivity|apply only_refl]|]. inversion HV as [|x y V HV']. subst. inversion HS as [|x y H1 H2]. subst.
  cbn [mw_encrypts map encrypts]. destruct (mw_encrypt C a s w h) as [[o w1] h1] eqn:E. destruct (w_encrypt_mem _ _ _ _ _ _ _ V E) as (A & B & _). rewrite A.
  assert (HV1 : Forall (valid h1) l) by (eapply Forall_impl; [|exact HV']; intros t; apply B).
  assert (HM : map (read h) l = map (read h1) l).
  { apply map_ext_in. intros t Ht. symmetry. apply (only_read _ _ _ _ B); [rewrite Forall_forall in HV'; apply HV'; exact Ht|]. intros x i X. exact (H1 t x i Ht X). }
  destruct (IH w1 h1 HV1 H2) as (I1 & I2). rewrite HM, <- I1. destruct (mw_encrypts C a l w1 h1) as [[os w2] h2]. cbn [fst snd] in *. split; [reflexivity|].
  apply (only_trans _ (fun x i => exists s, In s l /\ after s x i) h h1 h2); [|exact I2|].
  - eapply only_weak; [|exact B]. cbv beta. intros x i X. exists s. split; [left; reflexivity|exact X].
  - cbv beta. intros x i _ (t & T1 & T2). exists t. split; [right; exact T1|exact T2].
Qed.

Lemma decrypt_body_mem : crypto_laws C -> forall k s h o h', valid h s -> mem_decrypt_body C k s h = (o, h') ->
  answer_now h' o = decrypt_cbc C (Some (mk_iv k)) (mk_cipher k) (read h s) /\ only nothing h h' /\ (forall r, o = Ok r -> length h <= sl_arr r /\ valid h' r).
Proof.
  intros L k s h o h' V H. unfold mem_decrypt_body, mem_copy in H. destruct (alloc h (read h s)) as [h1 b] eqn:E. destruct (alloc_spec _ _ _ _ E) as (A & B & D & F).
  destruct (decrypt_cbc_mem L _ _ _ _ _ _ F H) as (G1 & G2 & G3). rewrite B in G1. split; [unfold decrypt_cbc; rewrite <- G1; reflexivity|]. split.
  - eapply only_trans; [exact A|exact G2|]. intros a i Ha (-> & _). destruct D as ((D & _) & _). lia.
  - intros r X. destruct (G3 r X) as (n & N1 & ->). destruct D as ((D1 & D2 & D3) & D4 & _). split; [exact D1|].
    destruct G2 as (_ & G2 & _). destruct (G2 b D4) as (W1 & W2 & W3). unfold valid, take. cbn [sl_arr sl_off sl_len sl_cap]. lia.
Qed.

Definition now_or (h : heap) (o : res mskm) : res skm := match o with Ok m => Ok (skm_now h m) | Err e => Err e | Panic => Panic end.
Lemma group_encrypt_mem : forall st s g h o st' es g' h', valid h s -> mem_group_encrypt C st s g h = (o, st', es, g', h') ->
  group_encrypt C st (read h s) g = (now_or h' o, st', es, g') /\ only (after s) h h' /\ (forall m, o = Ok m -> filled s h' /\ new_in h h' (mm_ct m)).
Proof.
  intros st s g h o st' es g' h' V H. unfold mem_group_encrypt in H. unfold group_encrypt. destruct st as [r|].
  2:{ injection H as <- <- <- <- <-. split; [reflexivity|]. split; [apply only_refl|intros m X; discriminate X]. }
  destruct (g_first r) as [t|e|]; [|injection H as <- <- <- <- <-; split; [reflexivity|]; split; [apply only_refl|intros m X; discriminate X]..].
  destruct (g_message_key C (gs_chain t)) as [k|e|]; [|injection H as <- <- <- <- <-; split; [reflexivity|]; split; [apply only_refl|intros m X; discriminate X]..].
  destruct (mem_encrypt_cbc C _ _ s [] h) as [[o1 h1] g1] eqn:E. destruct (encrypt_fixed_mem _ _ _ _ _ _ _ V E) as (A & B & D & F). rewrite <- A.
  destruct o1 as [ct|e|]; cbn [answer_now]; [|injection H as <- <- <- <- <-; split; [reflexivity|]; split; [exact B|intros m X; discriminate X]..].
  destruct (new_sender_key_message C (gs_id t) (gm_iter k) (read h1 ct) (kp_priv (gs_signing t)) g) as [[m|e|] g2] eqn:EM;
    injection H as <- <- <- <- <-; [|split; [reflexivity|]; split; [exact B|intros x X; discriminate X]..].
  split; [|split; [exact B|intros x X; injection X as <-; split; [exact D|apply F; reflexivity]]].
  cbn [now_or]. unfold skm_now. cbn [mm_id mm_iter mm_ct mm_version mm_sig]. assert (EC : km_ct m = Some (read h1 ct)).
  { unfold new_sender_key_message in EM. destruct (kp_priv (gs_signing t)) as [pr|]; [|discriminate EM]. destruct (calculate_signature C pr _ g) as [sg g3]. cbv zeta in EM.
    apply (f_equal fst) in EM. cbn [fst] in EM. injection EM as <-. reflexivity. }
  rewrite <- EC. destruct m as [i1 i2 i3 i4 i5]. reflexivity.
Qed.

Lemma group_decrypt_mem : crypto_laws C -> forall st m h o st' es h', valid h (mm_ct m) -> mem_group_decrypt C st m h = (o, st', es, h') ->
  group_decrypt C st (skm_now h m) = (answer_now h' o, skm_now h' m, st', es) /\ only (inside (mm_ct m)) h h' /\
  (forall r, o = Ok r -> exists n, n <= sl_len (mm_ct m) /\ r = take n (mm_ct m)).
Proof.
  intros L st m h o st' es h' V H. unfold mem_group_decrypt in H. unfold group_decrypt. cbn [skm_now km_id km_iter].
  assert (K : forall o1 st1 es1, (forall pt, o1 <> Ok pt) -> (o1, st1, es1, h) = (o, st', es, h') ->
    (answer_now h o1, skm_now h m, st1, es1) = (answer_now h' o, skm_now h' m, st', es) /\ only (inside (mm_ct m)) h h' /\ (forall r, o = Ok r -> exists n, n <= sl_len (mm_ct m) /\ r = take n (mm_ct m))).
  { intros o1 st1 es1 HN X. injection X as <- <- <- <-. split; [reflexivity|]. split; [apply only_refl|]. intros r X. destruct (HN _ X). }
  destruct st as [r|]; [|refine (K Panic None [] _ H); intros pt X; discriminate X]. destruct r as [|s0 r]; [refine (K (Err ENoSenderKey) _ [] _ H); intros pt X; discriminate X|].
  destruct (g_by_id (mm_id m) (s0 :: r)) as [s|e|]; [|refine (K (Err e) _ [] _ H); intros pt X; discriminate X|refine (K Panic _ [] _ H); intros pt X; discriminate X].
  destruct (negb (verify_signature C _ _ _)); [refine (K (Err EVerification) _ [] _ H); intros pt X; discriminate X|].
  destruct (g_get_key C s (mm_iter m)) as [[k|e|] s']; [|refine (K (Err e) _ [] _ H); intros pt X; discriminate X|refine (K Panic _ [] _ H); intros pt X; discriminate X].
  change (skm_body (skm_now h m)) with (read h (mm_ct m)).
  cbv zeta in H |- *. destruct (mem_decrypt_cbc C (Some (gm_iv k)) (gm_cipher k) (mm_ct m) h) as [o1 h1] eqn:E. destruct (decrypt_cbc_mem L _ _ _ _ _ _ V E) as (A & B & D).
  rewrite <- A. destruct o1 as [pt|e|]; injection H as <- <- <- <-; (split; [reflexivity|]; split; [exact B|]); [|intros x X; discriminate X..].
  intros x X. injection X as <-. destruct (D pt eq_refl) as (n & N1 & N2). exists n. split; [lia|exact N2].
Qed.

Lemma cipher_encrypt_mem : forall iv key s h o h', valid h s -> mem_cipher_encrypt C iv key s h = (o, h') ->
  answer_now h' o = cipher_encrypt C iv key (read h s) /\ only nothing h h' /\ (forall r, o = Ok r -> new_in h h' r).
Proof.
  intros iv key s h o h' V H. unfold mem_cipher_encrypt in H. unfold cipher_encrypt.
  destruct (negb (aes_key_ok key)); [injection H as <- <-; split; [reflexivity|]; split; [apply only_refl|intros r X; discriminate X]|].
  destruct (pkcs7_pad (read h s) 16) as [p|e|]; [|injection H as <- <-; split; [reflexivity|]; split; [apply only_refl|intros r X; discriminate X]..].
  destruct (alloc h p) as [h1 t] eqn:E1. destruct (alloc_spec _ _ _ _ E1) as (A & B & D & F).
  destruct (negb (length iv =? 16)); [injection H as <- <-; split; [reflexivity|]; split; [exact A|intros r X; discriminate X]|].
  destruct (alloc h1 _) as [h2 u] eqn:E2 in H. destruct (alloc_spec _ _ _ _ E2) as (A2 & B2 & D2 & F2). injection H as <- <-. split; [cbn [answer_now]; rewrite B2; reflexivity|]. split.
  - eapply only_trans; [exact A|exact A2|]. intros a i _ X. exact X.
  - intros r X. injection X as <-. eapply new_in_before; [exact (proj1 A)|exact D2].
Qed.
Lemma unpad7_prefix : forall l p, pkcs7_unpad l 16 = Ok p -> p = firstn (length p) l /\ length p <= length l.
Proof.
  intros l p H. unfold pkcs7_unpad in H. destruct (16 <=? 0)%Z; [discriminate H|]. destruct (length l =? 0); [discriminate H|]. destruct (negb _); [discriminate H|].
  destruct (rev l) as [|c r]; [discriminate H|]. cbv zeta in H. destruct (_ || _)%bool; [discriminate H|]. destruct (forallb _ _); [|discriminate H]. injection H as <-.
  rewrite firstn_length. split; [|lia]. f_equal. lia.
Qed.
Lemma cipher_decrypt_mem : crypto_laws C -> forall iv key s h o h', valid h s -> mem_cipher_decrypt C iv key s h = (o, h') ->
  answer_now h' o = cipher_decrypt C iv key (read h s) /\ only (inside s) h h' /\ (forall r, o = Ok r -> exists n, n <= sl_len s /\ r = take n s).
Proof.
  intros L iv key s h o h' V H. unfold mem_cipher_decrypt in H. unfold cipher_decrypt. rewrite (read_length h s V).
  destruct (negb (aes_key_ok key)) eqn:EK; [injection H as <- <-; split; [reflexivity|]; split; [apply only_refl|intros r X; discriminate X]|].
  assert (HK : aes_key_ok key = true) by (destruct (aes_key_ok key); [reflexivity|discriminate EK]).
  destruct (sl_len s <? 16); [injection H as <- <-; split; [reflexivity|]; split; [apply only_refl|intros r X; discriminate X]|].
  destruct (Nat.eqb_spec (length iv) 16) as [HV|]; cbn [negb] in H |- *; [|injection H as <- <-; split; [reflexivity|]; split; [apply only_refl|intros r X; discriminate X]].
  destruct (Nat.eqb_spec (sl_len s mod 16) 0) as [HM|]; cbn [negb] in H |- *; [|injection H as <- <-; split; [reflexivity|]; split; [apply only_refl|intros r X; discriminate X]].
  set (p := cbc_dec C (blocks (read h s)) key iv (read h s)) in *.
  assert (HP : length p = sl_len s).
  { unfold p. rewrite dec_length; [apply read_length; exact V|exact L|exact HV|exact HK|]. unfold blocks. rewrite (read_length h s V). pose proof (Nat.div_mod_eq (sl_len s) 16). lia. }
  destruct (write_slice h s p V HP) as (W1 & W2). cbv zeta in H. set (h2 := write h (sl_arr s) (sl_off s) p) in *. rewrite W2 in H.
  destruct (pkcs7_unpad p 16) as [q|e|] eqn:EU; destruct (proj1 (pair_equal_spec _ _ _ _) H) as [<- <-]; (split; [|split; [exact W1|]]); try reflexivity; try (intros r X; discriminate X).
  - destruct (unpad7_prefix _ _ EU) as (U1 & U2). cbn [answer_now]. rewrite read_take by lia. rewrite W2, <- U1. reflexivity.
  - intros r X. injection X as <-. destruct (unpad7_prefix _ _ EU) as (U1 & U2). eexists. split; [|reflexivity]. lia.
Qed.
End Calls.
