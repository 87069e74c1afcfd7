(** GroupProofs.v: lemmas for C32-C37. *)
From Verif Require Import Base Labels Crypto Bytehelper Ecc Cbc Messages SessionState Group GroupSpec WireProofs CodecProofs CodecProofs2
  CryptoProofs SerialProofs MiscProofs.
From Coq Require Import Lia ZifyBool ZifyN ZifyNat.

(** * Lists *)

Lemma last_n_all : forall {A} n (l : list A), (length l <= n)%nat -> last_n n l = l.
Proof. intros A n l H. unfold last_n. replace (length l - n)%nat with 0%nat by lia. reflexivity. Qed.

Lemma last_n_app : forall {A} n (a b : list A), last_n n (last_n n a ++ b) = last_n n (a ++ b).
Proof.
  intros A n a b. unfold last_n. rewrite !app_length, skipn_length.
  replace (skipn (length a - n) a ++ b) with (skipn (length a - n) (a ++ b)).
  - rewrite <- skipn_add. f_equal. lia.
  - rewrite skipn_app. replace (length a - n - length a)%nat with 0%nat by lia. reflexivity.
Qed.

Lemma last_n_length : forall {A} n (l : list A), (length (last_n n l) <= n)%nat.
Proof. intros A n l. unfold last_n. rewrite skipn_length. lia. Qed.

Lemma last_n_in : forall {A} n (l : list A) x, In x (last_n n l) -> In x l.
Proof. intros A n l x H. rewrite <- (firstn_skipn (length l - n) l). apply in_or_app. right. exact H. Qed.

Lemma last_n_map : forall {A B} (f : A -> B) n l, map f (last_n n l) = last_n n (map f l).
Proof. intros A B f n l. unfold last_n. rewrite map_length. generalize (length l - n)%nat. intros k. revert l.
  induction k as [|k IH]; intros [|x l]; cbn; auto. Qed.

Lemma last_n_nodup : forall {A} n (l : list A), NoDup l -> NoDup (last_n n l).
Proof.
  intros A n l H. unfold last_n. rewrite <- (firstn_skipn (length l - n) l) in H. revert H.
  generalize (firstn (length l - n) l) (skipn (length l - n) l). intros a b. induction a as [|x a IH]; intros H; [exact H|].
  apply IH. inversion H. assumption.
Qed.

Lemma tl_last : forall {A} (l : list A) n, (length l = S n)%nat -> tl l = last_n n l.
Proof. intros A l n H. unfold last_n. replace (length l - n)%nat with 1%nat by lia. destruct l; reflexivity. Qed.

Lemma nodup_app_both : forall {A} (a b : list A), NoDup a -> NoDup b -> (forall x, In x a -> ~ In x b) -> NoDup (a ++ b).
Proof.
  induction a as [|x a IH]; intros b Ha Hb HD; [exact Hb|]. inversion Ha; subst. cbn. constructor.
  - intros HI. apply in_app_or in HI. destruct HI as [HI|HI]; [auto|]. apply (HD x); [left; reflexivity|exact HI].
  - apply IH; auto. intros y Hy. apply HD. right. exact Hy.
Qed.

(** * The cap on stored keys *)

Lemma add_key_keys : forall k s, (length (gs_keys s) <= max_group_keys)%nat ->
  g_add_key k s = gset_keys (last_n max_group_keys (gs_keys s ++ [k])) s.
Proof.
  intros k s H. unfold g_add_key. f_equal. destruct (Nat.ltb_spec max_group_keys (length (gs_keys s ++ [k]))) as [L|L].
  - apply tl_last. rewrite app_length in *. cbn [length] in *. lia.
  - symmetry. apply last_n_all. exact L.
Qed.

Lemma add_key_bound : forall k s, (length (gs_keys s) <= max_group_keys)%nat -> (length (gs_keys (g_add_key k s)) <= max_group_keys)%nat.
Proof. intros k s H. rewrite add_key_keys by exact H. apply last_n_length. Qed.

Section Laws.
Context (C : crypto) (L : crypto_laws C).

(** The message key of a chain position. *)
Definition gmk (ck : gchain) : gmsg_key :=
  let d := hkdf_bytes C (g_derivative C [x01] (gc_key ck)) None group_kdf_info 48 in
  {| gm_iter := gc_iter ck; gm_iv := firstn 16 d; gm_cipher := take_pad 32 (skipn 16 d);
     gm_seed := g_derivative C [x01] (gc_key ck) |}.

Lemma message_key_ok : forall ck, g_message_key C ck = Ok (gmk ck).
Proof.
  intros ck. unfold g_message_key, new_gmsg_key, derive_secrets.
  change (N.of_nat 48 <=? 255 * 32)%N with true. cbv iota. unfold bind. unfold split_two.
  assert (HL := hkdf_bytes_length C (g_derivative C [x01] (gc_key ck)) None group_kdf_info 48 (law_hmac_len C L)).
  rewrite HL. reflexivity.
Qed.

Lemma gmk_sizes : forall ck, length (gm_iv (gmk ck)) = 16%nat /\ length (gm_cipher (gmk ck)) = 32%nat.
Proof.
  intros ck. unfold gmk. cbn [gm_iv gm_cipher].
  assert (HL := hkdf_bytes_length C (g_derivative C [x01] (gc_key ck)) None group_kdf_info 48 (law_hmac_len C L)).
  split; [rewrite firstn_length, HL; reflexivity|apply take_pad_length].
Qed.

(** Chain positions. *)
Definition gck (k : nat) (ck : gchain) : gchain := Nat.iter k (g_next C) ck.

Lemma gck_S : forall k ck, gck (S k) ck = gck k (g_next C ck).
Proof. intros k ck. unfold gck. induction k as [|k IH]; [reflexivity|]. cbn [Nat.iter nat_rect] in *. rewrite IH. reflexivity. Qed.

Lemma gck_add : forall a b ck, gck (a + b) ck = gck b (gck a ck).
Proof. induction a as [|a IH]; intros b ck; [reflexivity|]. cbn [Nat.add]. rewrite !gck_S. apply IH. Qed.

Lemma gck_iter : forall k ck, (gc_iter ck + N.of_nat k < u32_modulus)%N -> gc_iter (gck k ck) = (gc_iter ck + N.of_nat k)%N.
Proof.
  induction k as [|k IH]; intros ck H; [cbn; lia|]. rewrite gck_S.
  assert (E : gc_iter (g_next C ck) = (gc_iter ck + 1)%N) by (cbn [g_next gc_iter]; apply u32_add_small; lia).
  rewrite IH; rewrite E; lia.
Qed.

(** The keys of [k] consecutive positions. *)
Definition gkeys (k : nat) (ck : gchain) : list gmsg_key := map (fun i => gmk (gck i ck)) (seq 0 k).

Lemma gkeys_S : forall k ck, gkeys (S k) ck = gmk ck :: gkeys k (g_next C ck).
Proof.
  intros k ck. unfold gkeys. cbn [seq map]. f_equal. rewrite <- seq_shift, map_map. apply map_ext. intros i.
  rewrite gck_S. reflexivity.
Qed.

Lemma gkeys_iters : forall k ck, (gc_iter ck + N.of_nat k < u32_modulus)%N -> map gm_iter (gkeys k ck) = n_range (gc_iter ck) k.
Proof.
  intros k ck H. unfold gkeys, n_range. rewrite map_map. apply map_ext_in. intros i Hi. apply in_seq in Hi.
  cbn [gmk gm_iter]. apply gck_iter. lia.
Qed.

Lemma n_range_in : forall a k x, In x (n_range a k) -> (a <= x < a + N.of_nat k)%N.
Proof. intros a k x H. unfold n_range in H. apply in_map_iff in H. destruct H as (i & <- & Hi). apply in_seq in Hi. lia. Qed.

Lemma n_range_nodup : forall a k, NoDup (n_range a k).
Proof.
  intros a k. unfold n_range. apply FinFun.Injective_map_NoDup; [|apply seq_NoDup]. intros x y H. lia.
Qed.

Lemma gset_keys_same : forall s, gset_keys (gs_keys s) s = s.
Proof. intros []. reflexivity. Qed.

Lemma skip_ok : forall k ck s, (gc_iter ck + N.of_nat k < u32_modulus)%N -> (length (gs_keys s) <= max_group_keys)%nat ->
  g_skip C k (gc_iter ck + N.of_nat k) ck s = (Ok (gck k ck), gset_keys (last_n max_group_keys (gs_keys s ++ gkeys k ck)) s).
Proof.
  induction k as [|k IH]; intros ck s H HL.
  - cbn [g_skip]. unfold gkeys. cbn [seq map]. rewrite app_nil_r, last_n_all by exact HL. rewrite gset_keys_same. reflexivity.
  - cbn [g_skip]. replace (gc_iter ck <? gc_iter ck + N.of_nat (S k))%N with true by lia. rewrite message_key_ok.
    assert (E : gc_iter (g_next C ck) = (gc_iter ck + 1)%N) by (cbn [g_next gc_iter]; apply u32_add_small; lia).
    replace (gc_iter ck + N.of_nat (S k))%N with (gc_iter (g_next C ck) + N.of_nat k)%N by lia.
    rewrite IH; [|lia|apply add_key_bound; exact HL].
    rewrite gck_S, gkeys_S. f_equal. rewrite add_key_keys by exact HL. unfold gset_keys. cbn [gs_keys gs_id gs_chain gs_signing].
    rewrite last_n_app, <- app_assoc. reflexivity.
Qed.

(** GetSenderKey, all cases. *)
Lemma get_key_new : forall s n, (gc_iter (gs_chain s) <= n)%N -> (n < u32_modulus)%N -> (length (gs_keys s) <= max_group_keys)%nat ->
  (n - gc_iter (gs_chain s) <= 2000)%N ->
  let k := N.to_nat (n - gc_iter (gs_chain s)) in
  g_get_key C s n = (Ok (gmk (gck k (gs_chain s))),
    gset_chain (gck (S k) (gs_chain s)) (gset_keys (last_n max_group_keys (gs_keys s ++ gkeys k (gs_chain s))) s)).
Proof.
  intros s n H Hn HL HJ k. unfold g_get_key. replace (n <? gc_iter (gs_chain s))%N with false by lia.
  rewrite u32_sub_small by assumption. unfold group_max_future.
  replace (2000 <? n - gc_iter (gs_chain s))%N with false by lia.
  assert (E : n = (gc_iter (gs_chain s) + N.of_nat k)%N) by (unfold k; lia). fold k. rewrite E at 1. rewrite skip_ok; [|lia|exact HL].
  rewrite message_key_ok. reflexivity.
Qed.

Lemma get_key_far : forall s n, (n < u32_modulus)%N -> (gc_iter (gs_chain s) + 2000 < n)%N -> g_get_key C s n = (Err EOver2000, s).
Proof.
  intros s n Hn H. unfold g_get_key. replace (n <? gc_iter (gs_chain s))%N with false by lia.
  rewrite u32_sub_small by lia. unfold group_max_future. replace (2000 <? n - gc_iter (gs_chain s))%N with true by lia. reflexivity.
Qed.

Lemma has_key_in : forall n s, g_has_key n s = true <-> In n (map gm_iter (gs_keys s)).
Proof.
  intros n s. unfold g_has_key. rewrite existsb_exists, in_map_iff. split.
  - intros (k & HI & E). exists k. split; [lia|exact HI].
  - intros (k & E & HI). exists k. split; [exact HI|lia].
Qed.

Lemma remove_some : forall n l, In n (map gm_iter l) -> exists a k b, l = a ++ k :: b /\ gm_iter k = n /\ ~ In n (map gm_iter a) /\
  g_remove n l = Some (k, a ++ b).
Proof.
  induction l as [|x l IH]; intros H; [destruct H|]. cbn [g_remove]. destruct (N.eqb_spec (gm_iter x) n) as [E|E].
  - exists [], x, l. cbn. auto.
  - destruct H as [H|H]; [congruence|]. destruct (IH H) as (a & k & b & -> & E1 & E2 & E3). exists (x :: a), k, b. rewrite E3.
    repeat split; auto. cbn. intros [HF|HF]; [congruence|auto].
Qed.

Lemma get_key_old : forall s n, (n < gc_iter (gs_chain s))%N ->
  (~ In n (map gm_iter (gs_keys s)) /\ g_get_key C s n = (Err EGroupOldCounter, s)) \/
  exists a k b, gs_keys s = a ++ k :: b /\ gm_iter k = n /\ ~ In n (map gm_iter a) /\ g_get_key C s n = (Ok k, gset_keys (a ++ b) s).
Proof.
  intros s n H. unfold g_get_key. replace (n <? gc_iter (gs_chain s))%N with true by lia.
  destruct (g_has_key n s) eqn:E.
  - right. apply has_key_in in E. destruct (remove_some _ _ E) as (a & k & b & E1 & E2 & E3 & E4). exists a, k, b. rewrite E4. auto.
  - left. split; [|reflexivity]. rewrite <- has_key_in, E. discriminate.
Qed.

(** * Invariant *)

Definition gwf (s : gstate) : Prop :=
  NoDup (map gm_iter (gs_keys s)) /\ (forall n, In n (map gm_iter (gs_keys s)) -> (n < gc_iter (gs_chain s))%N) /\
  (gc_iter (gs_chain s) < u32_modulus)%N /\ (length (gs_keys s) <= max_group_keys)%nat.

(** Iteration [n] can not be read any more. *)
Definition spent (n : N) (s : gstate) : Prop := (n < gc_iter (gs_chain s))%N /\ ~ In n (map gm_iter (gs_keys s)).

Lemma get_key_id : forall s n o s', g_get_key C s n = (o, s') -> gs_id s' = gs_id s /\ gs_signing s' = gs_signing s.
Proof.
  assert (K : forall f n ck s o s', g_skip C f n ck s = (o, s') -> gs_id s' = gs_id s /\ gs_signing s' = gs_signing s).
  { induction f as [|f IH]; intros n ck s o s' H; cbn [g_skip] in H; [injection H as _ <-; auto|].
    destruct (gc_iter ck <? n)%N; [|injection H as _ <-; auto]. destruct (g_message_key C ck); try (injection H as _ <-; auto).
    apply IH in H. exact H. }
  intros s n o s' H. unfold g_get_key in H. destruct (n <? gc_iter (gs_chain s))%N.
  - destruct (g_has_key n s); [|injection H as _ <-; auto]. destruct (g_remove n (gs_keys s)) as [[k l]|]; injection H as _ <-; auto.
  - destruct (group_max_future <? _)%N; [injection H as _ <-; auto|].
    destruct (g_skip C _ n (gs_chain s) s) as [[ck| |] s1] eqn:E; apply K in E; injection H as _ <-; exact E.
Qed.

Lemma get_key_cases : forall s n o s', gwf s -> g_no_wrap n -> g_get_key C s n = (o, s') ->
  gwf s' /\ (gc_iter (gs_chain s) <= gc_iter (gs_chain s'))%N /\
  (forall x, (x < gc_iter (gs_chain s))%N -> In x (map gm_iter (gs_keys s')) -> In x (map gm_iter (gs_keys s))) /\
  ((exists k, o = Ok k /\ gm_iter k = n) /\ spent n s' /\ ~ spent n s \/ (exists e, o = Err e) /\ s' = s).
Proof.
  intros s n o s' (W1 & W2 & W3 & W4) Hn H. unfold g_no_wrap in Hn.
  destruct (N.lt_ge_cases n (gc_iter (gs_chain s))) as [HO|HO].
  - destruct (get_key_old s n HO) as [(HI & E)|(a & k & b & E1 & E2 & E3 & E)]; rewrite E in H; injection H as <- <-.
    + split; [split; auto|]. split; [lia|]. split; [auto|]. right. split; [eauto|reflexivity].
    + cbn [gset_keys gs_keys gs_chain]. rewrite E1, map_app in W1. cbn [map] in W1. rewrite E2 in W1.
      assert (HS : forall x, In x (map gm_iter (a ++ b)) -> In x (map gm_iter (gs_keys s))).
      { intros x Hx. rewrite E1, map_app in *. apply in_or_app. apply in_app_or in Hx. destruct Hx; [auto|right; right; exact H]. }
      assert (HN : ~ In n (map gm_iter (a ++ b))).
      { intros HI. apply NoDup_remove_2 in W1. rewrite map_app in HI. exact (W1 HI). }
      split.
      { split; [cbn [gset_keys gs_keys]; rewrite map_app; apply NoDup_remove_1 in W1; exact W1|]. cbn [gset_keys gs_keys gs_chain].
        split; [auto|]. split; [exact W3|]. rewrite E1 in W4. rewrite app_length in *. cbn [length] in W4. lia. }
      split; [lia|]. split; [auto|]. left. split; [exists k; auto|]. split.
      * split; [exact HO|exact HN].
      * intros [_ HF]. apply HF. rewrite E1, map_app. apply in_or_app. right. left. exact E2.
  - destruct (N.le_gt_cases (n - gc_iter (gs_chain s)) 2000) as [HJ|HJ].
    + assert (Hu : (n < u32_modulus)%N) by (unfold u32_modulus; lia).
      rewrite (get_key_new s n HO Hu W4 HJ) in H. symmetry in H.
      assert (EO := f_equal fst H). assert (ES := f_equal snd H). cbn [fst snd] in EO, ES. clear H. subst o s'. set (k := N.to_nat (n - gc_iter (gs_chain s))) in *.
      assert (Hk : (gc_iter (gs_chain s) + N.of_nat k = n)%N) by (unfold k; lia).
      assert (EI : gc_iter (gck (S k) (gs_chain s)) = (n + 1)%N) by (rewrite gck_iter; unfold u32_modulus in *; lia).
      assert (EK : map gm_iter (gs_keys s ++ gkeys k (gs_chain s)) = map gm_iter (gs_keys s) ++ n_range (gc_iter (gs_chain s)) k).
      { rewrite map_app, gkeys_iters by lia. reflexivity. }
      assert (HIN : forall x, In x (map gm_iter (last_n max_group_keys (gs_keys s ++ gkeys k (gs_chain s)))) ->
        In x (map gm_iter (gs_keys s)) \/ (gc_iter (gs_chain s) <= x < n)%N).
      { intros x Hx. rewrite last_n_map in Hx. apply last_n_in in Hx. rewrite EK in Hx. apply in_app_or in Hx.
        destruct Hx as [Hx|Hx]; [auto|]. right. apply n_range_in in Hx. lia. }
      split; [split|]; [|cbn [gset_keys gset_chain gs_keys gs_chain]; rewrite EI; split; [|split]|cbn [gset_keys gset_chain gs_keys gs_chain]; rewrite EI; split; [|split]].
      * cbn [gset_keys gset_chain gs_keys]. rewrite last_n_map. apply last_n_nodup. rewrite EK. apply nodup_app_both; [exact W1|apply n_range_nodup|].
        intros x Hx Hr. apply W2 in Hx. apply n_range_in in Hr. lia.
      * intros x Hx. apply HIN in Hx. destruct Hx as [Hx|Hx]; [apply W2 in Hx|]; lia.
      * unfold u32_modulus. lia.
      * apply last_n_length.
      * lia.
      * intros x Hx Hi. apply HIN in Hi. destruct Hi as [Hi|Hi]; [exact Hi|lia].
      * left. split; [exists (gmk (gck k (gs_chain s))); split; [reflexivity|]; cbn [gmk gm_iter]; rewrite gck_iter; lia|]. split.
        -- split; cbn [gset_keys gset_chain gs_keys gs_chain]; [rewrite EI; lia|]. intros Hi. apply HIN in Hi. destruct Hi as [Hi|Hi]; [apply W2 in Hi|]; lia.
        -- intros [HF _]. lia.
    + assert (Hu : (n < u32_modulus)%N) by (unfold u32_modulus; lia). rewrite get_key_far in H by lia. injection H as <- <-.
      split; [split; auto|]. split; [lia|]. split; [auto|]. right. split; [eauto|reflexivity].
Qed.

Lemma spent_kept : forall s n o s' x, gwf s -> g_no_wrap n -> g_get_key C s n = (o, s') -> spent x s -> spent x s'.
Proof.
  intros s n o s' x W Hn H [S1 S2]. destruct (get_key_cases _ _ _ _ W Hn H) as (_ & A & B & _). split; [lia|]. intros HI. apply S2. apply B; auto.
Qed.

Lemma spent_blocks : forall s n, spent n s -> g_get_key C s n = (Err EGroupOldCounter, s).
Proof.
  intros s n [S1 S2]. destruct (get_key_old s n S1) as [[_ E]|(a & k & b & E1 & E2 & _)]; [exact E|].
  exfalso. apply S2. rewrite E1, map_app. apply in_or_app. right. left. exact E2.
Qed.

(** * Records *)

Definition by_id (id : N) (r : grecord) : option gstate := find (fun s => (gs_id s =? id)%N) r.

Lemma by_id_spec : forall id r, g_by_id id r = match by_id id r with Some s => Ok s | None => Err ENoSenderKeyForId end.
Proof. reflexivity. Qed.

Lemma by_id_in : forall id r s, by_id id r = Some s -> In s r /\ gs_id s = id.
Proof. intros id r s H. apply find_some in H. destruct H as [H E]. split; [exact H|lia]. Qed.

Lemma upd_id_same : forall id s' r s, by_id id r = Some s -> gs_id s' = id -> by_id id (g_upd_id id s' r) = Some s'.
Proof.
  intros id s' r. induction r as [|x r IH]; intros s H E; [discriminate|]. unfold by_id in *. cbn [find g_upd_id] in *.
  destruct (gs_id x =? id)%N eqn:EX; cbn [find].
  - replace (gs_id s' =? id)%N with true by lia. reflexivity.
  - rewrite EX. eapply IH; eauto.
Qed.

Lemma upd_id_other : forall id id' s' r, gs_id s' = id' -> id <> id' -> by_id id (g_upd_id id' s' r) = by_id id r.
Proof.
  intros id id' s' r E HN. induction r as [|x r IH]; [reflexivity|]. unfold by_id in *. cbn [g_upd_id].
  destruct (N.eqb_spec (gs_id x) id') as [EX|EX]; cbn [find].
  - replace (gs_id s' =? id)%N with false by lia. replace (gs_id x =? id)%N with false by lia. reflexivity.
  - destruct (gs_id x =? id)%N; [reflexivity|exact IH].
Qed.

Lemma upd_id_forall : forall (P : gstate -> Prop) id s' r, Forall P r -> P s' -> Forall P (g_upd_id id s' r).
Proof.
  intros P id s' r H HP. induction H as [|x r Hx Hr IH]; cbn [g_upd_id]; [constructor|]. destruct (gs_id x =? id)%N; constructor; auto.
Qed.

Lemma upd_id_length : forall id s' r, length (g_upd_id id s' r) = length r.
Proof. intros id s' r. induction r as [|x r IH]; [reflexivity|]. cbn [g_upd_id]. destruct (gs_id x =? id)%N; cbn; auto. Qed.

(** Decrypt, all cases. *)
Lemma group_decrypt_cases : forall r m o m' r' es, group_decrypt C (Some r) m = (o, m', Some r', es) ->
  ((forall pt, o <> Ok pt) /\ r' = r /\ m' = m /\ es = []) \/
  exists s s' ok, by_id (km_id m) r = Some s /\
    verify_signature C (kp_pub (gs_signing s)) (skm_unsigned m) (skm_signature m) = true /\
    g_get_key C s (km_iter m) = (ok, s') /\ r' = g_upd_id (km_id m) s' r /\
    (((forall pt, o <> Ok pt) /\ es = []) \/
     exists k pt, ok = Ok k /\ o = Ok pt /\ decrypt_cbc C (Some (gm_iv k)) (gm_cipher k) (skm_body m) = Ok pt /\ es = [StoreSenderKey r']).
Proof.
  intros r m o m' r' es H. unfold group_decrypt in H. destruct r as [|s0 r0].
  - injection H as <- <- <- <-. left. repeat split; discriminate.
  - rewrite by_id_spec in H. destruct (by_id (km_id m) (s0 :: r0)) as [s|] eqn:EB; [|injection H as <- <- <- <-; left; repeat split; discriminate].
    destruct (verify_signature C (kp_pub (gs_signing s)) (skm_unsigned m) (skm_signature m)) eqn:EV; cbn [negb] in H;
      [|injection H as <- <- <- <-; left; repeat split; discriminate].
    destruct (g_get_key C s (km_iter m)) as [ok s'] eqn:EG.
    right. exists s, s', ok. split; [reflexivity|]. split; [exact EV|]. split; [exact EG|]. destruct ok as [k|e|].
    + destruct (decrypt_cbc_full C (Some (gm_iv k)) (gm_cipher k) (skm_body m)) as [[pt| |] ct'] eqn:ED; injection H as <- <- <- <-; split; try reflexivity.
      * right. exists k, pt. split; [reflexivity|]. split; [reflexivity|]. split; [|reflexivity]. unfold decrypt_cbc. rewrite ED. reflexivity.
      * left. split; [discriminate|reflexivity].
      * left. split; [discriminate|reflexivity].
    + injection H as <- <- <- <-. split; [reflexivity|]. left. split; [discriminate|reflexivity].
    + injection H as <- <- <- <-. split; [reflexivity|]. left. split; [discriminate|reflexivity].
Qed.

Lemma group_encrypt_record : forall r pt g o r' es g', group_encrypt C (Some r) pt g = (o, Some r', es, g') ->
  (r' = r /\ es = [] /\ forall m, o <> Ok m) \/
  exists s rest m, r = s :: rest /\ o = Ok m /\ r' = gset_chain (g_next C (gs_chain s)) s :: rest /\ es = [StoreSenderKey r'].
Proof.
  intros r pt g o r' es g' H. unfold group_encrypt in H. destruct r as [|s rest]; cbn [g_first] in H.
  - injection H as <- <- <- _. left. repeat split; discriminate.
  - destruct (g_message_key C (gs_chain s)) as [k| |]; try (injection H as <- <- <- _; left; repeat split; discriminate).
    destruct (encrypt_cbc C (gm_iv k) (gm_cipher k) pt) as [ct| |]; try (injection H as <- <- <- _; left; repeat split; discriminate).
    destruct (new_sender_key_message C (gs_id s) (gm_iter k) ct (kp_priv (gs_signing s)) g) as [[m| |] g1];
      try (injection H as <- <- <- _; left; repeat split; discriminate).
    injection H as <- <- <- _. right. exists s, rest, m. auto.
Qed.

Lemma greload_map : forall r, greload r = map with_zero_private r.
Proof. intros r. unfold greload. rewrite grecord_roundtrip. reflexivity. Qed.

Lemma by_id_reload : forall id r, by_id id (greload r) = option_map with_zero_private (by_id id r).
Proof.
  intros id r. rewrite greload_map. unfold by_id. induction r as [|s r IH]; [reflexivity|]. cbn [map find with_zero_private gs_id].
  destruct (gs_id s =? id)%N; [reflexivity|exact IH].
Qed.

Lemma gwf_reload : forall s, gwf s -> gwf (with_zero_private s).
Proof. intros s H. exact H. Qed.

Lemma new_gstate_wf : forall id iter chain p, (iter < u32_modulus)%N -> gwf (new_gstate id iter chain p).
Proof. intros id iter chain p H. split; [constructor|]. split; [intros n []|]. split; [exact H|cbn; lia]. Qed.

Lemma next_wf : forall s, gwf s -> g_no_wrap (gc_iter (gs_chain s)) -> gwf (gset_chain (g_next C (gs_chain s)) s) /\
  gc_iter (gs_chain (gset_chain (g_next C (gs_chain s)) s)) = (gc_iter (gs_chain s) + 1)%N.
Proof.
  intros s (W1 & W2 & W3 & W4) H. unfold g_no_wrap in H.
  assert (E : gc_iter (g_next C (gs_chain s)) = (gc_iter (gs_chain s) + 1)%N) by (cbn [g_next gc_iter]; apply u32_add_small; unfold u32_modulus; lia).
  split; [|exact E]. split; [exact W1|]. cbn [gset_chain gs_keys gs_chain]. rewrite E. split; [intros n Hn; apply W2 in Hn; lia|]. split; [unfold u32_modulus; lia|exact W4].
Qed.

(** One step keeps the invariant, and for a given id keeps the state and everything spent in it. *)
Lemma step_wf : forall r r', Forall gwf r -> gstep C g_no_wrap r r' -> Forall gwf r' /\
  forall id s, by_id id r = Some s -> exists s', by_id id r' = Some s' /\ kp_pub (gs_signing s') = kp_pub (gs_signing s) /\ forall x, spent x s -> spent x s'.
Proof.
  intros r r' W H. destruct H as [pt g o r' es g' HQ H|m o m' r' es HQ H|d r' es Hd HL H|].
  - apply group_encrypt_record in H. destruct H as [(-> & _ & _)|(s0 & rest & m & -> & _ & -> & _)].
    + split; [exact W|]. intros id s Hs. exists s. auto.
    + inversion W as [|? ? W0 W']; subst. specialize (HQ s0 eq_refl). destruct (next_wf s0 W0 HQ) as [A B].
      split; [constructor; assumption|]. intros id s Hs. unfold by_id in *. cbn [find gset_chain gs_id] in *. destruct (gs_id s0 =? id)%N.
      * injection Hs as <-. eexists. split; [reflexivity|]. split; [reflexivity|]. intros x [S1 S2]. split; [rewrite B; lia|exact S2].
      * exists s. auto.
  - apply group_decrypt_cases in H. destruct H as [(_ & -> & _)|(s & s' & ok & HB & _ & HG & -> & _)].
    + split; [exact W|]. intros id s Hs. exists s. auto.
    + destruct (by_id_in _ _ _ HB) as [HI Eid]. assert (Ws : gwf s) by (rewrite Forall_forall in W; auto).
      destruct (get_key_cases _ _ _ _ Ws HQ HG) as (W' & _). destruct (get_key_id _ _ _ _ HG) as [Ei Es].
      split; [apply upd_id_forall; assumption|]. intros id t Ht. destruct (N.eq_dec id (km_id m)) as [->|HN].
      * assert (t = s) by congruence. subst t. exists s'. split; [eapply upd_id_same; [exact HB|congruence]|]. split; [rewrite Es; reflexivity|].
        intros x Hx. exact (spent_kept _ _ _ _ _ Ws HQ HG Hx).
      * exists t. split; [rewrite (upd_id_other id (km_id m) s' r); [exact Ht|congruence|exact HN]|]. auto.
  - unfold group_process in H. injection H as <- _. unfold g_add_state.
    destruct (Nat.ltb_spec max_group_keys (length (r ++ [new_gstate (dm_id d) (dm_iter d) (match dm_chain d with Some c => c | None => [] end)
      {| kp_pub := dm_sigkey d; kp_priv := None |}]))) as [L1|L1].
    { exfalso. rewrite app_length in L1. cbn [length] in L1. unfold max_group_keys in L1. lia. }
    split; [apply Forall_app; split; [exact W|constructor; [apply new_gstate_wf; exact Hd|constructor]]|].
    intros id s Hs. exists s. split; [|auto]. unfold by_id in *. clear - Hs. revert Hs. induction r as [|x r IH]; intros Hs; [discriminate|].
    cbn [app find] in *. destruct (gs_id x =? id)%N; [exact Hs|exact (IH Hs)].
  - split.
    + rewrite greload_map. apply Forall_forall. intros s Hs. apply in_map_iff in Hs. destruct Hs as (t & <- & Ht). rewrite Forall_forall in W. exact (W t Ht).
    + intros id s Hs. rewrite by_id_reload, Hs. exists (with_zero_private s). repeat split; try reflexivity; apply H.
Qed.

Lemma reachable_gwf : forall r, greachable C g_no_wrap r -> Forall gwf r.
Proof.
  intros r H. induction H as [|load g o r es g' HE H|r r' HR IH H|r d r' es HR IH Hd H].
  - constructor.
  - unfold group_create in H. rewrite HE in H. destruct (generate_key_pair C g) as [[signing| |] g1].
    + destruct (generate_registration_id g1) as [id g2]. destruct (generate_sender_key g2) as [key g3].
      cbn [g_first g_set_state] in H. injection H as _ <- _ _. constructor; [|constructor]. apply new_gstate_wf. reflexivity.
    + injection H as _ -> _ _. cbn in HE. destruct r; [constructor|discriminate].
    + injection H as _ -> _ _. cbn in HE. destruct r; [constructor|discriminate].
  - exact (proj1 (step_wf _ _ IH H)).
  - unfold group_process in H. injection H as <- _. unfold g_add_state.
    assert (W : Forall gwf (r ++ [new_gstate (dm_id d) (dm_iter d) (match dm_chain d with Some c => c | None => [] end) {| kp_pub := dm_sigkey d; kp_priv := None |}])).
    { apply Forall_app. split; [exact IH|]. constructor; [apply new_gstate_wf; exact Hd|constructor]. }
    destruct (max_group_keys <? _)%nat; [|exact W]. destruct (r ++ _) as [|x l]; [constructor|]. inversion W. assumption.
Qed.

Lemma steps_wf : forall r r', gsteps C g_no_wrap r r' -> Forall gwf r -> Forall gwf r' /\
  forall id s, by_id id r = Some s -> exists s', by_id id r' = Some s' /\ kp_pub (gs_signing s') = kp_pub (gs_signing s) /\ forall x, spent x s -> spent x s'.
Proof.
  intros r r' H. induction H as [r|r r1 r2 H1 H2 IH]; intros W.
  - split; [exact W|]. intros id s Hs. exists s. auto.
  - destruct (step_wf _ _ W H1) as [W1 K1]. destruct (IH W1) as [W2 K2]. split; [exact W2|]. intros id s Hs.
    destruct (K1 id s Hs) as (s1 & E1 & P1 & S1). destruct (K2 id s1 E1) as (s2 & E2 & P2 & S2). exists s2. split; [exact E2|]. split; [congruence|auto].
Qed.

Lemma group_at_most_once : forall r m1 pt m1' r1 es r2 m2, greachable C g_no_wrap r -> g_no_wrap (km_iter m1) ->
  group_decrypt C (Some r) m1 = (Ok pt, m1', Some r1, es) -> gsteps C g_no_wrap r1 r2 ->
  km_id m2 = km_id m1 -> km_iter m2 = km_iter m1 ->
  forall o m2' r3 es2, group_decrypt C (Some r2) m2 = (o, m2', Some r3, es2) -> (forall pt2, o <> Ok pt2) /\ r3 = r2 /\ es2 = [].
Proof.
  intros r m1 pt m1' r1 es r2 m2 HR Hn HD HS Eid Ei o m2' r3 es2 HD2. assert (W := reachable_gwf _ HR).
  apply group_decrypt_cases in HD. destruct HD as [(HF & _)|(s & s' & ok & HB & _ & HG & -> & [(HF & _)|(k & p & -> & _)])];
    [exfalso; exact (HF pt eq_refl)|exfalso; exact (HF pt eq_refl)|].
  destruct (by_id_in _ _ _ HB) as [HI Es]. assert (Ws : gwf s) by (rewrite Forall_forall in W; auto).
  destruct (get_key_cases _ _ _ _ Ws Hn HG) as (W' & _ & _ & [(_ & HSp & _)|((e & HE) & _)]); [|discriminate].
  destruct (get_key_id _ _ _ _ HG) as [Eg _].
  assert (HB1 : by_id (km_id m1) (g_upd_id (km_id m1) s' r) = Some s') by (eapply upd_id_same; [exact HB|congruence]).
  destruct (steps_wf _ _ HS (upd_id_forall _ _ _ _ W W')) as [W2 K2]. destruct (K2 _ _ HB1) as (s2 & HB2 & _ & KS). specialize (KS _ HSp).
  apply group_decrypt_cases in HD2. destruct HD2 as [(HF & E1 & _ & E2)|(t & t' & ok2 & HB3 & _ & HG2 & E1 & HO)]; [auto|].
  rewrite Eid in *. assert (t = s2) by congruence. subst t. rewrite Ei, (spent_blocks _ _ KS) in HG2. injection HG2 as <- <-.
  assert (EU : g_upd_id (km_id m1) s2 r2 = r2).
  { clear - HB2. revert HB2. unfold by_id. induction r2 as [|x r2 IH]; intros H; [reflexivity|]. cbn [find g_upd_id] in *.
    destruct (gs_id x =? km_id m1)%N; [congruence|]. rewrite IH by exact H. reflexivity. }
  destruct HO as [(HF & E2)|(k2 & p2 & HE & _)]; [|discriminate]. split; [exact HF|]. split; [congruence|exact E2].
Qed.

End Laws.
