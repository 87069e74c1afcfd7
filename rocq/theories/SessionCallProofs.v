(** SessionCallProofs.v: proofs for C80. *)
From Verif Require Import Base Labels Crypto Bytehelper Ecc Cbc Wire Itoa Keys X3dh Messages SessionState SessionRecord SessionBuilder SessionCipher Address World
  WireFormatSpec WireGrammarSpec BodySpec GroupSpec SessionCallSpec
  CryptoProofs WireProofs CodecProofs CodecProofs2 SessionProofs SerialProofs SessionSpec HistoryProofs InvariantProofs ReplayProofs OpsProofs KdfProofs GroupProofs GroupWireProofs
  BodyProofs WireGrammarProofs WireFateProofs ConvProofs ReopenSpec ReopenProofs.
From Coq Require Import NArith ZArith List Lia ZifyBool ZifyN ZifyNat.
Import ListNotations.

(** * Receiving chains *)
Lemma chain_at_find : forall k l a c b, chain_at k l a c b -> find (chain_is k) l = Some c /\ forall f, upd_first k f l = a ++ f c :: b.
Proof.
  intros k l a c b (-> & H1 & H2). induction a as [|x a IH]; cbn [app find upd_first].
  - rewrite (proj2 (chain_is_eq k c) H1). split; [reflexivity|]. intros f. reflexivity.
  - destruct (chain_is k x) eqn:E; [destruct (H2 x (or_introl eq_refl) (proj1 (chain_is_eq k x) E))|].
    destruct (IH (fun y Hy => H2 y (or_intror Hy))) as [I1 I2]. split; [exact I1|]. intros f. rewrite I2. reflexivity.
Qed.
Lemma find_chain_at : forall k l c, find (chain_is k) l = Some c -> exists a b, chain_at k l a c b.
Proof.
  intros k l c. induction l as [|x l IH]; [discriminate|]. cbn [find]. destruct (chain_is k x) eqn:E.
  - intros H. injection H as <-. exists [], l. split; [reflexivity|]. split; [exact (proj1 (chain_is_eq k x) E)|]. intros y [].
  - intros H. destruct (IH H) as (a & b & -> & H1 & H2). exists (x :: a), b. split; [reflexivity|]. split; [exact H1|].
    intros y [<-|Hy]; [|exact (H2 y Hy)]. intros E'. rewrite (proj2 (chain_is_eq k x) E') in E. discriminate E.
Qed.
Lemma no_chain_find : forall k l, no_chain k l <-> find (chain_is k) l = None.
Proof.
  intros k l. split.
  - intros H. destruct (find (chain_is k) l) as [c|] eqn:E; [|reflexivity]. destruct (find_some _ _ E) as [H1 H2].
    destruct (H c H1 (proj1 (chain_is_eq k c) H2)).
  - intros H x Hx E. pose proof (find_none _ _ H x Hx) as F. rewrite (proj2 (chain_is_eq k x) E) in F. discriminate F.
Qed.
Lemma with_chains_set : forall s l, with_chains s l = set_recv l s.
Proof. reflexivity. Qed.
Lemma upd_chain_at : forall k s a c b f, chain_at k (s_recv s) a c b -> upd_chain k f s = with_chains s (a ++ f c :: b).
Proof. intros k s a c b f H. unfold upd_chain. rewrite (proj2 (chain_at_find _ _ _ _ _ H) f). reflexivity. Qed.

Section P.
Context (C : crypto) (L : crypto_laws C).
Let HL := law_hmac_len C L.

(** * Keys are determined by the description *)
Lemma root_step_det : forall root dh r c r' c', root_step C root dh r c -> root_step C root dh r' c' -> r = r' /\ c = c'.
Proof.
  intros root dh r c r' c' (A & B & D) (A' & B' & D'). pose proof (hkdf_output_det _ _ _ _ _ _ _ D D') as H.
  apply split2 in H; [exact H|rewrite A, A'; reflexivity].
Qed.
Lemma x3dh_det : forall secret r c r' c', x3dh_output C secret r c -> x3dh_output C secret r' c' -> r = r' /\ c = c'.
Proof.
  intros secret r c r' c' (A & B & D) (A' & B' & D'). pose proof (hkdf_output_det _ _ _ _ _ _ _ D D') as H.
  apply split2 in H; [exact H|rewrite A, A'; reflexivity].
Qed.
Lemma ck_iter_iter : forall n ck, ck_iter C n ck = Nat.iter n (next_key C) ck.
Proof. intros n ck. induction n as [|n IH]; [reflexivity|]. rewrite ck_iter_snoc, IH. reflexivity. Qed.
Lemma ck_iter_key : forall n ck, ck_key (ck_iter C n ck) = chain_after C n (ck_key ck).
Proof. intros n ck. rewrite ck_iter_iter. apply chain_after_spec. Qed.
Lemma message_keys_index : forall ck, mk_index (message_keys C ck) = ck_index ck.
Proof. reflexivity. Qed.
Lemma key_number_ok : forall ck i, (ck_index ck + N.of_nat i < u32_modulus)%N -> key_number C ck i (message_keys C (ck_iter C i ck)).
Proof.
  intros ck i H. split; [rewrite message_keys_index; apply ck_iter_index; exact H|]. rewrite <- ck_iter_key. apply message_keys_spec. exact HL.
Qed.
Lemma key_number_det : forall ck i k k', key_number C ck i k -> key_number C ck i k' -> k = k'.
Proof.
  intros ck i k k' (A & D) (A' & D'). destruct (message_keys_det _ _ _ _ _ _ _ _ D D') as (E1 & E2 & E3).
  destruct k as [a b c d], k' as [a' b' c' d']. cbn [mk_cipher mk_mac mk_iv mk_index] in *. subst. reflexivity.
Qed.
Lemma mk_range_snoc : forall n ck, mk_range C (S n) ck = mk_range C n ck ++ [message_keys C (ck_iter C n ck)].
Proof. intros n ck. rewrite <- Nat.add_1_r, mk_range_app. reflexivity. Qed.
Lemma range_numbers : forall n ck, (ck_index ck + N.of_nat n < u32_modulus)%N -> Forall2 (key_number C ck) (seq 0 n) (mk_range C n ck).
Proof.
  induction n as [|n IH]; intros ck H; [constructor|]. rewrite seq_S, mk_range_snoc. apply Forall2_app; [apply IH; lia|].
  constructor; [apply key_number_ok; lia|constructor].
Qed.
Lemma numbers_det : forall ck l ks ks', Forall2 (key_number C ck) l ks -> Forall2 (key_number C ck) l ks' -> ks = ks'.
Proof.
  intros ck l ks ks' H. revert ks'. induction H as [|i k l ks H1 H2 IH]; intros ks' H'; [inversion H'; reflexivity|]. inversion H' as [|? k' ? ks1 K1 K2]; subst.
  f_equal; [exact (key_number_det _ _ _ _ H1 K1)|apply IH; exact K2].
Qed.

(** * The ratchet step *)
Definition able (s : state) : Prop := ready s /\ bounded_state s.

Lemma create_chain_step : forall root k p priv, kp_priv p = Some priv ->
  exists x, create_chain C root k p = Ok x /\ root_step C root (abytes (x_mult C priv k)) (sk_root x) (ck_key (sk_chain x)) /\ ck_index (sk_chain x) = 0%N.
Proof.
  intros root k p priv H. pose proof (create_chain_ok C root k p priv H) as E. eexists. split; [exact E|]. exact (create_chain_spec C HL root k p priv _ H E).
Qed.
Lemma fresh_new : forall x key, ck_index (sk_chain x) = 0%N -> ck_key (sk_chain x) = key -> sk_chain x = {| ck_key := key; ck_index := 0 |}.
Proof. intros x key H1 H2. destruct (sk_chain x) as [a b]. cbn [ck_index ck_key] in *. subst. reflexivity. Qed.

Lemma last_five : forall (l : list chain) x, (length l <= 5)%nat -> last_n 5 (l ++ [x]) = if (max_receiver_chains <? length (l ++ [x]))%nat then tl (l ++ [x]) else l ++ [x].
Proof. intros l x H. exact (last_n_five l x H). Qed.
Lemma prev_counter_sub : forall i, (i < u32_modulus)%N -> N.max (u32_sub i 1) 0 = ((i + (2 ^ 32 - 1)) mod 2 ^ 32)%N.
Proof.
  intros i H. rewrite N.max_0_r. unfold u32_sub, u32. change u32_modulus with 4294967296%N in *. change (2 ^ 32)%N with 4294967296%N.
  f_equal. lia.
Qed.

Lemma turned_spec : forall s k g s1 g1, able s ->
  (turned C s k g s1 g1 <-> exists ck, get_or_create_chain_key C s k g = (Ok ck, s1, g1)).
Proof.
  intros s k g s1 g1 [HR [HB _]]. split.
  - intros H. destruct H as [a c b HA|root sc priv root1 chain1 seed g1 root2 chain2 HN H1 H2 H3 H4 H5 H6].
    + exists (ch_key c). apply gcck_known. exact (proj1 (chain_at_find _ _ _ _ _ HA)).
    + apply no_chain_find in HN. unfold get_or_create_chain_key, receiver_chain. rewrite HN, H1, H2.
      destruct (create_chain_step root k (ch_pair sc) priv H3) as (x & X1 & X2 & X3). rewrite X1. destruct (root_step_det _ _ _ _ _ _ H4 X2) as [-> ->].
      unfold generate_key_pair. rewrite H5. change {| kp_pub := x_base C (clamp seed); kp_priv := Some (clamp seed) |} with (pair_of C (clamp seed)).
      destruct (create_chain_step (sk_root x) k (pair_of C (clamp seed)) (clamp seed) eq_refl) as (y & Y1 & Y2 & Y3). rewrite Y1. destruct (root_step_det _ _ _ _ _ _ H6 Y2) as [-> ->].
      exists (sk_chain x). f_equal. f_equal.
      assert (HI : (ck_index (ch_key sc) < u32_modulus)%N).
      { destruct HR as (_ & _ & _ & _ & lid & rid & root' & base & sc' & priv' & _ & _ & _ & _ & _ & E & _ & (_ & Z & _)). rewrite H2 in E. injection E as <-. exact Z. }
      rewrite (prev_counter_sub _ HI). unfold set_sender_chain, set_sender, set_prev_counter, add_receiver_chain, set_recv, set_root, moved. cbn [s_recv s_local_id s_local_reg s_needs_refresh s_pending_kx s_pending s_prev_counter s_remote_id s_remote_reg s_root s_base s_sender s_version].
      unfold new_chain. rewrite <- (fresh_new x _ X3 eq_refl), <- (fresh_new y _ Y3 eq_refl). rewrite last_five by exact HB. reflexivity.
  - intros (ck & H). destruct (receiver_chain k s) as [c|] eqn:E.
    + rewrite (gcck_known C s k g c E) in H. assert (s1 = s /\ g1 = g) as [-> ->] by (split; congruence). destruct (find_chain_at _ _ _ E) as (a & b & HA). exact (turned_known C s k g a c b HA).
    + pose proof (gcck_new C s k g _ s1 g1 E H) as (root & sc & x & y & ours & H1 & H2 & H3 & H4 & H5 & _ & ->).
      assert (HI : (ck_index (ch_key sc) < u32_modulus)%N /\ exists priv, kp_priv (ch_pair sc) = Some priv).
      { destruct HR as (_ & _ & _ & _ & lid & rid & root' & base & sc' & priv' & _ & _ & _ & _ & _ & E' & P & (_ & Z & _)). rewrite H2 in E'. injection E' as <-. split; [exact Z|]. exists priv'. exact P. }
      destruct HI as [HI [priv HP]]. unfold generate_key_pair in H4. destruct (rng_read 32 g) as [[seed|] g2] eqn:ER; [|discriminate H4].
      injection H4 as H4 ->. destruct (create_chain_spec C HL _ _ _ _ _ HP H3) as [X2 X3].
      assert (HO : kp_priv ours = Some (clamp seed)) by (rewrite <- H4; reflexivity). destruct (create_chain_spec C HL _ _ _ _ _ HO H5) as [Y2 Y3].
      apply no_chain_find in E. pose proof (turned_new C s k g root sc priv _ _ seed g1 _ _ E H1 H2 HP X2 ER Y2) as T.
      assert (EQ : ratcheted s k x y ours (ck_index (ch_key sc)) = moved s (last_n 5 (s_recv s ++ [new_chain {| kp_pub := k; kp_priv := None |} (ck_key (sk_chain x))]))
         (Some (new_chain {| kp_pub := x_base C (clamp seed); kp_priv := Some (clamp seed) |} (ck_key (sk_chain y)))) (Some (sk_root y))
         ((ck_index (ch_key sc) + (2 ^ 32 - 1)) mod 2 ^ 32)%N (s_pending s)); [|rewrite EQ; exact T].
      unfold ratcheted. rewrite (prev_counter_sub _ HI). rewrite <- H4. unfold set_sender_chain, set_sender, set_prev_counter, add_receiver_chain, set_recv, set_root, moved.
      cbn [s_recv s_local_id s_local_reg s_needs_refresh s_pending_kx s_pending s_prev_counter s_remote_id s_remote_reg s_root s_base s_sender s_version].
      unfold new_chain. rewrite <- (fresh_new x _ X3 eq_refl), <- (fresh_new y _ Y3 eq_refl). rewrite last_five by exact HB. reflexivity.
Qed.

Lemma turn_cases : forall s k g, able s ->
  (exists ck s1 g1, get_or_create_chain_key C s k g = (Ok ck, s1, g1)) \/
  (no_chain k (s_recv s) /\ exists g', rng_read 32 g = (None, g') /\ get_or_create_chain_key C s k g = (Err ERand, s, g')).
Proof.
  intros s k g [HR _]. destruct (receiver_chain k s) as [c|] eqn:E; [left; exists (ch_key c), s, g; apply gcck_known; exact E|].
  destruct HR as (_ & _ & _ & _ & lid & rid & root & base & sc & priv & _ & _ & H1 & _ & _ & H2 & H3 & _).
  unfold get_or_create_chain_key. rewrite E, H1, H2. destruct (create_chain_step root k (ch_pair sc) priv H3) as (x & X1 & _). rewrite X1.
  unfold generate_key_pair. destruct (rng_read 32 g) as [[seed|] g1] eqn:ER.
  - destruct (create_chain_step (sk_root x) k (pair_of C (clamp seed)) (clamp seed) eq_refl) as (y & Y1 & _). rewrite Y1. left. do 3 eexists. reflexivity.
  - right. split; [apply no_chain_find; exact E|]. exists g1. split; reflexivity.
Qed.

(** * The keys of one message *)
Lemma find_index_first : forall n x mk y, mk_index mk = n -> (forall z, In z x -> mk_index z <> n) -> find_index n (x ++ mk :: y) = Some (length x).
Proof.
  intros n x mk y H HX. induction x as [|z x IH]; cbn [app find_index length].
  - rewrite (proj2 (N.eqb_eq _ _) H). reflexivity.
  - destruct (N.eqb_spec (mk_index z) n) as [E|E]; [destruct (HX z (or_introl eq_refl) E)|]. rewrite IH by (intros w Hw; apply HX; right; exact Hw). reflexivity.
Qed.
Lemma remove_first : forall c n x mk y, ch_msgs c = x ++ mk :: y -> mk_index mk = n -> (forall z, In z x -> mk_index z <> n) ->
  has_message_keys c n = true /\ remove_message_keys c n = Some (mk, {| ch_pair := ch_pair c; ch_key := ch_key c; ch_msgs := x ++ y |}).
Proof.
  intros c n x mk y H1 H2 H3. split.
  - unfold has_message_keys. apply existsb_exists. exists mk. split; [rewrite H1; apply in_app_iff; right; left; reflexivity|]. apply N.eqb_eq. exact H2.
  - unfold remove_message_keys. rewrite H1, (find_index_first n x mk y H2 H3). rewrite nth_error_app2 by (apply Nat.le_refl). rewrite Nat.sub_diag. cbn [nth_error].
    rewrite firstn_app_exact by reflexivity. rewrite skipn_app, (skipn_all2 x) by lia. replace (S (length x) - length x)%nat with 1%nat by lia. reflexivity.
Qed.
Lemma first_kept : forall n (l : list msg_keys), existsb (fun m => (mk_index m =? n)%N) l = true ->
  exists x mk y, l = x ++ mk :: y /\ mk_index mk = n /\ forall z, In z x -> mk_index z <> n.
Proof.
  intros n l. induction l as [|m l IH]; [discriminate|]. cbn [existsb]. destruct (N.eqb_spec (mk_index m) n) as [E|E].
  - intros _. exists [], m, l. split; [reflexivity|]. split; [exact E|]. intros z [].
  - intros H. destruct (IH H) as (x & mk & y & -> & H1 & H2). exists (m :: x), mk, y. split; [reflexivity|]. split; [exact H1|]. intros z [<-|Hz]; [exact E|exact (H2 z Hz)].
Qed.
Lemma not_kept : forall n (l : list msg_keys), existsb (fun m => (mk_index m =? n)%N) l = false <-> forall x, In x l -> mk_index x <> n.
Proof.
  intros n l. split.
  - intros H x Hx E. assert (existsb (fun m => (mk_index m =? n)%N) l = true) by (apply existsb_exists; exists x; split; [exact Hx|apply N.eqb_eq; exact E]). congruence.
  - intros H. destruct (existsb _ l) eqn:E; [|reflexivity]. apply existsb_exists in E. destruct E as (x & Hx & E). apply N.eqb_eq in E. destruct (H x Hx E).
Qed.

(** The chain after a new message. *)
Lemma new_position : forall c n ahead, bounded_chain c -> (n < u32_modulus)%N -> n = (ck_index (ch_key c) + N.of_nat ahead)%N ->
  chain_set_key (ck_iter C (S ahead) (ch_key c)) (add_keys (mk_range C ahead (ch_key c)) c) =
  {| ch_pair := ch_pair c; ch_key := {| ck_key := chain_after C (ahead + 1) (ck_key (ch_key c)); ck_index := (n + 1) mod 2 ^ 32 |};
     ch_msgs := last_n (N.to_nat 2000) (ch_msgs c ++ mk_range C ahead (ch_key c)) |}.
Proof.
  intros c n ahead HB Hn E. unfold chain_set_key. rewrite add_keys_pair, (add_keys_msgs _ _ HB). f_equal.
  rewrite Nat.add_1_r, <- ck_iter_key. rewrite ck_iter_snoc. unfold next_key at 1. cbn [ck_key ck_index].
  assert (HI : ck_index (ck_iter C ahead (ch_key c)) = n) by (rewrite ck_iter_index by lia; symmetry; exact E). rewrite HI. reflexivity.
Qed.

Lemma taken_spec : forall s k n mk s', bounded_state s -> (n < u32_modulus)%N ->
  (taken C s k n mk s' <-> exists c c', receiver_chain k s = Some c /\ chain_receive C c n = Ok (mk, c') /\ s' = upd_chain k (fun _ => c') s).
Proof.
  intros s k n mk s' [_ HB] Hn. rewrite Forall_forall in HB. split.
  - intros H. destruct H as [a c b x mk y HA H1 H2 H3 H4|a c b ahead mk skipped HA H1 H2 H3 H4].
    + exists c. destruct (remove_first c n x mk y H2 H3 H4) as [R1 R2]. eexists. split; [exact (proj1 (chain_at_find _ _ _ _ _ HA))|]. split.
      * unfold chain_receive. rewrite (proj2 (N.ltb_lt _ _) H1), R1, R2. reflexivity.
      * rewrite (upd_chain_at _ _ _ _ _ _ HA). reflexivity.
    + assert (HC : bounded_chain c) by (apply HB; destruct HA as (-> & _); apply in_app_iff; right; left; reflexivity).
      exists c. eexists. split; [exact (proj1 (chain_at_find _ _ _ _ _ HA))|]. assert (E0 : (n <? ck_index (ch_key c))%N = false) by lia.
      assert (ED : N.to_nat (n - ck_index (ch_key c)) = ahead) by lia. assert (EF : (max_future <? n - ck_index (ch_key c))%N = false) by (unfold max_future; lia).
      split; [unfold chain_receive; rewrite E0, EF; cbv zeta; rewrite ED|].
      * rewrite (new_position c n ahead HC Hn H1). assert (HK := key_number_ok (ch_key c) ahead). rewrite (key_number_det _ _ _ _ H3 (HK ltac:(lia))). reflexivity.
      * rewrite (upd_chain_at _ _ _ _ _ _ HA). cbv beta. rewrite (numbers_det _ _ _ _ H4 (range_numbers ahead (ch_key c) ltac:(lia))). reflexivity.
  - intros (c & c' & E & HC & ->). destruct (find_chain_at _ _ _ E) as (a & b & HA). rewrite (upd_chain_at _ _ _ _ _ _ HA). cbv beta.
    assert (HC0 : bounded_chain c) by (apply HB; destruct HA as (-> & _); apply in_app_iff; right; left; reflexivity).
    unfold chain_receive in HC. destruct (n <? ck_index (ch_key c))%N eqn:E0.
    + destruct (has_message_keys c n) eqn:E1; [|discriminate HC]. destruct (first_kept n (ch_msgs c) E1) as (x & mk0 & y & X1 & X2 & X3).
      rewrite (proj2 (remove_first c n x mk0 y X1 X2 X3)) in HC. injection HC as <- <-. apply (taken_kept C s k n a c b x mk0 y HA); [lia|exact X1|exact X2|exact X3].
    + destruct (max_future <? n - ck_index (ch_key c))%N eqn:E1; [discriminate HC|]. cbv zeta in HC. unfold max_future in E1. set (ahead := N.to_nat (n - ck_index (ch_key c))) in *.
      assert (EN : n = (ck_index (ch_key c) + N.of_nat ahead)%N) by (unfold ahead; lia). rewrite (new_position c n ahead HC0 Hn EN) in HC.
      assert (HK := key_number_ok (ch_key c) ahead ltac:(lia)). pose proof (range_numbers ahead (ch_key c) ltac:(lia)) as HR.
      assert (mk = message_keys C (ck_iter C ahead (ch_key c))) as -> by congruence. apply ok_eq in HC. apply (f_equal snd) in HC. cbn [snd] in HC. rewrite <- HC.
      apply (taken_new C s k n a c b ahead _ _ HA EN); [lia|exact HK|exact HR].
Qed.

(** What becomes of the number of a message. *)
Lemma receive_cases : forall c n, bounded_chain c -> (n < u32_modulus)%N ->
  (exists x, chain_receive C c n = Ok x) \/
  (chain_receive C c n = Err EOldCounter /\ (n < ck_index (ch_key c))%N /\ forall x, In x (ch_msgs c) -> mk_index x <> n) \/
  (chain_receive C c n = Err ETooFarFuture /\ (ck_index (ch_key c) + 5000 < n)%N).
Proof.
  intros c n HC Hn. unfold chain_receive. destruct (n <? ck_index (ch_key c))%N eqn:E0.
  - destruct (has_message_keys c n) eqn:E1.
    + destruct (first_kept n (ch_msgs c) E1) as (x & mk0 & y & X1 & X2 & X3). rewrite (proj2 (remove_first c n x mk0 y X1 X2 X3)). left. eexists. reflexivity.
    + right. left. split; [reflexivity|]. split; [lia|]. apply not_kept. exact E1.
  - destruct (max_future <? n - ck_index (ch_key c))%N eqn:E1; [|left; eexists; reflexivity]. right. right. unfold max_future in E1. split; [reflexivity|lia].
Qed.
Lemma receive_old : forall c n, (n < ck_index (ch_key c))%N -> (forall x, In x (ch_msgs c) -> mk_index x <> n) -> chain_receive C c n = Err EOldCounter.
Proof.
  intros c n H1 H2. unfold chain_receive. rewrite (proj2 (N.ltb_lt _ _) H1). unfold has_message_keys. rewrite (proj2 (not_kept n (ch_msgs c)) H2). reflexivity.
Qed.
Lemma receive_far : forall c n, (ck_index (ch_key c) + 5000 < n)%N -> chain_receive C c n = Err ETooFarFuture.
Proof.
  intros c n H. unfold chain_receive. assert (E0 : (n <? ck_index (ch_key c))%N = false) by lia. assert (E1 : (max_future <? n - ck_index (ch_key c))%N = true) by (unfold max_future; lia).
  rewrite E0, E1. reflexivity.
Qed.

(** * The MAC *)
Lemma object_struct : forall m, message_object m -> sig_from_struct (sm_struct m) = Ok m.
Proof.
  intros m (key & body & H1 & H2 & H3 & H4 & _). unfold sig_from_struct, unsupported_version, current_version.
  assert (E1 : (sg_version (sm_struct m) <=? 1)%Z = false) by lia. assert (E2 : (sg_version (sm_struct m) >? 3)%Z = false) by lia.
  rewrite E1, E2, H3, H1. rewrite (proj1 (key_fate_spec _ _) H2). cbn [bind]. destruct m. reflexivity.
Qed.
Lemma small_64 : forall n, (n < 2 ^ 63)%N -> (n < 2 ^ 64)%N.
Proof. intros n H. change (2 ^ 63)%N with 9223372036854775808%N in H. change (2 ^ 64)%N with 18446744073709551616%N. lia. Qed.
Lemma u32_64 : forall n, (n < 2 ^ 32)%N -> (n < 2 ^ 64)%N.
Proof. intros n H. change (2 ^ 32)%N with 4294967296%N in H. change (2 ^ 64)%N with 18446744073709551616%N. lia. Qed.
Lemma proto_ok : forall m, message_object m -> proto_of m (sig_serialize (strip_struct (sm_struct m))).
Proof.
  intros m (key & body & H1 & H2 & H3 & H4 & H5 & H6 & H7 & H8).
  exists key, body, (enc_varint (N.of_nat (length key))), (enc_varint (sg_counter (sm_struct m))), (enc_varint (sg_prev (sm_struct m))), (enc_varint (N.of_nat (length body))).
  split; [exact H1|]. split; [exact H3|]. split; [apply varint_enc, small_64; exact H7|]. split; [apply varint_enc, u32_64; exact H5|].
  split; [apply varint_enc, u32_64; exact H6|]. split; [apply varint_enc, small_64; exact H8|].
  unfold sig_serialize, strip_struct, sig_fields. cbn [sg_version sg_mac sg_ratchet sg_counter sg_prev sg_ct]. change (0 =? 0)%Z with true. cbv iota.
  rewrite H1, H3. unfold opt_bytes_field, marshal. cbn [app flat_map]. unfold enc_field.
  change (enc_varint (1 * 8 + wt_bytes)) with [x0a].
  change (enc_varint (2 * 8 + wt_varint)) with [x10]. change (enc_varint (3 * 8 + wt_varint)) with [x18].
  change (enc_varint (4 * 8 + wt_bytes)) with [x22].
  cbn [app]. rewrite !app_nil_r. repeat (rewrite <- ?app_assoc; cbn [app]). reflexivity.
Qed.
Lemma proto_det : forall m l l', proto_of m l -> proto_of m l' -> l = l'.
Proof.
  intros m l l' (k & b & vk & vc & vp & vl & A1 & A2 & A3 & A4 & A5 & A6 & ->) (k' & b' & vk' & vc' & vp' & vl' & B1 & B2 & B3 & B4 & B5 & B6 & ->).
  rewrite A1 in B1. injection B1 as <-. rewrite A2 in B2. injection B2 as <-.
  rewrite (varint_det _ _ A3 _ B3), (varint_det _ _ A4 _ B4), (varint_det _ _ A5 _ B5), (varint_det _ _ A6 _ B6). reflexivity.
Qed.
Lemma verify_cases : forall m you me key, message_object m -> sg_version (sm_struct m) = 3%Z ->
  (authentic C key you me m /\ verify_mac C m 3 you me key = Ok tt) \/ (~ authentic C key you me m /\ verify_mac C m 3 you me key = Err EBadMac).
Proof.
  intros m you me key HO HV. set (l := sig_serialize (strip_struct (sm_struct m))).
  set (tag := firstn 8 (hmac C key (x05 :: abytes you ++ x05 :: abytes me ++ x33 :: l))).
  assert (EV : verify_mac C m 3 you me key = if bytes_eqb tag (match sg_mac (sm_struct m) with Some x => x | None => [] end) then Ok tt else Err EBadMac).
  { unfold verify_mac. rewrite (object_struct m HO). cbn [bind]. unfold get_mac, trim. rewrite HL. change (32 <? mac_length)%nat with false. cbn [bind]. rewrite HV.
    change (itoa 3) with [x33]. unfold mac_input. change (3 >=? 3)%Z with true. cbv iota. fold l. unfold ser_pub. change djb_type with x05. change mac_length with 8%nat.
    rewrite <- app_assoc. cbn [app]. reflexivity. }
  assert (HLen : length tag = 8%nat) by (unfold tag; rewrite firstn_length, HL; reflexivity).
  assert (HA : authentic C key you me m <-> sg_mac (sm_struct m) = Some tag).
  { split; [intros (l' & P & E); rewrite (proto_det m l' l P (proto_ok m HO)) in E; exact E|]. intros E. exists l. split; [apply proto_ok; exact HO|exact E]. }
  rewrite EV. destruct (sg_mac (sm_struct m)) as [x|].
  - destruct (bytes_eqb tag x) eqn:E; [left|right].
    + apply bytes_eqb_eq in E. split; [apply HA; rewrite E; reflexivity|reflexivity].
    + split; [|reflexivity]. intros H. apply HA in H. injection H as ->. rewrite bytes_eqb_refl in E. discriminate E.
  - destruct tag as [|t tag0] eqn:ET; [discriminate HLen|]. right. split; [|reflexivity]. intros H. apply HA in H. discriminate H.
Qed.

(** * One attempt *)
Definition number_ok (m : sig_msg) : (counter_of m < 2 ^ 32)%N -> u32_msg m := fun H => H.

Lemma object_number : forall m, message_object m -> u32_msg m.
Proof. intros m (key & body & _ & _ & _ & _ & H & _). exact H. Qed.
Lemma object_body : forall m k, decrypt_with_key C m k = decrypt_cbc C (Some (mk_iv k)) (mk_cipher k) (body_of m).
Proof. reflexivity. Qed.
Lemma able_version : forall s, able s -> s_version s = 3%Z.
Proof. intros s [(H & _) _]. exact H. Qed.
Lemma able_sender : forall s, able s -> exists sc, s_sender s = Some sc.
Proof. intros s [(_ & _ & _ & _ & lid & rid & root & base & sc & priv & _ & _ & _ & _ & _ & H & _) _]. exists sc. exact H. Qed.
Lemma able_ids : forall s, able s -> exists me you, s_local_id s = Some me /\ s_remote_id s = Some you.
Proof. intros s [(_ & _ & _ & _ & lid & rid & root & base & sc & priv & H1 & H2 & _) _]. exists lid, rid. split; assumption. Qed.

(** The middle of an attempt: the chain is there. *)
Lemma turned_prepared : forall s k g s1 g1, able s -> turned C s k g s1 g1 -> exists c, prepared C s k g s1 g1 c /\ get_or_create_chain_key C s k g = (Ok (ch_key c), s1, g1).
Proof.
  intros s k g s1 g1 HA HT. apply turned_spec in HT; [|exact HA]. destruct HT as (ck & E). destruct (receiver_chain k s) as [c|] eqn:Er.
  - rewrite (gcck_known C s k g c Er) in E. exists c. assert (s1 = s /\ g1 = g) as [-> ->] by (split; congruence). split; [left; auto|apply gcck_known; exact Er].
  - pose proof (gcck_new C s k g _ s1 g1 Er E) as (root & sc & x & y & ours & H1 & H2 & H3 & H4 & H5 & H6 & H7).
    exists (fresh_chain k (sk_chain x)). split; [|rewrite E, H6; reflexivity]. right. split; [exact Er|]. exists root, sc, x, y, ours. repeat (split; [assumption|]). split; [reflexivity|exact H7].
Qed.
Lemma able_turned : forall s k g s1 g1, able s -> turned C s k g s1 g1 -> able s1.
Proof.
  intros s k g s1 g1 HA HT. destruct (turned_prepared _ _ _ _ _ HA HT) as (c & HP & _). destruct HA as [HR HB]. split; [exact (prepared_ready C L _ _ _ _ _ _ HP HR)|exact (prepared_bounded C _ _ _ _ _ _ HP HB)].
Qed.
Lemma turned_ids : forall s k g s1 g1, able s -> turned C s k g s1 g1 -> s_remote_id s1 = s_remote_id s /\ s_local_id s1 = s_local_id s.
Proof. intros s k g s1 g1 HA HT. destruct (turned_prepared _ _ _ _ _ HA HT) as (c & HP & _). destruct (prepared_ids C _ _ _ _ _ _ HP) as (A & B & _). split; assumption. Qed.

(** The model after the ratchet step. *)
Lemma dws_turned : forall s m g s1 g1, able s -> message_object m -> sg_version (sm_struct m) = 3%Z -> turned C s (sm_ratchet m) g s1 g1 ->
  exists c, receiver_chain (sm_ratchet m) s1 = Some c /\ bounded_chain c /\ sized_chain c /\
  decrypt_with_state C s m g =
    match chain_receive C c (counter_of m) with
    | Err e => (Err e, s1, g1)
    | Panic => (Panic, s1, g1)
    | Ok (mk, c') =>
        let s2 := upd_chain (sm_ratchet m) (fun _ => c') s1 in
        match s_remote_id s, s_local_id s with
        | Some you, Some me =>
            match verify_mac C m 3 you me (mk_mac mk) with
            | Err e => (Err e, s2, g1)
            | Panic => (Panic, s2, g1)
            | Ok _ => match decrypt_cbc C (Some (mk_iv mk)) (mk_cipher mk) (body_of m) with
                      | Err e => (Err e, s2, g1)
                      | Panic => (Panic, s2, g1)
                      | Ok pt => (Ok (pt, mk), set_pending None s2, g1)
                      end
            end
        | _, _ => (Panic, s2, g1)
        end
    end.
Proof.
  intros s m g s1 g1 HA HO HV HT. destruct (turned_prepared _ _ _ _ _ HA HT) as (c & HP & E). pose proof (prepared_chain C _ _ _ _ _ _ HP) as HC. exists c.
  destruct (able_turned _ _ _ _ _ HA HT) as [HR1 [_ HB1]]. destruct (find_some _ _ HC) as [HI _].
  destruct HR1 as (_ & _ & _ & HS1 & _). rewrite Forall_forall in HB1, HS1. split; [exact HC|]. split; [exact (HB1 c HI)|]. split; [exact (HS1 c HI)|].
  destruct (able_sender s HA) as [sc ES]. unfold decrypt_with_state. rewrite ES, HV, (able_version s HA). change (negb (3 =? 3)%Z) with false. cbv iota. rewrite E.
  rewrite (gcmk_spec C s1 (sm_ratchet m) c (sg_counter (sm_struct m)) (object_number m HO) HC). unfold counter_of.
  destruct (chain_receive C c (sg_counter (sm_struct m))) as [[mk c']|e|]; [|reflexivity|reflexivity].
  destruct (turned_ids _ _ _ _ _ HA HT) as [I1 I2]. cbv zeta. unfold upd_chain, set_recv. cbn [s_remote_id s_local_id]. rewrite I1, I2. reflexivity.
Qed.

Lemma receive_sizes : forall c n mk c', sized_chain c -> chain_receive C c n = Ok (mk, c') -> aes_key_ok (mk_cipher mk) = true /\ length (mk_iv mk) = 16%nat.
Proof.
  intros c n mk c' HS HC. destruct (chain_receive_sized C L c n mk c' HS HC) as [(A & B & D) _]. split; [unfold aes_key_ok; rewrite A; reflexivity|exact D].
Qed.

Lemma attempt_sound : forall s m g o s' g', able s -> message_object m -> attempt C s m g o s' g' -> decrypt_with_state C s m g = (o, s', g').
Proof.
  intros s m g o s' g' HA HO H. pose proof (able_version s HA) as HV.
  assert (HU : (counter_of m < u32_modulus)%N) by exact (object_number m HO).
  destruct H as [V|g' V N R|s1 g1 a c b V T AT H1 H2|s1 g1 a c b V T AT H1|s1 g1 mk s2 me you V T K I1 I2 X|s1 g1 mk s2 me you e V T K I1 I2 X B|s1 g1 mk s2 me you V T K I1 I2 X B|s1 g1 mk s2 me you pt V T K I1 I2 X B].
  - unfold decrypt_with_state. destruct (able_sender s HA) as [sc ->]. rewrite (proj2 (Z.eqb_neq _ _) V). reflexivity.
  - unfold decrypt_with_state. destruct (able_sender s HA) as [sc ->]. rewrite (proj2 (Z.eqb_eq _ _) V). cbn [negb].
    destruct (turn_cases s (sm_ratchet m) g HA) as [(ck & s1 & g1 & E)|(_ & g2 & R2 & E)]; [|rewrite E; rewrite R in R2; injection R2 as <-; reflexivity].
    apply no_chain_find in N. pose proof (gcck_new C s _ g _ s1 g1 N E) as (root & sc' & x & y & ours & _ & _ & _ & G & _). unfold generate_key_pair in G. rewrite R in G. discriminate G.
  - rewrite HV in V. destruct (dws_turned s m g s1 g1 HA HO V T) as (c0 & E & _ & _ & ->). pose proof (proj1 (chain_at_find _ _ _ _ _ AT)) as F. unfold receiver_chain in E. rewrite F in E. injection E as <-.
    rewrite (receive_old c _ H1 H2). reflexivity.
  - rewrite HV in V. destruct (dws_turned s m g s1 g1 HA HO V T) as (c0 & E & _ & _ & ->). pose proof (proj1 (chain_at_find _ _ _ _ _ AT)) as F. unfold receiver_chain in E. rewrite F in E. injection E as <-.
    rewrite (receive_far c _ H1). reflexivity.
  - rewrite HV in V. destruct (dws_turned s m g s1 g1 HA HO V T) as (c0 & E & _ & SZ & ->). apply taken_spec in K; [|exact (proj2 (able_turned _ _ _ _ _ HA T))|exact HU]. destruct K as (c & c' & F & R & ->).
    rewrite F in E. injection E as <-. rewrite R, I1, I2. cbv zeta. destruct (verify_cases m you me (mk_mac mk) HO V) as [[Y _]|[_ ->]]; [destruct (X Y)|reflexivity].
  - rewrite HV in V. destruct (dws_turned s m g s1 g1 HA HO V T) as (c0 & E & _ & SZ & ->). apply taken_spec in K; [|exact (proj2 (able_turned _ _ _ _ _ HA T))|exact HU]. destruct K as (c & c' & F & R & ->).
    rewrite F in E. injection E as <-. rewrite R, I1, I2. cbv zeta. destruct (verify_cases m you me (mk_mac mk) HO V) as [[_ ->]|[Y _]]; [|destruct (Y X)].
    destruct (receive_sizes c _ _ _ SZ R) as [Z1 Z2]. rewrite (proj1 (body_spec C L _ _ _ _ Z1 Z2) B). reflexivity.
  - rewrite HV in V. destruct (dws_turned s m g s1 g1 HA HO V T) as (c0 & E & _ & SZ & ->). apply taken_spec in K; [|exact (proj2 (able_turned _ _ _ _ _ HA T))|exact HU]. destruct K as (c & c' & F & R & ->).
    rewrite F in E. injection E as <-. rewrite R, I1, I2. cbv zeta. destruct (verify_cases m you me (mk_mac mk) HO V) as [[_ ->]|[Y _]]; [|destruct (Y X)].
    destruct (receive_sizes c _ _ _ SZ R) as [Z1 Z2]. rewrite (proj1 (body_spec C L _ _ _ _ Z1 Z2) B). reflexivity.
  - rewrite HV in V. destruct (dws_turned s m g s1 g1 HA HO V T) as (c0 & E & _ & SZ & ->). apply taken_spec in K; [|exact (proj2 (able_turned _ _ _ _ _ HA T))|exact HU]. destruct K as (c & c' & F & R & ->).
    rewrite F in E. injection E as <-. rewrite R, I1, I2. cbv zeta. destruct (verify_cases m you me (mk_mac mk) HO V) as [[_ ->]|[Y _]]; [|destruct (Y X)].
    destruct (receive_sizes c _ _ _ SZ R) as [Z1 Z2]. rewrite (proj1 (body_spec C L _ _ _ _ Z1 Z2) B). reflexivity.
Qed.

Lemma attempt_exists : forall s m g, able s -> message_object m -> exists o s' g', attempt C s m g o s' g'.
Proof.
  intros s m g HA HO. pose proof (able_version s HA) as HV. assert (HU : (counter_of m < u32_modulus)%N) by exact (object_number m HO).
  destruct (Z.eq_dec (sg_version (sm_struct m)) (s_version s)) as [V|V]; [|do 3 eexists; apply attempt_version; exact V].
  destruct (turn_cases s (sm_ratchet m) g HA) as [(ck & s1 & g1 & E)|(N & g2 & R & _)]; [|do 3 eexists; apply attempt_random; [exact V|exact N|exact R]].
  assert (T : turned C s (sm_ratchet m) g s1 g1) by (apply turned_spec; [exact HA|exists ck; exact E]).
  destruct (able_turned _ _ _ _ _ HA T) as [HR1 HB1]. destruct (turned_prepared _ _ _ _ _ HA T) as (c & HP & _). pose proof (prepared_chain C _ _ _ _ _ _ HP) as HC.
  destruct (find_chain_at _ _ _ HC) as (a & b & AT). destruct (find_some _ _ HC) as [HI _].
  assert (BC : bounded_chain c) by (destruct HB1 as [_ HB1]; rewrite Forall_forall in HB1; exact (HB1 c HI)).
  assert (SZ : sized_chain c) by (destruct HR1 as (_ & _ & _ & HS1 & _); rewrite Forall_forall in HS1; exact (HS1 c HI)).
  destruct (receive_cases c (counter_of m) BC HU) as [((mk & c') & R)|[(_ & O1 & O2)|(_ & O1)]].
  - assert (K : taken C s1 (sm_ratchet m) (counter_of m) mk (upd_chain (sm_ratchet m) (fun _ => c') s1)) by (apply taken_spec; [exact HB1|exact HU|]; exists c, c'; split; [exact HC|]; split; [exact R|reflexivity]).
    destruct (able_ids s HA) as (me & you & I1 & I2). rewrite HV in V. destruct (receive_sizes c _ _ _ SZ R) as [Z1 Z2].
    destruct (verify_cases m you me (mk_mac mk) HO V) as [[X _]|[X _]]; rewrite <- HV in V.
    + pose proof (proj2 (body_spec C L (mk_cipher mk) (mk_iv mk) (body_of m) _ Z1 Z2) eq_refl) as B. destruct (decrypt_cbc C (Some (mk_iv mk)) (mk_cipher mk) (body_of m)) as [pt|e|].
      * do 3 eexists. exact (attempt_read C s m g s1 g1 mk _ me you pt V T K I1 I2 X B).
      * do 3 eexists. exact (attempt_garbled C s m g s1 g1 mk _ me you e V T K I1 I2 X B).
      * do 3 eexists. exact (attempt_crash C s m g s1 g1 mk _ me you V T K I1 I2 X B).
    + do 3 eexists. exact (attempt_forged C s m g s1 g1 mk _ me you V T K I1 I2 X).
  - do 3 eexists. exact (attempt_old C s m g s1 g1 a c b V T AT O1 O2).
  - do 3 eexists. exact (attempt_far C s m g s1 g1 a c b V T AT O1).
Qed.
Lemma attempt_spec : forall s m g o s' g', able s -> message_object m -> (attempt C s m g o s' g' <-> decrypt_with_state C s m g = (o, s', g')).
Proof.
  intros s m g o s' g' HA HO. split; [apply attempt_sound; assumption|]. intros H. destruct (attempt_exists s m g HA HO) as (o1 & s1 & g1 & T).
  pose proof (attempt_sound _ _ _ _ _ _ HA HO T) as E. rewrite H in E. assert (o = o1 /\ s' = s1 /\ g' = g1) as (-> & -> & ->) by (repeat split; congruence). exact T.
Qed.
Lemma able_attempt : forall s m g o s' g', able s -> message_object m -> decrypt_with_state C s m g = (o, s', g') -> able s'.
Proof.
  intros s m g o s' g' [HR HB] HO H. split; [exact (dws_ready C L _ _ _ _ _ _ (object_number m HO) HR H)|exact (dws_bounded C _ _ _ _ _ _ (object_number m HO) HB H)].
Qed.

(** * The record *)
Lemma refused_app : forall before m g before' g1, Forall able before -> message_object m -> refused C before m g before' g1 -> length before' = length before /\ forall rest,
  try_prev C (before ++ rest) m g = match try_prev C rest m g1 with
                                    | (Ok (i, x), rest', g2) => (Ok ((length before + i)%nat, x), before' ++ rest', g2)
                                    | (Err e, rest', g2) => (Err e, before' ++ rest', g2)
                                    | (Panic, rest', g2) => (Panic, before' ++ rest', g2)
                                    end.
Proof.
  intros before m g before' g1 HF HO H. induction H as [m g|s l m g e s' g1 l' g2 HA HR IH].
  - split; [reflexivity|]. intros rest. cbn [app length Nat.add]. destruct (try_prev C rest m g) as [[[[i x]|e|] rest'] g2]; reflexivity.
  - inversion HF as [|? ? HS HF']; subst. destruct (IH HF' HO) as [I1 I2]. split; [cbn [length]; rewrite I1; reflexivity|]. intros rest. cbn [app try_prev length].
    rewrite (proj1 (attempt_spec _ _ _ _ _ _ HS HO) HA), I2. destruct (try_prev C rest m g2) as [[[[i x]|e'|] rest'] g3]; reflexivity.
Qed.
Lemma try_prev_cases : forall l m g, Forall able l -> message_object m ->
  (exists l' g', refused C l m g l' g') \/
  (exists before s after before' g1 o s' g2, l = before ++ s :: after /\ refused C before m g before' g1 /\ attempt C s m g1 o s' g2 /\ forall e, o <> Err e).
Proof.
  intros l. induction l as [|s l IH]; intros m g HF HO; [left; exists [], g; constructor|]. inversion HF as [|? ? HS HF']; subst.
  destruct (attempt_exists s m g HS HO) as (o & s' & g1 & T). destruct o as [x|e|].
  - right. exists [], s, l, [], g, (Ok x), s', g1. split; [reflexivity|]. split; [constructor|]. split; [exact T|]. intros e; discriminate.
  - destruct (IH m g1 HF' HO) as [(l' & g2 & R)|(before & t & after & before' & g2 & o & t' & g3 & -> & R & T' & N)].
    + left. exists (s' :: l'), g2. econstructor; eassumption.
    + right. exists (s :: before), t, after, (s' :: before'), g2, o, t', g3. split; [reflexivity|]. split; [econstructor; eassumption|]. split; assumption.
  - right. exists [], s, l, [], g, Panic, s', g1. split; [reflexivity|]. split; [constructor|]. split; [exact T|]. intros e; discriminate.
Qed.

Definition kept {A} (o : res A) (r : record) : option record := match o with Ok _ => Some (unfresh r) | _ => None end.
Definition fine (r : record) : Prop := Forall able (states r) /\ (length (r_prev r) <= 40)%nat.

Lemma last_rev : forall (l after : list state) s', match rev (l ++ s' :: after) with x :: _ => [x] | [] => [] end = [last after s'].
Proof.
  intros l after s'. rewrite rev_app_distr. cbn [rev]. destruct (rev after) as [|x t] eqn:E.
  - assert (after = []) by (rewrite <- (rev_involutive after), E; reflexivity). subst after. reflexivity.
  - assert (after = rev t ++ [x]) by (rewrite <- (rev_involutive after), E; reflexivity). subst after. rewrite last_last. reflexivity.
Qed.
Lemma forty : forall (l : list state), (length l <= 41)%nat -> (if (archived_max <? length l)%nat then removelast l else l) = firstn 40 l.
Proof.
  intros l H. unfold archived_max. destruct (Nat.ltb_spec 40 (length l)) as [B|B].
  - assert (HLen : length l = 41%nat) by lia. rewrite removelast_firstn_len, HLen. reflexivity.
  - rewrite firstn_all2; [reflexivity|exact B].
Qed.
Lemma refused_length : forall l m g l' g', refused C l m g l' g' -> length l' = length l.
Proof. intros l m g l' g' H. induction H as [|? ? ? ? ? ? ? ? ? ? ? IH]; [reflexivity|]. cbn [length]. rewrite IH. reflexivity. Qed.

Lemma record_sound : forall r m g o r' g', fine r -> message_object m -> record_fate C r m g o r' g' ->
  exists r1, decrypt_with_record C r m g = (o, r1, g') /\ r' = kept o r1.
Proof.
  intros r m g o r' g' [HF HB] HO H. inversion HF as [|? ? HC HP]; subst.
  destruct H as [x s' g' A|s' g' A|e cur g1 before s after before' g2 x s' g3 A EP R A2|e cur g1 before s after before' g2 s' g3 A EP R A2|e cur g1 prev g2 A R].
  - unfold decrypt_with_record. rewrite (attempt_sound _ _ _ _ _ _ HC HO A). eexists. split; reflexivity.
  - unfold decrypt_with_record. rewrite (attempt_sound _ _ _ _ _ _ HC HO A). eexists. split; reflexivity.
  - unfold decrypt_with_record. rewrite (attempt_sound _ _ _ _ _ _ HC HO A). cbv zeta. assert (HP' := HP). rewrite EP in HP'. apply Forall_app in HP'. destruct HP' as [HP1 HP2]. inversion HP2 as [|? ? HS HP3]; subst.
    destruct (refused_app _ _ _ _ _ HP1 HO R) as [HLen HRun]. rewrite EP, HRun. cbn [try_prev]. rewrite (attempt_sound _ _ _ _ _ _ HS HO A2). rewrite Nat.add_0_r, <- HLen.
    assert (EN : nth_error (before' ++ s' :: after) (length before') = Some s') by (rewrite nth_error_app2 by (apply Nat.le_refl); rewrite Nat.sub_diag; reflexivity).
    rewrite EN. eexists. split; [reflexivity|]. unfold kept, unfresh, promote_state, set_prev, set_cur. cbn [r_cur r_prev r_fresh]. f_equal.
    unfold go_delete_shared. rewrite last_rev, firstn_app_exact by reflexivity. rewrite skipn_app, (skipn_all2 before') by lia. replace (S (length before') - length before')%nat with 1%nat by lia. cbn [skipn app].
    rewrite forty; [reflexivity|]. rewrite EP in HB. rewrite app_length in HB. cbn [length] in *. rewrite !app_length. cbn [length]. lia.
  - unfold decrypt_with_record. rewrite (attempt_sound _ _ _ _ _ _ HC HO A). cbv zeta. assert (HP' := HP). rewrite EP in HP'. apply Forall_app in HP'. destruct HP' as [HP1 HP2]. inversion HP2 as [|? ? HS HP3]; subst.
    destruct (refused_app _ _ _ _ _ HP1 HO R) as [HLen HRun]. rewrite EP, HRun. cbn [try_prev]. rewrite (attempt_sound _ _ _ _ _ _ HS HO A2). eexists. split; reflexivity.
  - unfold decrypt_with_record. rewrite (attempt_sound _ _ _ _ _ _ HC HO A). cbv zeta. destruct (refused_app _ _ _ _ _ HP HO R) as [HLen HRun]. specialize (HRun []). rewrite !app_nil_r in HRun. rewrite HRun. cbn [try_prev].
    eexists. split; reflexivity.
Qed.
Lemma record_exists : forall r m g, fine r -> message_object m -> exists o r' g', record_fate C r m g o r' g'.
Proof.
  intros r m g [HF HB] HO. inversion HF as [|? ? HC HP]; subst. destruct (attempt_exists (r_cur r) m g HC HO) as (o & s' & g1 & T). destruct o as [x|e|].
  - do 3 eexists. exact (record_current C r m g x s' g1 T).
  - destruct (try_prev_cases (r_prev r) m g1 HP HO) as [(l' & g2 & R)|(before & s & after & before' & g2 & o & t' & g3 & E & R & T' & N)].
    + do 3 eexists. exact (record_refused C r m g e s' g1 l' g2 T R).
    + destruct o as [x|e'|]; [|destruct (N e' eq_refl)|].
      * do 3 eexists. exact (record_archived C r m g e s' g1 before s after before' g2 x t' g3 T E R T').
      * do 3 eexists. exact (record_archived_crash C r m g e s' g1 before s after before' g2 t' g3 T E R T').
  - do 3 eexists. exact (record_crash C r m g s' g1 T).
Qed.
Lemma record_spec : forall r m g o r' g', fine r -> message_object m ->
  (record_fate C r m g o r' g' <-> exists r1, decrypt_with_record C r m g = (o, r1, g') /\ r' = kept o r1).
Proof.
  intros r m g o r' g' HF HO. split; [apply record_sound; assumption|]. intros (r1 & E & ->). destruct (record_exists r m g HF HO) as (o1 & r2 & g1 & T).
  destruct (record_sound _ _ _ _ _ _ HF HO T) as (r3 & E' & ->). rewrite E in E'. assert (o = o1 /\ r1 = r3 /\ g' = g1) as (-> & -> & ->) by (repeat split; congruence). exact T.
Qed.

(** What is stored is in order again. *)
Lemma able_refused : forall l m g l' g', Forall able l -> message_object m -> refused C l m g l' g' -> Forall able l'.
Proof.
  intros l m g l' g' HF HO H. induction H as [m g|s l m g e s' g1 l' g2 HA HR IH]; [constructor|]. inversion HF as [|? ? HS HF']; subst.
  constructor; [exact (able_attempt _ _ _ _ _ _ HS HO (attempt_sound _ _ _ _ _ _ HS HO HA))|exact (IH HF' HO)].
Qed.
Lemma fine_fate : forall r m g o r' g', fine r -> message_object m -> record_fate C r m g o (Some r') g' -> fine r' /\ r_fresh r' = false.
Proof.
  intros r m g o r' g' HR HO H. assert (HR' := HR). destruct HR' as [HF HB]. inversion HF as [|? ? HC HP]; subst.
  remember (Some r') as ro eqn:ER. destruct H as [x s' g' A|s' g' A|e cur g1 before s after before' g2 x s' g3 A EP R A2|e cur g1 before s after before' g2 s' g3 A EP R A2|e cur g1 prev g2 A R]; try discriminate ER;
    assert (EQ := f_equal (fun o => match o with Some x => x | None => r' end) ER); cbv beta iota in EQ; rewrite <- EQ; clear ER EQ.
  - split; [|reflexivity]. split; [constructor; [exact (able_attempt _ _ _ _ _ _ HC HO (attempt_sound _ _ _ _ _ _ HC HO A))|exact HP]|exact HB].
  - split; [|reflexivity]. assert (HP' := HP). rewrite EP in HP'. apply Forall_app in HP'. destruct HP' as [HP1 HP2]. inversion HP2 as [|? ? HS HP3]; subst.
    assert (HS' : able s') by exact (able_attempt _ _ _ _ _ _ HS HO (attempt_sound _ _ _ _ _ _ HS HO A2)).
    split; [|cbn [r_prev]; rewrite firstn_length; apply Nat.le_min_l]. constructor; [exact HS'|]. cbn [r_prev]. apply Forall_forall. intros z Hz.
    assert (HI : In z (cur :: before' ++ after ++ [last after s'])) by (rewrite <- (firstn_skipn 40 (cur :: before' ++ after ++ [last after s'])); apply in_or_app; left; exact Hz).
    destruct HI as [<-|HI]; [exact (able_attempt _ _ _ _ _ _ HC HO (attempt_sound _ _ _ _ _ _ HC HO A))|]. apply in_app_or in HI. destruct HI as [HI|HI].
    + pose proof (able_refused _ _ _ _ _ HP1 HO R) as FR. rewrite Forall_forall in FR. exact (FR z HI).
    + rewrite Forall_forall in HP3. apply in_app_or in HI. destruct HI as [HI|[<-|[]]]; [exact (HP3 z HI)|].
      destruct after as [|y after]; [exact HS'|]. assert (HN : y :: after <> []) by discriminate. destruct (exists_last HN) as (q & y' & EQ). rewrite EQ in *. rewrite last_last. apply HP3. apply in_or_app. right. left. reflexivity.
Qed.
End P.
