(** FsRefine.v: every life of a session state is a run of the symbolic ratchet (C51, C54). *)
From Verif Require Import Base Labels Crypto Bytehelper Ecc Cbc Keys X3dh Messages SessionState SessionRecord SessionBuilder SessionCipher
  CryptoProofs SessionProofs SerialProofs SessionSpec GroupSpec FsSpec FsProofs.
From Coq Require Import Lia List ZifyBool ZifyN ZifyNat.
Import ListNotations.
Local Open Scope list_scope.

Section R.
Context (C : crypto) (L : crypto_laws C) (init : nat -> bytes).
Notation value := (value C init).
Notation reads_msg := (reads_msg C init).
Notation reads_chain := (reads_chain C init).
Notation reads := (reads C init).

Lemma iter_value : forall n ck t, ck_key ck = value t -> ck_key (ck_iter C n ck) = value (steps n t).
Proof.
  intros n ck t H. induction n as [|n IH]; [exact H|]. rewrite ck_iter_snoc. cbn [steps FsSpec.value]. rewrite <- IH. reflexivity.
Qed.

Lemma cut80 : forall km : bytes, length km = 80%nat -> firstn 32 km ++ firstn 32 (skipn 32 km) ++ firstn 16 (skipn 64 km) = km.
Proof.
  intros km H. rewrite <- (firstn_skipn 32 km) at 4. f_equal. rewrite <- (firstn_skipn 32 (skipn 32 km)) at 2. f_equal.
  rewrite skipn_skipn'. cbn [Nat.add]. apply firstn_all2. rewrite skipn_length, H. apply Nat.leb_le. reflexivity.
Qed.

Lemma msg_value : forall ck t, ck_key ck = value t -> reads_msg (ck_index ck, Msg t) (message_keys C ck).
Proof.
  intros ck t H. pose proof (hkdf_bytes_length C (base_material C ck message_key_seed) None message_kdf_info message_secrets_size (law_hmac_len C L)) as HL.
  unfold FsSpec.reads_msg. cbn [fst snd FsSpec.value]. unfold message_keys, new_key_material. cbn [mk_index mk_cipher mk_mac mk_iv].
  split; [reflexivity|]. split; [|split].
  - rewrite cut80 by exact HL. unfold base_material. rewrite H. reflexivity.
  - rewrite firstn_length, HL. reflexivity.
  - rewrite firstn_length, skipn_length, HL. reflexivity.
Qed.

Lemma skipped_value : forall d ck t pos, ck_key ck = value t -> ck_index ck = pos -> (pos + N.of_nat d < u32_modulus)%N ->
  Forall2 reads_msg (skipped t pos d) (mk_range C d ck).
Proof.
  induction d as [|d IH]; intros ck t pos HK HP HD; [constructor|].
  replace (S d) with (d + 1)%nat by lia. rewrite mk_range_app. unfold skipped. rewrite seq_app, map_app. apply Forall2_app.
  - apply IH; auto. lia.
  - cbn [mk_range map seq Nat.add]. constructor; [|constructor].
    assert (HI := ck_iter_index C d ck ltac:(lia)). rewrite <- HP, <- HI. apply msg_value. apply iter_value. exact HK.
Qed.

Lemma Forall2_skipn : forall A B (R : A -> B -> Prop) n a b, Forall2 R a b -> Forall2 R (skipn n a) (skipn n b).
Proof. intros A B R n. induction n as [|n IH]; intros a b H; [exact H|]. destruct H; [constructor|]. cbn [skipn]. apply IH. assumption. Qed.
Lemma Forall2_length' : forall A B (R : A -> B -> Prop) a b, Forall2 R a b -> length a = length b.
Proof. intros A B R a b H. induction H; cbn; congruence. Qed.
Lemma Forall2_last : forall A B (R : A -> B -> Prop) n a b, Forall2 R a b -> Forall2 R (last_n n a) (lastn n b).
Proof. intros A B R n a b H. unfold last_n, lastn. rewrite (Forall2_length' _ _ _ _ _ H). apply Forall2_skipn. exact H. Qed.

Lemma find_index_some : forall n l, existsb (fun m => (mk_index m =? n)%N) l = true -> exists i m, find_index n l = Some i /\ nth_error l i = Some m /\ mk_index m = n.
Proof.
  intros n l. induction l as [|x l IH]; intros H; [discriminate|]. cbn [existsb find_index] in *. destruct (mk_index x =? n)%N eqn:E.
  - exists 0%nat, x. repeat split. lia.
  - cbn [orb] in H. destruct (IH H) as (i & m & H1 & H2 & H3). rewrite H1. exists (S i), m. auto.
Qed.
Lemma Forall2_nth_split : forall A B (R : A -> B -> Prop) b a i y, Forall2 R a b -> nth_error b i = Some y ->
  exists a1 x a2, a = a1 ++ x :: a2 /\ R x y /\ Forall2 R (a1 ++ a2) (firstn i b ++ skipn (S i) b).
Proof.
  intros A B R b a i y H. revert i. induction H as [|x z a b Hx H IH]; intros i Hi; [destruct i; discriminate|]. destruct i as [|i].
  - injection Hi as ->. exists [], x, a. repeat split; assumption.
  - destruct (IH i Hi) as (a1 & x' & a2 & -> & R1 & R2). exists (x :: a1), x', a2. split; [reflexivity|]. split; [exact R1|]. cbn [app firstn skipn]. constructor; assumption.
Qed.

(** One use of a receiver chain. *)
Lemma receive_refines : forall y c n mk c', reads_chain y c -> (length (ch_msgs c) <= 2000)%nat -> (n < u32_modulus)%N ->
  chain_receive C c n = Ok (mk, c') -> exists t y', yuse y n t y' /\ reads_chain y' c' /\ reads_msg (n, t) mk.
Proof.
  intros y c n mk c' (RP & RK & RI & RM) HB Hn H. unfold chain_receive in H.
  destruct (n <? ck_index (ch_key c))%N eqn:E1.
  - destruct (has_message_keys c n) eqn:E2; [|discriminate]. unfold has_message_keys in E2. destruct (find_index_some _ _ E2) as (i & m & F1 & F2 & F3).
    unfold remove_message_keys in H. rewrite F1, F2 in H. injection H as <- <-.
    destruct (Forall2_nth_split _ _ _ _ _ _ _ RM F2) as (a1 & [n' t] & a2 & EQ & R1 & R2).
    assert (n' = n) by (destruct R1 as [R1 _]; cbn [fst] in R1; congruence). subst n'.
    exists t, {| yc_pub := yc_pub y; yc_key := yc_key y; yc_pos := yc_pos y; yc_kept := a1 ++ a2 |}. split; [apply Y_kept; exact EQ|]. split; [|exact R1].
    repeat split; try assumption.
  - destruct (max_future <? n - ck_index (ch_key c))%N eqn:E2; [discriminate|].
    set (d := N.to_nat (n - ck_index (ch_key c))) in *. assert (HD : n = (yc_pos y + N.of_nat d)%N) by (unfold d; lia). clearbody d. change (Ok (message_keys C (ck_iter C d (ch_key c)), chain_set_key (ck_iter C (S d) (ch_key c)) (add_keys (mk_range C d (ch_key c)) c)) = Ok (mk, c')) in H.
    set (ck' := ck_iter C (S d) (ch_key c)) in H. injection H as <- <-.
    assert (HI : ck_index (ck_iter C d (ch_key c)) = n) by (rewrite ck_iter_index; rewrite ?RI; lia).
    exists (Msg (steps d (yc_key y))).
    exists {| yc_pub := yc_pub y; yc_key := steps (S d) (yc_key y); yc_pos := ((n + 1) mod 2 ^ 32)%N; yc_kept := last_n (N.to_nat 2000) (yc_kept y ++ skipped (yc_key y) (yc_pos y) d) |}.
    split; [rewrite HD; apply Y_new; rewrite <- HD; exact Hn|]. split.
    + unfold FsSpec.reads_chain. cbn [yc_pub yc_key yc_pos yc_kept]. cbn [chain_set_key ch_pair ch_key ch_msgs]. rewrite add_keys_pair. split; [exact RP|]. split; [apply (iter_value (S d)); exact RK|].
      split; [unfold ck'; rewrite ck_iter_snoc; unfold next_key; cbn [ck_index]; rewrite HI; reflexivity|].
      rewrite add_keys_msgs by exact HB. change max_message_keys with (N.to_nat 2000). apply Forall2_last, Forall2_app; [exact RM|]. apply skipped_value; [exact RK|exact RI|rewrite <- HD; exact Hn].
    + rewrite <- HI. apply msg_value. apply iter_value. exact RK.
Qed.

Lemma find_split : forall k l c, find (chain_is k) l = Some c -> exists a b, l = a ++ c :: b /\ forall f, upd_first k f l = a ++ f c :: b.
Proof.
  intros k l. induction l as [|x l IH]; intros c H; [discriminate|]. cbn [find upd_first] in *. destruct (chain_is k x) eqn:E.
  - injection H as ->. exists [], l. split; reflexivity.
  - destruct (IH c H) as (a & b & -> & HU). exists (x :: a), b. split; [reflexivity|]. intros f. rewrite HU. reflexivity.
Qed.

Definition small (y : ysession) : Prop := (length (y_recv y) <= 5)%nat /\ Forall (fun c => (length (yc_kept c) <= N.to_nat 2000)%nat) (y_recv y).

Lemma small_step : forall y u y', small y -> ystep y u y' -> small y'.
Proof.
  intros y u y' [H1 H2] H. destruct H as [y|y a c b n t c' HE HU|y k dh1 dh2]; split; cbn [y_recv]; auto.
  - rewrite HE in H1. rewrite app_length in *. exact H1.
  - rewrite HE in H2. apply Forall_app in H2. destruct H2 as [A B]. inversion B as [|? ? B1 B2]; subst. apply Forall_app. split; [exact A|]. constructor; [|exact B2].
    inversion HU; subst; cbn [yc_kept].
    + rewrite H in B1. rewrite app_length in *. cbn [length] in B1. lia.
    + unfold last_n. rewrite skipn_length. lia.
  - unfold y_ratcheted, last_n. cbn [y_recv]. rewrite skipn_length. lia.
  - apply Forall_forall. intros c Hc. apply last_n_incl, in_app_iff in Hc. destruct Hc as [Hc|[<-|[]]]; [rewrite Forall_forall in H2; apply H2; exact Hc|]. cbn [yc_kept length]. lia.
Qed.

Lemma reads_small : forall y s, reads y s -> small y -> forall c, In c (s_recv s) -> (length (ch_msgs c) <= 2000)%nat.
Proof.
  intros y s (_ & _ & R) [_ S] c Hc. revert S Hc. induction R as [|x z a b Hx R IH]; intros S Hc; [destruct Hc|]. inversion S; subst. destruct Hc as [->|Hc]; [|apply IH; assumption].
  destruct Hx as (_ & _ & _ & RM). rewrite <- (Forall2_length' _ _ _ _ _ RM). assumption.
Qed.

Lemma Forall2_mid : forall A B (R : A -> B -> Prop) l b1 y b2, Forall2 R l (b1 ++ y :: b2) -> exists a1 x a2, l = a1 ++ x :: a2 /\ Forall2 R a1 b1 /\ R x y /\ Forall2 R a2 b2.
Proof.
  intros A B R l b1. revert l. induction b1 as [|z b1 IH]; intros l y b2 H.
  - inversion H; subst. exists [], x, l0. repeat split; auto.
  - inversion H; subst. destruct (IH _ _ _ H4) as (a1 & x' & a2 & -> & H5 & H6 & H7). exists (x :: a1), x', a2. repeat split; auto.
Qed.

(** A ratchet step. *)
Lemma chain_values : forall root their our sk t, create_chain C root their our = Ok sk -> root = value t ->
  exists priv, kp_priv our = Some priv /\ let dh := abytes (shared_secret C their priv) in
    sk_root sk = value (NextRoot t dh) /\ ck_key (sk_chain sk) = value (NewChain t dh) /\ ck_index (sk_chain sk) = 0%N.
Proof.
  intros root their our sk t H ->. unfold create_chain in H. destruct (kp_priv our) as [priv|]; [|discriminate]. rewrite derive_secrets_64 in H. cbn [bind] in H. injection H as <-.
  exists priv. repeat split; reflexivity.
Qed.

Lemma ratchet_refines : forall y s k recv send ours i root sc, reads y s -> small y -> s_root s = Some root -> create_chain C root k (ch_pair sc) = Ok recv ->
  create_chain C (sk_root recv) k ours = Ok send -> exists dh1 priv, kp_priv ours = Some priv /\ reads (y_ratcheted y k dh1 (abytes (shared_secret C k priv))) (ratcheted s k recv send ours i).
Proof.
  intros y s k recv send ours i root sc (RR & (sc' & _) & RC) [S1 _] HR H1 H2. rewrite RR in HR. injection HR as HR.
  destruct (chain_values _ _ _ _ _ H1 (eq_sym HR)) as (p1 & _ & D1 & D2 & D3). destruct (chain_values _ _ _ _ _ H2 D1) as (p2 & EP & E1 & E2 & E3).
  exists (abytes (shared_secret C k p1)), p2. split; [exact EP|]. unfold FsSpec.reads, y_ratcheted. cbn [y_root y_send y_recv]. unfold ratcheted.
  split; [cbn; f_equal; exact E1|]. split; [exists {| ch_pair := ours; ch_key := sk_chain send; ch_msgs := [] |}; split; [reflexivity|split; [exact E2|reflexivity]]|].
  cbn [s_recv set_sender_chain set_sender set_prev_counter add_receiver_chain set_recv set_root]. fold (fresh_chain k (sk_chain recv)).
  assert (HL := Forall2_length' _ _ _ _ _ RC).
  assert (X : (if (max_receiver_chains <? length (s_recv s ++ [fresh_chain k (sk_chain recv)]))%nat then tl (s_recv s ++ [fresh_chain k (sk_chain recv)]) else s_recv s ++ [fresh_chain k (sk_chain recv)])
            = lastn 5 (s_recv s ++ [fresh_chain k (sk_chain recv)])).
  { rewrite lastn_snoc; [reflexivity|lia|lia]. }
  rewrite X. apply Forall2_last, Forall2_app; [exact RC|]. constructor; [|constructor]. unfold FsSpec.reads_chain. cbn [yc_pub yc_key yc_pos yc_kept fresh_chain ch_pair kp_pub ch_key ch_msgs].
  split; [reflexivity|]. split; [exact D2|]. split; [exact D3|constructor].
Qed.

Lemma yrun_app : forall y u y1 v y2, yrun y u y1 -> yrun y1 v y2 -> yrun y (u ++ v) y2.
Proof. intros y u y1 v y2 H1 H2. induction H2 as [y1|y1 v y2 w y3 H2 IH H3]; [rewrite app_nil_r; exact H1|]. rewrite app_assoc. eapply Y_snoc; [apply IH; exact H1|exact H3]. Qed.
Lemma yrun_one : forall y u y1, ystep y u y1 -> yrun y u y1.
Proof. intros y u y1 H. apply (Y_snoc y [] y u y1); [constructor|exact H]. Qed.
Lemma small_run : forall y u y', small y -> yrun y u y' -> small y'.
Proof. intros y u y' HS H. induction H as [y|y u y1 v y2 H IH H1]; [exact HS|]. eapply small_step; [apply IH; exact HS|exact H1]. Qed.

Lemma prepared_refines : forall y s k g s1 g1 c, reads y s -> small y -> prepared C s k g s1 g1 c -> exists y1, yrun y [] y1 /\ reads y1 s1 /\ small y1.
Proof.
  intros y s k g s1 g1 c HR HS [(_ & -> & _)|(_ & root & sc & recv & send & ours & H1 & H2 & H3 & _ & H4 & _ & ->)].
  - exists y. repeat split; try (apply HR); try (apply HS). constructor.
  - destruct (ratchet_refines y s k recv send ours (ck_index (ch_key sc)) root sc HR HS H1 H3 H4) as (dh1 & priv & _ & Y2).
    assert (Y1 := Y_ratchet y k dh1 (abytes (shared_secret C k priv))). eexists. split; [apply yrun_one; exact Y1|]. split; [exact Y2|].
    eapply small_step; eassumption.
Qed.

Lemma use_refines : forall y s k c n mk c', reads y s -> small y -> receiver_chain k s = Some c -> (n < u32_modulus)%N -> chain_receive C c n = Ok (mk, c') ->
  exists t y', ystep y [t] y' /\ reads y' (upd_chain k (fun _ => c') s) /\ reads_msg (n, t) mk.
Proof.
  intros y s k c n mk c' HR HS HF Hn H. unfold receiver_chain in HF. destruct (find_split _ _ _ HF) as (a & b & EQ & HU).
  assert (HB : (length (ch_msgs c) <= 2000)%nat) by (apply (reads_small y s HR HS); rewrite EQ; apply in_app_iff; right; left; reflexivity).
  destruct HR as (RR & RS & RC). rewrite EQ in RC. destruct (Forall2_mid _ _ _ _ _ _ _ RC) as (a1 & x & a2 & EY & A1 & A2 & A3).
  destruct (receive_refines x c n mk c' A2 HB Hn H) as (t & x' & U1 & U2 & U3).
  exists t, {| y_root := y_root y; y_send := y_send y; y_recv := a1 ++ x' :: a2 |}. split; [eapply Y_receive; eassumption|]. split; [|exact U3].
  split; [exact RR|]. split; [exact RS|]. unfold upd_chain. cbn [s_recv set_recv y_recv]. rewrite HU. apply Forall2_app; [exact A1|]. constructor; assumption.
Qed.

Lemma reads_pending : forall y s p, reads y s -> reads y (set_pending p s).
Proof. intros y s p H. exact H. Qed.

Lemma mk_of_index : forall n t mk, reads_msg (n, t) mk -> reads_msg (mk_index mk, t) mk.
Proof. intros n t mk (H & R). split; [reflexivity|exact R]. Qed.

Lemma decrypt_refines : forall y s m g o s' g', reads y s -> small y -> u32_msg m -> decrypt_with_state C s m g = (o, s', g') ->
  exists u ts y', yrun y u y' /\ reads y' s' /\ small y' /\ derived_by C init ts (match o with Ok (_, mk) => [mk] | _ => [] end) /\ incl ts u /\ NoDup ts.
Proof.
  intros y s m g o s' g' HR HS Hm H. destruct (dws_cases C s m g o s' g' Hm H) as [(HF & ->)|(s1 & c & HP & _ & _ & HC)].
  - exists [], [], y. split; [constructor|]. split; [exact HR|]. split; [exact HS|]. split; [|split; [intros x []|constructor]]. destruct o as [x| |]; [exfalso; exact (HF x eq_refl)|constructor|constructor].
  - destruct (prepared_refines y s _ g s1 g' c HR HS HP) as (y1 & Y1 & Y2 & Y3). pose proof (prepared_chain C _ _ _ _ _ _ HP) as HRC. destruct HC as [(HF & -> & _)|(mk & c' & HC & HD)].
    + exists [], [], y1. split; [exact Y1|]. split; [exact Y2|]. split; [exact Y3|]. split; [|split; [intros x []|constructor]]. destruct o as [x| |]; [exfalso; exact (HF x eq_refl)|constructor|constructor].
    + destruct (use_refines y1 s1 _ c _ mk c' Y2 Y3 HRC Hm HC) as (t & y2 & Z1 & Z2 & Z3).
      assert (YR : yrun y [t] y2) by (change [t] with ([] ++ [t]); eapply Y_snoc; eassumption). assert (SM := small_step _ _ _ Y3 Z1).
      destruct HD as [(HF & ->)|(pt & rid & lid & -> & -> & _)].
      * exists [t], [], y2. split; [exact YR|]. split; [exact Z2|]. split; [exact SM|]. split; [|split; [intros x []|constructor]]. destruct o as [x| |]; [exfalso; exact (HF x eq_refl)|constructor|constructor].
      * exists [t], [t], y2. split; [exact YR|]. split; [apply reads_pending; exact Z2|]. split; [exact SM|]. split; [|split; [apply incl_refl|repeat constructor; intros []]]. constructor; [|constructor]. eapply mk_of_index. exact Z3.
Qed.

Lemma encrypt_cur : forall v pt ct r' es sc, s_sender (r_cur (v_load v)) = Some sc -> encrypt C v pt = (Ok ct, r', es) ->
  r_cur r' = set_sender_chain_key (next_key C (ch_key sc)) (r_cur (v_load v)).
Proof.
  intros v pt ct r' es sc HS H. unfold encrypt in H. rewrite HS in H. cbv zeta in H.
  destruct (encrypt_cbc C _ _ pt) as [body| |]; [|discriminate|discriminate].
  destruct (s_local_id (r_cur (v_load v))) as [lid|]; [|discriminate]. destruct (s_remote_id (r_cur (v_load v))) as [rid|]; [|discriminate].
  destruct (new_signal_message C _ _ _ _ _ body lid rid) as [sm| |]; [|discriminate|discriminate].
  match type of H with (match ?X with _ => _ end = _) => destruct X as [ct'| |] end; [|discriminate|discriminate].
  injection H as _ <- _. reflexivity.
Qed.

Lemma encrypt_refines : forall y v pt ct r' es sc, reads y (r_cur (v_load v)) -> s_sender (r_cur (v_load v)) = Some sc -> encrypt C v pt = (Ok ct, r', es) ->
  exists y', ystep y [Msg (y_send y)] y' /\ reads y' (r_cur r') /\ reads_msg (ck_index (ch_key sc), Msg (y_send y)) (message_keys C (ch_key sc)).
Proof.
  intros y v pt ct r' es sc (RR & (sc' & RS1 & RS2 & RS3) & RC) HS H. rewrite HS in RS1. injection RS1 as <-.
  exists {| y_root := y_root y; y_send := Step (y_send y); y_recv := y_recv y |}. split; [constructor|]. split; [|apply msg_value; exact RS2].
  rewrite (encrypt_cur v pt ct r' es sc HS H). unfold set_sender_chain_key. rewrite HS. split; [exact RR|]. split; [|exact RC].
  eexists. split; [reflexivity|]. cbn [ch_key ch_msgs next_key ck_key y_send FsSpec.value]. split; [|exact RS3]. unfold base_material. rewrite RS2. reflexivity.
Qed.

Lemma nodup_app_l : forall A (a b : list A), NoDup (a ++ b) -> NoDup a.
Proof. intros A a b H. induction a as [|x a IH]; [constructor|]. inversion H; subst. constructor; [|apply IH; assumption]. intros X. apply H2, in_app_iff. left. exact X. Qed.
Lemma nodup_apps : forall A (u u' a b : list A), NoDup (u ++ u') -> NoDup a -> NoDup b -> incl a u -> incl b u' -> NoDup (a ++ b).
Proof.
  intros A u u' a b H Ha Hb Ia Ib. apply NoDup_app_intro; [exact Ha|exact Hb|]. intros x Hx Hy. apply Ia in Hx. apply Ib in Hy. clear -H Hx Hy.
  induction u as [|z u IH]; [destruct Hx|]. inversion H; subst. destruct Hx as [->|Hx]; [|apply IH; assumption]. apply H2, in_app_iff. right. exact Hy.
Qed.

Lemma life_refines : forall s0 used s y0, life C s0 used s -> reads y0 s0 -> small y0 ->
  exists u ts y, yrun y0 u y /\ reads y s /\ small y /\ derived_by C init ts used /\ incl ts u /\ (NoDup u -> NoDup ts).
Proof.
  intros s0 used s y0 H R0 S0. induction H as [|used s m g o s' g' H IH Hm HD|used v pt ct r' es sc H IH HS HE|used s t s' H IH H1 H2].
  - exists [], [], y0. split; [constructor|]. split; [exact R0|]. split; [exact S0|]. split; [constructor|split; [intros x []|auto]].
  - destruct IH as (u & ts & y & Y1 & Y2 & Y3 & Y4 & Y5 & Y6). destruct (decrypt_refines y s m g o s' g' Y2 Y3 Hm HD) as (u' & ts' & y' & Z1 & Z2 & Z3 & Z4 & Z5 & Z6).
    exists (u ++ u'), (ts ++ ts'), y'. split; [eapply yrun_app; eassumption|]. split; [exact Z2|]. split; [exact Z3|]. split; [apply Forall2_app; assumption|]. split; [apply incl_app; [apply incl_appl|apply incl_appr]; assumption|].
    intros ND. apply nodup_apps with u u'; auto. apply Y6. exact (nodup_app_l _ _ _ ND).
  - destruct IH as (u & ts & y & Y1 & Y2 & Y3 & Y4 & Y5 & Y6). destruct (encrypt_refines y v pt ct r' es sc Y2 HS HE) as (y' & Z1 & Z2 & Z3).
    exists (u ++ [Msg (y_send y)]), (ts ++ [Msg (y_send y)]), y'. split; [eapply Y_snoc; eassumption|]. split; [exact Z2|]. split; [eapply small_step; eassumption|].
    split; [apply Forall2_app; [exact Y4|constructor; [eapply mk_of_index; exact Z3|constructor]]|]. split; [apply incl_app; [apply incl_appl; exact Y5|apply incl_appr, incl_refl]|].
    intros ND. apply nodup_apps with u [Msg (y_send y)]; auto; [apply Y6; exact (nodup_app_l _ _ _ ND)|repeat constructor; intros []|apply incl_refl].
  - rewrite (state_roundtrip s t H1) in H2. injection H2 as <-. exact IH.
Qed.
End R.

(** * Starting points *)
Definition start_chain (p : nat * chain) : ychain :=
  {| yc_pub := kp_pub (ch_pair (snd p)); yc_key := Init (fst p); yc_pos := ck_index (ch_key (snd p)); yc_kept := [] |}.
Lemma start_chains : forall C init l k, (forall i c, nth_error l i = Some c -> init (k + i)%nat = ck_key (ch_key c)) -> Forall (fun c => ch_msgs c = []) l ->
  Forall2 (FsSpec.reads_chain C init) (map start_chain (combine (seq k (length l)) l)) l.
Proof.
  intros C init l. induction l as [|c l IH]; intros k HI HM; [constructor|]. inversion HM; subst. cbn [length seq combine map]. constructor.
  - unfold FsSpec.reads_chain, start_chain. cbn [fst snd yc_pub yc_key yc_pos yc_kept FsSpec.value]. split; [reflexivity|]. split; [symmetry; rewrite <- (Nat.add_0_r k); apply (HI 0%nat); reflexivity|].
    split; [reflexivity|]. rewrite H1. constructor.
  - apply IH; [|assumption]. intros i c' Hc. rewrite Nat.add_succ_comm. apply (HI (S i)). exact Hc.
Qed.
Lemma start_keys : forall l k, map yc_key (map start_chain (combine (seq k (length l)) l)) = map Init (seq k (length l)).
Proof. intros l. induction l as [|c l IH]; intros k; [reflexivity|]. cbn [length seq combine map start_chain yc_key fst]. f_equal. apply IH. Qed.
Lemma start_len : forall l k, length (map start_chain (combine (seq k (length l)) l)) = length l.
Proof. intros l k. rewrite map_length, combine_length, seq_length. lia. Qed.

Lemma start_reading : forall C s, just_set_up s -> exists init y0, ystart y0 /\ FsSpec.reads C init y0 s.
Proof.
  intros C s [HR (sc & HS & HM) HC HF]. destruct (s_root s) as [root|] eqn:ER; [|congruence].
  exists (fun n => match n with O => root | S O => ck_key (ch_key sc) | S (S i) => match nth_error (s_recv s) i with Some c => ck_key (ch_key c) | None => [] end end).
  exists {| y_root := Init 0; y_send := Init 1; y_recv := map start_chain (combine (seq 2 (length (s_recv s))) (s_recv s)) |}. split.
  - constructor; cbn [y_root y_send y_recv]; [reflexivity|reflexivity|rewrite start_len; apply start_keys| |rewrite start_len; exact HF].
    apply Forall_forall. intros c Hc. apply in_map_iff in Hc. destruct Hc as (p & <- & _). reflexivity.
  - unfold FsSpec.reads. cbn [y_root y_send y_recv FsSpec.value]. split; [exact ER|]. split; [exists sc; auto|]. apply start_chains; [|exact HC]. intros i c Hc. cbn [Nat.add]. rewrite Hc. reflexivity.
Qed.

Lemma ystart_small : forall y, ystart y -> small y.
Proof. intros y [_ _ _ K F]. split; [exact F|]. eapply Forall_impl; [|exact K]. cbn. intros c ->. cbn. lia. Qed.

(** * A ratchet step, with its Diffie-Hellman values *)
Section H.
Context (C : crypto) (L : crypto_laws C) (init : nat -> bytes).

Lemma ratchet_attempt : forall y s m g o s1 g1 ours, FsSpec.reads C init y s -> small y -> u32_msg m -> decrypt_with_state C s m g = (o, s1, g1) ->
  receiver_chain (sm_ratchet m) s = None -> s1 <> s -> fst (generate_key_pair C g) = Ok ours ->
  exists dh1 priv w ts y1, kp_priv ours = Some priv /\ yrun (y_ratcheted y (sm_ratchet m) dh1 (abytes (shared_secret C (sm_ratchet m) priv))) w y1 /\ FsSpec.reads C init y1 s1 /\ small y1 /\
    derived_by C init ts (match o with Ok (_, mk) => [mk] | _ => [] end) /\ incl ts w.
Proof.
  intros y s m g o s1 g1 ours HR HS Hm HD HN HX HG. destruct (dws_cases C s m g o s1 g1 Hm HD) as [(_ & E)|(s2 & c & HP & _ & _ & HC)]; [contradiction|].
  pose proof (prepared_chain C _ _ _ _ _ _ HP) as HRC.
  destruct HP as [(E & _)|(_ & root & sc & recv & send & ours' & H1 & H2 & H3 & H3' & H4 & _ & ES)]; [congruence|].
  rewrite H3' in HG. injection HG as ->.
  destruct (ratchet_refines C init y s (sm_ratchet m) recv send ours (ck_index (ch_key sc)) root sc HR HS H1 H3 H4) as (dh1 & priv & P1 & P2). rewrite <- ES in P2.
  set (yr := y_ratcheted y (sm_ratchet m) dh1 (abytes (shared_secret C (sm_ratchet m) priv))) in *.
  assert (SR : small yr) by (eapply (small_step init); [exact HS|apply Y_ratchet]). exists dh1, priv. destruct HC as [(HF & -> & _)|(mk & c' & HC & HE)].
  - exists [], [], yr. split; [exact P1|]. split; [constructor|]. split; [exact P2|]. split; [exact SR|]. split; [|intros x []]. destruct o as [x| |]; [exfalso; exact (HF x eq_refl)|constructor|constructor].
  - destruct (use_refines C L init yr s2 _ c _ mk c' P2 SR HRC Hm HC) as (t & y2 & Z1 & Z2 & Z3). assert (SM := small_step init _ _ _ SR Z1).
    destruct HE as [(HF & ->)|(pt & rid & lid & -> & -> & _)].
    + exists [t], [], y2. split; [exact P1|]. split; [apply yrun_one; exact Z1|]. split; [exact Z2|]. split; [exact SM|]. split; [|intros x []]. destruct o as [x| |]; [exfalso; exact (HF x eq_refl)|constructor|constructor].
    + exists [t], [t], y2. split; [exact P1|]. split; [apply yrun_one; exact Z1|]. split; [apply reads_pending; exact Z2|]. split; [exact SM|]. split; [|apply incl_refl].
      constructor; [|constructor]. eapply mk_of_index. exact Z3.
Qed.
End H.
