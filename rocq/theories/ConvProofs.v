(** ConvProofs.v: the two-party simulation behind C05 and C06. *)
From Verif Require Import Base Labels Crypto Bytehelper Ecc Cbc Keys X3dh Messages SessionState SessionRecord
  SessionBuilder SessionCipher Address World WireProofs CodecProofs CodecProofs2 CryptoProofs SessionProofs SerialProofs SessionSpec
  HistoryProofs InvariantProofs OpsProofs OpsProofs3 GroupSpec MiscProofs GroupProofs ConvSpec.
From Coq Require Import Lia ZifyBool ZifyN ZifyNat.

Section Conv.
Context (C : crypto) (L : crypto_laws C).

(** * The ladder of epochs *)

Record entry : Type := { en_priv : arr32; en_root : bytes; en_ck : chain_key }.
Definition en_pub (x : entry) : arr32 := x_base C (en_priv x).
Definition mkey (x : entry) (n : N) : msg_keys := message_keys C (ck_iter C (N.to_nat n) (en_ck x)).

Definition ladder (E : list entry) : Prop :=
  (forall k x y, nth_error E k = Some x -> nth_error E (S k) = Some y ->
     create_chain C (en_root x) (en_pub x) (pair_of C (en_priv y)) = Ok {| sk_root := en_root y; sk_chain := en_ck y |}) /\
  (forall x, In x E -> ck_index (en_ck x) = 0%N).

(** * One receiving chain *)

Definition chain_rel (E : list entry) (c : chain) (v : cview) : Prop :=
  exists x, nth_error E (cv_epoch v) = Some x /\ ch_pair c = {| kp_pub := en_pub x; kp_priv := None |} /\
    ch_key c = ck_iter C (N.to_nat (cv_next v)) (en_ck x) /\ ch_msgs c = map (mkey x) (cv_kept v) /\
    NoDup (cv_kept v) /\ (forall n, In n (cv_kept v) -> (n < cv_next v)%N) /\ (length (cv_kept v) <= 2000)%nat /\
    (cv_next v <= 4294967295)%N.

Lemma mkey_index : forall x n, ck_index (en_ck x) = 0%N -> (n < 4294967296)%N -> mk_index (mkey x n) = n.
Proof.
  intros x n H0 Hn. unfold mkey. destruct (message_keys_sizes C L (ck_iter C (N.to_nat n) (en_ck x))) as (_ & _ & _ & ->).
  rewrite ck_iter_index; rewrite H0; unfold u32_modulus; lia.
Qed.

Lemma mk_range_map : forall k a x, mk_range C k (ck_iter C (N.to_nat a) (en_ck x)) = map (mkey x) (n_range a k).
Proof.
  induction k as [|k IH]; intros a x; [reflexivity|]. cbn [mk_range]. unfold n_range. cbn [seq map]. f_equal.
  - unfold mkey. f_equal. f_equal. lia.
  - replace (next_key C (ck_iter C (N.to_nat a) (en_ck x))) with (ck_iter C (N.to_nat (a + 1)) (en_ck x)).
    + rewrite IH. unfold n_range. rewrite <- seq_shift, !map_map. apply map_ext. intros i. f_equal. lia.
    + replace (N.to_nat (a + 1)) with (S (N.to_nat a)) by lia. apply ck_iter_snoc.
Qed.

Lemma find_index_map : forall x n a b, ck_index (en_ck x) = 0%N -> (forall k, In k (a ++ n :: b) -> (k < 4294967296)%N) -> ~ In n a ->
  find_index n (map (mkey x) (a ++ n :: b)) = Some (length a).
Proof.
  intros x n a b H0 Hb Hn. induction a as [|y a IH]; cbn [app map find_index].
  - rewrite mkey_index by (auto; apply Hb; left; reflexivity). rewrite N.eqb_refl. reflexivity.
  - rewrite mkey_index by (auto; apply Hb; left; reflexivity).
    destruct (N.eqb_spec y n) as [->|]; [exfalso; apply Hn; left; reflexivity|].
    rewrite IH; [reflexivity| |intros HI; apply Hn; right; exact HI]. intros k Hk. apply Hb. right. exact Hk.
Qed.

Lemma filter_out' : forall n (a b : list N), NoDup (a ++ n :: b) -> filter (fun k => negb (k =? n)%N) (a ++ n :: b) = a ++ b.
Proof.
  intros n a b H. apply NoDup_remove in H. destruct H as [_ H]. rewrite filter_app. cbn [filter]. rewrite N.eqb_refl. cbn [negb].
  assert (K : forall l, ~ In n l -> filter (fun k => negb (k =? n)%N) l = l).
  { induction l as [|x l IH]; intros HN; [reflexivity|]. cbn [filter]. destruct (N.eqb_spec x n) as [->|E]; [exfalso; apply HN; left; reflexivity|].
    cbn [negb]. rewrite IH; [reflexivity|]. intros HI. apply HN. right. exact HI. }
  rewrite !K; [reflexivity| |]; intros HI; apply H; apply in_or_app; auto.
Qed.

Lemma chain_receive_rel : forall E c v n x, chain_rel E c v -> ladder E -> nth_error E (cv_epoch v) = Some x -> (n < 4294967295)%N ->
  match caccept v n with
  | Some v' => exists c', chain_receive C c n = Ok (mkey x n, c') /\ chain_rel E c' v' /\ cv_epoch v' = cv_epoch v
  | None => exists e, chain_receive C c n = Err e
  end.
Proof.
  intros E c v n x (x' & EX' & E1 & E2 & E3 & E4 & E5 & E6 & E7) HL EX Hn. rewrite EX in EX'. injection EX' as <-.
  assert (H0 : ck_index (en_ck x) = 0%N) by (apply (proj2 HL); eapply nth_error_In; exact EX).
  assert (HI : ck_index (ch_key c) = cv_next v) by (rewrite E2, ck_iter_index; rewrite H0; unfold u32_modulus; lia).
  unfold chain_receive, caccept. rewrite HI. destruct (N.ltb_spec n (cv_next v)) as [A|A].
  - assert (HM : has_message_keys c n = existsb (N.eqb n) (cv_kept v)).
    { unfold has_message_keys. rewrite E3. clear - L H0 E5 E7. induction (cv_kept v) as [|y l IH]; [reflexivity|]. cbn [map existsb].
      rewrite mkey_index by (auto; specialize (E5 y (or_introl eq_refl)); lia). rewrite N.eqb_sym. f_equal. apply IH. intros k Hk. apply E5. right. exact Hk. }
    rewrite HM. destruct (existsb (N.eqb n) (cv_kept v)) eqn:EB; [|eexists; reflexivity].
    apply existsb_exists in EB. destruct EB as (y & Hy & Ey). apply N.eqb_eq in Ey. subst y.
    apply in_split in Hy. destruct Hy as (a & b & EK). rewrite EK in E4.
    assert (Hna : ~ In n a) by (apply NoDup_remove in E4; destruct E4 as [_ K]; intros HA; apply K; apply in_or_app; auto).
    unfold remove_message_keys. rewrite E3, EK, find_index_map; auto; [|intros k Hk; rewrite <- EK in Hk; apply E5 in Hk; lia].
    rewrite map_app. cbn [map]. rewrite nth_error_app2 by (rewrite map_length; lia). rewrite map_length, Nat.sub_diag. cbn [nth_error].
    eexists. split; [reflexivity|]. split; [|reflexivity]. exists x. cbn [cv_epoch cv_next cv_kept ch_pair ch_key ch_msgs].
    rewrite filter_out' by exact E4. split; [exact EX|]. split; [exact E1|]. split; [exact E2|]. split.
    + replace (length a) with (length (map (mkey x) a)) by apply map_length.
      rewrite firstn_app, firstn_all, Nat.sub_diag. cbn [firstn]. rewrite app_nil_r, map_app. f_equal.
      rewrite skipn_app. rewrite skipn_all2 by lia. replace (S (length (map (mkey x) a)) - length (map (mkey x) a))%nat with 1%nat by lia. reflexivity.
    + split; [exact (NoDup_remove_1 _ _ _ E4)|]. split; [|split].
      * intros k Hk. apply E5. rewrite EK. apply in_or_app. apply in_app_or in Hk. destruct Hk; [auto|right; right; assumption].
      * rewrite EK in E6. rewrite app_length in *. cbn [length] in E6. lia.
      * exact E7.
  - unfold max_future. destruct (N.ltb_spec 5000 (n - cv_next v)) as [B|B]; [eexists; reflexivity|]. cbv zeta.
    set (d := N.to_nat (n - cv_next v)). eexists. split; [|split; [|reflexivity]].
    + rewrite E2, <- ck_iter_add. replace (N.to_nat (cv_next v) + d)%nat with (N.to_nat n) by (unfold d; lia). reflexivity.
    + exists x. cbn [cv_epoch cv_next cv_kept chain_set_key ch_pair ch_key ch_msgs]. split; [exact EX|]. split; [rewrite add_keys_pair; exact E1|].
      split; [rewrite <- ck_iter_add; f_equal; unfold d; lia|]. split.
      * rewrite add_keys_msgs by (rewrite E3, map_length; exact E6). rewrite E3, mk_range_map, <- map_app.
        change (lastn max_message_keys) with (@last_n msg_keys max_message_keys). rewrite <- last_n_map. reflexivity.
      * split; [|split; [|split]].
        -- apply last_n_nodup. apply nodup_app_both; [exact E4|apply n_range_nodup|]. intros k Hk Hr. apply E5 in Hk. apply n_range_in in Hr. lia.
        -- intros k Hk. apply last_n_in in Hk. apply in_app_or in Hk. destruct Hk as [Hk|Hk]; [apply E5 in Hk; lia|apply n_range_in in Hk; lia].
        -- eapply Nat.le_trans; [apply last_n_length|]. lia.
        -- lia.
Qed.

(** * Messages and states *)

Definition message_rel (E : list entry) (from to : arr32) (m : sig_msg) (e : nat) (n : N) (pt : bytes) : Prop :=
  exists x, nth_error E e = Some x /\ sm_ratchet m = en_pub x /\ sg_counter (sm_struct m) = n /\ sg_version (sm_struct m) = 3%Z /\
    (n < 4294967295)%N /\ verify_mac C m 3 from to (mk_mac (mkey x n)) = Ok tt /\ decrypt_with_key C m (mkey x n) = Ok pt /\
    sig_from_struct (sm_struct m) = Ok m /\
    exists body, sg_ct (sm_struct m) = Some body /\ (length body mod 16 = 0)%nat /\ (16 <= length body)%nat.

Definition state_rel (E : list entry) (me them : arr32) (v : pview) (s : state) : Prop :=
  s_version s = 3%Z /\ s_local_id s = Some me /\ s_remote_id s = Some them /\ s_pending_kx s = None /\ (s_prev_counter s < 4294967296)%N /\
  (exists x, nth_error E (pv_epoch v) = Some x /\ s_root s = Some (en_root x) /\
     s_sender s = Some {| ch_pair := pair_of C (en_priv x); ch_key := ck_iter C (N.to_nat (pv_count v)) (en_ck x); ch_msgs := [] |}) /\
  Forall2 (chain_rel E) (s_recv s) (pv_chains v) /\ NoDup (map cv_epoch (pv_chains v)) /\ (length (pv_chains v) <= 5)%nat.

Lemma nth_mono : forall {A} (E F : list A) k x, nth_error E k = Some x -> nth_error (E ++ F) k = Some x.
Proof. intros A E F k x H. rewrite nth_error_app1; [exact H|]. apply nth_error_Some. congruence. Qed.

Lemma chain_rel_mono : forall E F c v, chain_rel E c v -> chain_rel (E ++ F) c v.
Proof. intros E F c v (x & H & R). exists x. split; [apply nth_mono; exact H|exact R]. Qed.

Lemma message_rel_mono : forall E F a b m e n pt, message_rel E a b m e n pt -> message_rel (E ++ F) a b m e n pt.
Proof. intros E F a b m e n pt (x & H & R). exists x. split; [apply nth_mono; exact H|exact R]. Qed.

Lemma state_rel_mono : forall E F a b v s, state_rel E a b v s -> state_rel (E ++ F) a b v s.
Proof.
  intros E F a b v s (H1 & H2 & H3 & H4 & H5 & (x & Hx & Hr) & H7 & H8). repeat split; auto; try apply H8.
  - exists x. split; [apply nth_mono; exact Hx|exact Hr].
  - clear - H7. induction H7; constructor; auto. apply chain_rel_mono. assumption.
Qed.

(** Chains are found by ratchet key exactly as they are by epoch. *)
Lemma find_rel : forall E l vs e x, Forall2 (chain_rel E) l vs -> NoDup (map en_pub E) -> nth_error E e = Some x ->
  match cfind e vs with
  | Some v => exists c, find (chain_is (en_pub x)) l = Some c /\ chain_rel E c v /\ cv_epoch v = e
  | None => find (chain_is (en_pub x)) l = None
  end.
Proof.
  intros E l vs e x H HN HX. induction H as [|c v l vs Hc Hl IH]; [reflexivity|]. unfold cfind in *. cbn [find].
  destruct Hc as (y & Hy & Hp & R).
  assert (K : chain_is (en_pub x) c = Nat.eqb (cv_epoch v) e).
  { destruct (Nat.eqb_spec (cv_epoch v) e) as [EE|D].
    - apply chain_is_eq. rewrite Hp. cbn. congruence.
    - destruct (chain_is (en_pub x) c) eqn:EC; [|reflexivity]. exfalso. apply chain_is_eq in EC. rewrite Hp in EC. cbn [kp_pub] in EC. apply D.
      assert (HA : nth_error (map en_pub E) (cv_epoch v) = Some (en_pub y)) by (apply map_nth_error; exact Hy).
      assert (HB : nth_error (map en_pub E) e = Some (en_pub x)) by (apply map_nth_error; exact HX).
      rewrite NoDup_nth_error in HN. apply HN; [apply nth_error_Some; congruence|congruence]. }
  rewrite K. destruct (Nat.eqb_spec (cv_epoch v) e) as [EE|D]; [|exact IH].
  exists c. split; [reflexivity|]. split; [exists y; auto|exact EE].
Qed.

Lemma upd_rel : forall E l vs e x c' v v', Forall2 (chain_rel E) l vs -> NoDup (map en_pub E) -> NoDup (map cv_epoch vs) -> nth_error E e = Some x ->
  cfind e vs = Some v -> cv_epoch v' = e -> chain_rel E c' v' ->
  Forall2 (chain_rel E) (upd_first (en_pub x) (fun _ => c') l) (creplace v' vs).
Proof.
  intros E l vs e x c' v v' H HN HD HX HF HE HC. induction H as [|c u l vs Hc Hl IH]; [constructor|].
  unfold cfind in HF. cbn [find] in HF. cbn [map] in HD. inversion HD as [|? ? HD1 HD2]; subst.
  assert (Hc' := Hc). destruct Hc' as (y & Hy & Hp & R). cbn [upd_first creplace map].
  destruct (Nat.eqb_spec (cv_epoch u) (cv_epoch v')) as [EE|D].
  - assert (EC : chain_is (en_pub x) c = true) by (apply chain_is_eq; rewrite Hp; cbn; congruence). rewrite EC.
    constructor; [exact HC|]. replace (map _ vs) with vs; [exact Hl|]. rewrite <- (map_id vs) at 1. apply map_ext_in. intros z Hz.
    destruct (Nat.eqb_spec (cv_epoch z) (cv_epoch v')) as [E2|]; [|reflexivity]. exfalso. apply HD1. rewrite EE, <- E2. apply in_map. exact Hz.
  - assert (EC : chain_is (en_pub x) c = false).
    { destruct (chain_is (en_pub x) c) eqn:EC; [|reflexivity]. exfalso. apply chain_is_eq in EC. rewrite Hp in EC. cbn [kp_pub] in EC. apply D.
      assert (HA : nth_error (map en_pub E) (cv_epoch u) = Some (en_pub y)) by (apply map_nth_error; exact Hy).
      assert (HB : nth_error (map en_pub E) (cv_epoch v') = Some (en_pub x)) by (apply map_nth_error; exact HX).
      rewrite NoDup_nth_error in HN. apply HN; [apply nth_error_Some; congruence|congruence]. }
    rewrite EC. constructor; [exact Hc|]. apply IH; auto.
Qed.

Lemma creplace_epochs : forall v' vs, map cv_epoch (creplace v' vs) = map cv_epoch vs.
Proof.
  intros v' vs. unfold creplace. rewrite map_map. apply map_ext. intros c. destruct (Nat.eqb_spec (cv_epoch c) (cv_epoch v')) as [->|]; reflexivity.
Qed.

Lemma cfind_none_epochs : forall e vs, cfind e vs = None -> ~ In e (map cv_epoch vs).
Proof.
  intros e vs H HI. apply in_map_iff in HI. destruct HI as (c & E & Hc). apply (find_none _ _ H) in Hc. rewrite E, Nat.eqb_refl in Hc. discriminate.
Qed.

Lemma caccept_epoch : forall c n c', caccept c n = Some c' -> cv_epoch c' = cv_epoch c.
Proof.
  intros c n c' H. unfold caccept in H. destruct (n <? cv_next c)%N.
  - destruct (existsb _ _); [|discriminate]. injection H as <-. reflexivity.
  - destruct (5000 <? _)%N; [discriminate|]. injection H as <-. reflexivity.
Qed.

(** verify_mac and the body decryption can not panic on a well-formed message. *)
Lemma genuine_no_panic : forall m a b k, sig_from_struct (sm_struct m) = Ok m -> verify_mac C m 3 a b k <> Panic.
Proof.
  intros m a b k H. unfold verify_mac. rewrite H. cbn [bind]. unfold get_mac, trim. rewrite (law_hmac_len C L).
  change (32 <? mac_length)%nat with false. cbn [bind]. destruct (bytes_eqb _ _); discriminate.
Qed.

Lemma body_no_panic : forall m mk body, length (mk_cipher mk) = 32%nat -> length (mk_iv mk) = 16%nat -> sg_ct (sm_struct m) = Some body ->
  (length body mod 16 = 0)%nat -> (16 <= length body)%nat -> decrypt_with_key C m mk <> Panic.
Proof.
  intros m mk body H1 H2 H3 H4 H5. unfold decrypt_with_key. rewrite H3. intros H. apply (decrypt_cbc_panics C L) in H.
  revert H. unfold aes_key_ok. rewrite H1, H2. cbn [Nat.eqb orb]. clear - H4 H5. lia.
Qed.

(** * One delivery against the current state *)

(** What a decryption leaves alone. *)
Definition kept (s s' : state) : Prop :=
  s_base s' = s_base s /\ s_local_reg s' = s_local_reg s /\ s_remote_reg s' = s_remote_reg s.

Lemma dws_known : forall E me them v s m e n pt c g, state_rel E me them v s -> message_rel E them me m e n pt -> ladder E ->
  NoDup (map en_pub E) -> cfind e (pv_chains v) = Some c ->
  match caccept c n with
  | Some c' => exists s' mk, decrypt_with_state C s m g = (Ok (pt, mk), s', g) /\ s_pending s' = None /\ kept s s' /\
      state_rel E me them {| pv_epoch := pv_epoch v; pv_count := pv_count v; pv_chains := creplace c' (pv_chains v) |} s'
  | None => exists er s', decrypt_with_state C s m g = (Err er, s', g)
  end.
Proof.
  intros E me them v s m e n pt c g HS HM HL HN HF.
  destruct HS as (V & HLi & HRi & HK & HPC & (x & Hx & Hroot & Hsend) & HC & HD & H5).
  destruct HM as (y & Hy & M1 & M2 & M3 & M4 & M5 & M6 & M7 & M8).
  pose proof (find_rel E _ _ e y HC HN Hy) as HFR. rewrite HF in HFR. destruct HFR as (ch & F1 & F2 & F3).
  assert (HRC : receiver_chain (sm_ratchet m) s = Some ch) by (unfold receiver_chain; rewrite M1; exact F1).
  rewrite <- F3 in Hy. pose proof (chain_receive_rel E ch c n y F2 HL Hy M4) as HR.
  unfold decrypt_with_state. rewrite Hsend, M3, V. cbn [Z.eqb Pos.eqb negb]. rewrite (gcck_known C _ _ _ _ HRC).
  rewrite (gcmk_spec C s _ ch) by (auto; rewrite M2; unfold u32_modulus; lia). rewrite M2.
  destruct (caccept c n) as [c'|] eqn:EA.
  - destruct HR as (ch' & R1 & R2 & R3). rewrite R1. cbn [s_remote_id s_local_id upd_chain set_recv]. rewrite HRi, HLi, M5, M6.
    eexists. eexists. split; [reflexivity|]. split; [reflexivity|]. split; [repeat split|].
    unfold state_rel. cbn [pv_epoch pv_count pv_chains]. repeat split; auto.
    + exists x. auto.
    + cbn [s_recv set_pending upd_chain set_recv]. rewrite M1. rewrite F3 in Hy. eapply upd_rel; eauto. congruence.
    + rewrite creplace_epochs. exact HD.
    + unfold creplace. rewrite map_length. exact H5.
  - destruct HR as (er & R1). rewrite R1. eauto.
Qed.

Lemma creplace_fresh : forall v0 v' vs, ~ In (cv_epoch v') (map cv_epoch vs) -> cv_epoch v0 = cv_epoch v' -> creplace v' (vs ++ [v0]) = vs ++ [v'].
Proof.
  intros v0 v' vs H H0. unfold creplace. rewrite map_app. cbn [map]. rewrite H0, Nat.eqb_refl. f_equal.
  rewrite <- (map_id vs) at 2. apply map_ext_in. intros c Hc. destruct (Nat.eqb_spec (cv_epoch c) (cv_epoch v')) as [EE|]; [|reflexivity].
  exfalso. apply H. rewrite <- EE. apply in_map. exact Hc.
Qed.

Lemma last_n_five : forall {A} (l : list A) x, (length l <= 5)%nat -> last_n 5 (l ++ [x]) = if (5 <? length (l ++ [x]))%nat then tl (l ++ [x]) else l ++ [x].
Proof.
  intros A l x H. unfold last_n. rewrite app_length. cbn [length]. destruct (Nat.ltb_spec 5 (length l + 1)) as [B|B].
  - replace (length l + 1 - 5)%nat with 1%nat by lia. destruct (l ++ [x]); reflexivity.
  - replace (length l + 1 - 5)%nat with 0%nat by lia. reflexivity.
Qed.

Lemma forall2_app_one : forall {A B} (R : A -> B -> Prop) l vs c v, Forall2 R l vs -> R c v -> Forall2 R (l ++ [c]) (vs ++ [v]).
Proof. intros A B R l vs c v H H0. apply Forall2_app; auto. Qed.

Lemma forall2_tl : forall {A B} (R : A -> B -> Prop) l vs, Forall2 R l vs -> Forall2 R (tl l) (tl vs).
Proof. intros A B R l vs H. destruct H; cbn; auto. Qed.

Lemma next_gcck : forall E me them v s e y priv' g g1, state_rel E me them v s -> ladder E ->
  NoDup (map en_pub E) -> nth_error E e = Some y -> e = S (pv_epoch v) -> receiver_chain (en_pub y) s = None ->
  generate_key_pair C g = (Ok (pair_of C priv'), g1) ->
  exists ent send i, en_priv ent = priv' /\ create_chain C (en_root y) (en_pub y) (pair_of C priv') = Ok send /\
    en_root ent = sk_root send /\ en_ck ent = sk_chain send /\ ck_index (en_ck ent) = 0%N /\ (i < 4294967296)%N /\
    get_or_create_chain_key C s (en_pub y) g =
      (Ok (en_ck y), ratcheted s (en_pub y) {| sk_root := en_root y; sk_chain := en_ck y |} send (pair_of C priv') i, g1).
Proof.
  intros E me them v s e y priv' g g1 HS HL HN Hy He HR HG.
  destruct HS as (V & HLi & HRi & HK & HPC & (x & Hx & Hroot & Hsend) & HC & HD & H5).
  subst e. pose proof (proj1 HL _ _ _ Hx Hy) as HCC.
  destruct (create_chain_agree C L (en_root x) (en_priv x) (en_priv y)) as (k & K1 & K2 & _).
  unfold en_pub in HCC. rewrite HCC in K2. injection K2 as <-.
  destruct (create_chain_agree C L (en_root y) priv' (en_priv y)) as (send & S1 & _ & _ & _ & S5).
  exists {| en_priv := priv'; en_root := sk_root send; en_ck := sk_chain send |}, send.
  assert (HI : (ck_index (ck_iter C (N.to_nat (pv_count v)) (en_ck x)) < 4294967296)%N).
  { destruct (N.to_nat (pv_count v)) as [|j].
    - cbn. rewrite (proj2 HL x); [lia|]. eapply nth_error_In; exact Hx.
    - rewrite ck_iter_snoc. cbn [next_key ck_index]. unfold u32_add, u32. apply N.mod_lt. discriminate. }
  exists (ck_index (ck_iter C (N.to_nat (pv_count v)) (en_ck x))).
  cbn [en_priv en_root en_ck]. repeat (split; [first [reflexivity|assumption]|]).
  unfold get_or_create_chain_key. rewrite HR, Hroot, Hsend. cbn [ch_pair ch_key]. unfold en_pub. rewrite K1, HG.
  cbn [sk_root]. rewrite S1. reflexivity.
Qed.

Lemma dws_next : forall E me them v s m e n pt priv' g g1, state_rel E me them v s -> message_rel E them me m e n pt -> ladder E ->
  NoDup (map en_pub E) -> cfind e (pv_chains v) = None -> e = S (pv_epoch v) -> length E = S e ->
  generate_key_pair C g = (Ok (pair_of C priv'), g1) ->
  match caccept {| cv_epoch := e; cv_next := 0; cv_kept := [] |} n with
  | Some c' => exists ent s' mk, decrypt_with_state C s m g = (Ok (pt, mk), s', g1) /\ s_pending s' = None /\ kept s s' /\
      en_priv ent = priv' /\ ladder (E ++ [ent]) /\
      (NoDup (map en_pub (E ++ [ent])) -> state_rel (E ++ [ent]) me them {| pv_epoch := S e; pv_count := 0; pv_chains := last_n 5 (pv_chains v ++ [c']) |} s')
  | None => exists er s', decrypt_with_state C s m g = (Err er, s', g1)
  end.
Proof.
  intros E me them v s m e n pt priv' g g1 HS HM HL HN HF He HE HG. assert (HS' := HS).
  destruct HS as (V & HLi & HRi & HK & HPC & (x & Hx & Hroot & Hsend) & HC & HD & H5).
  destruct HM as (y & Hy & M1 & M2 & M3 & M4 & M5 & M6 & M7 & M8).
  pose proof (find_rel E _ _ e y HC HN Hy) as HFR. rewrite HF in HFR.
  destruct (next_gcck E me them v s e y priv' g g1 HS' HL HN Hy He HFR HG) as (ent & send & i & N1 & N2 & N3 & N4 & N5 & N6 & N7).
  unfold decrypt_with_state. rewrite Hsend, M3, V. cbn [Z.eqb Pos.eqb negb]. rewrite M1, N7.
  set (recv := {| sk_root := en_root y; sk_chain := en_ck y |}) in *.
  set (s1 := ratcheted s (en_pub y) recv send (pair_of C priv') i) in *.
  pose proof (receiver_chain_ratcheted s (en_pub y) recv send (pair_of C priv') i HFR) as HRC. fold s1 in HRC. cbn [sk_chain recv] in HRC.
  set (v0 := {| cv_epoch := e; cv_next := 0; cv_kept := [] |}) in *.
  assert (HV0 : chain_rel E (fresh_chain (en_pub y) (en_ck y)) v0).
  { exists y. cbn. split; [exact Hy|]. repeat split; auto; try constructor; try lia; try (intros k []). }
  pose proof (chain_receive_rel E _ v0 n y HV0 HL Hy M4) as HR.
  change (en_ck y) with (ch_key (fresh_chain (en_pub y) (en_ck y))).
  rewrite (gcmk_spec C s1 (en_pub y) (fresh_chain (en_pub y) (en_ck y))) by (auto; rewrite M2; unfold u32_modulus; lia).
  rewrite M2.
  destruct (caccept v0 n) as [c'|] eqn:EA.
  - destruct HR as (ch' & R1 & R2 & R3). rewrite R1.
    assert (HID : s_remote_id s1 = Some them /\ s_local_id s1 = Some me) by (split; [exact HRi|exact HLi]). destruct HID as [ID1 ID2].
    cbn [s_remote_id s_local_id upd_chain set_recv]. rewrite ID1, ID2, M5, M6.
    exists ent. eexists. eexists. split; [reflexivity|]. split; [reflexivity|]. split; [repeat split|]. split; [exact N1|].
    assert (HLE : nth_error (E ++ [ent]) (S e) = Some ent) by (rewrite nth_error_app2 by lia; rewrite HE, Nat.sub_diag; reflexivity).
    split.
    { split.
      - intros k a b Ha Hb. destruct (Nat.lt_ge_cases (S k) (length E)) as [B|B].
        + rewrite nth_error_app1 in Ha, Hb by lia. eapply (proj1 HL); eauto.
        + assert (Hk : (S k < length (E ++ [ent]))%nat) by (apply nth_error_Some; congruence). rewrite app_length in Hk. cbn [length] in Hk.
          assert (k = e) by lia. subst k. rewrite HLE in Hb. injection Hb as <-. rewrite nth_error_app1 in Ha by lia. rewrite Hy in Ha. injection Ha as <-.
          rewrite N1, N2, N3, N4. destruct send; reflexivity.
      - intros a Ha. apply in_app_or in Ha. destruct Ha as [Ha|[<-|[]]]; [apply (proj2 HL); exact Ha|exact N5]. }
    intros HNE. unfold state_rel. cbn [pv_epoch pv_count pv_chains].
    split; [exact V|]. split; [exact HLi|]. split; [exact HRi|]. split; [exact HK|].
    split. { change (N.max (u32_sub i 1) 0 < 4294967296)%N. rewrite N.max_0_r. unfold u32_sub, u32. apply N.mod_lt. discriminate. }
    split. { exists ent. split; [exact HLE|]. split; [cbn; rewrite N3; reflexivity|]. cbn. rewrite N1, N4. reflexivity. }
    assert (HF2 : Forall2 (chain_rel (E ++ [ent])) (s_recv s1) (last_n 5 (pv_chains v ++ [v0]))).
    { rewrite last_n_five by exact H5. assert (HLen : length (s_recv s) = length (pv_chains v)) by (clear - HC; induction HC; cbn; congruence).
      assert (HA : Forall2 (chain_rel (E ++ [ent])) (s_recv s ++ [fresh_chain (en_pub y) (en_ck y)]) (pv_chains v ++ [v0])).
      { apply forall2_app_one; [|apply chain_rel_mono; exact HV0]. clear - HC. induction HC; constructor; auto. apply chain_rel_mono. assumption. }
      assert (HR1 : s_recv s1 = (if (5 <? length (pv_chains v ++ [v0]))%nat then tl (s_recv s ++ [fresh_chain (en_pub y) (en_ck y)]) else s_recv s ++ [fresh_chain (en_pub y) (en_ck y)])).
      { unfold s1, ratcheted. cbn [s_recv set_sender_chain set_sender set_prev_counter add_receiver_chain set_recv set_root].
        unfold max_receiver_chains. rewrite !app_length, HLen. reflexivity. }
      rewrite HR1. destruct (5 <? _)%nat; [apply forall2_tl|]; exact HA. }
    assert (HNI := cfind_none_epochs _ _ HF).
    assert (HEc : cv_epoch c' = e) by (rewrite R3; reflexivity).
    assert (HCR : last_n 5 (pv_chains v ++ [c']) = creplace c' (last_n 5 (pv_chains v ++ [v0]))).
    { rewrite <- (creplace_fresh v0 c') by (rewrite ?HEc; auto). unfold creplace. symmetry. apply last_n_map. }
    assert (HND : NoDup (map cv_epoch (last_n 5 (pv_chains v ++ [v0])))).
    { rewrite last_n_map. apply last_n_nodup. rewrite map_app. cbn [map]. apply nodup_app_both; [exact HD|repeat constructor; intros []|].
      intros a Ha [<-|[]]. exact (HNI Ha). }
    split; [|split].
    + cbn [s_recv set_pending upd_chain set_recv]. rewrite HCR.
      assert (HFD : exists q, cfind e (last_n 5 (pv_chains v ++ [v0])) = Some q).
      { unfold cfind. destruct (find _ (last_n 5 _)) as [q|] eqn:EF; [eauto|]. exfalso.
        assert (HIn : In v0 (last_n 5 (pv_chains v ++ [v0]))).
        { rewrite last_n_five by exact H5. destruct (Nat.ltb_spec 5 (length (pv_chains v ++ [v0]))) as [B|B]; [|apply in_or_app; right; left; reflexivity].
          destruct (pv_chains v) as [|a l]; [cbn in B; lia|]. cbn [app tl]. apply in_or_app. right. left. reflexivity. }
        pose proof (find_none _ _ EF v0 HIn) as HX. cbn [cv_epoch v0] in HX. rewrite Nat.eqb_refl in HX. discriminate. }
      destruct HFD as (q & HFD). eapply upd_rel; eauto; [apply nth_mono; exact Hy|apply chain_rel_mono; exact R2].
    + rewrite HCR, creplace_epochs. exact HND.
    + eapply Nat.le_trans; [apply last_n_length|]. lia.
  - destruct HR as (er & R1). rewrite R1. eauto.
Qed.

Lemma dws_forgotten : forall E me them v s m e n pt priv' g g1 o s' g', state_rel E me them v s -> message_rel E them me m e n pt ->
  NoDup (map en_pub E) -> cfind e (pv_chains v) = None -> generate_key_pair C g = (Ok (pair_of C priv'), g1) ->
  decrypt_with_state C s m g = (o, s', g') -> o <> Panic.
Proof.
  intros E me them v s m e n pt priv' g g1 o s' g' HS HM HN HF HG H.
  destruct HS as (V & HLi & HRi & HK & HPC & (x & Hx & Hroot & Hsend) & HC & HD & H5).
  destruct HM as (y & Hy & M1 & M2 & M3 & M4 & M5 & M6 & M7 & body & M8 & M9 & M10).
  pose proof (find_rel E _ _ e y HC HN Hy) as HFR. rewrite HF in HFR. fold (receiver_chain (en_pub y) s) in HFR.
  unfold decrypt_with_state in H. rewrite Hsend, M3, V in H. cbn [Z.eqb Pos.eqb negb] in H.
  destruct (get_or_create_chain_key C s (sm_ratchet m) g) as [[oc s1] g2] eqn:EG.
  assert (HO : exists recv send i, oc = Ok (sk_chain recv) /\ s1 = ratcheted s (en_pub y) recv send (pair_of C priv') i).
  { unfold get_or_create_chain_key in EG. rewrite M1, HFR, Hroot, Hsend in EG. cbn [ch_pair ch_key] in EG.
    destruct (create_chain_agree C L (en_root x) (en_priv x) (en_priv y)) as (recv & K1 & _).
    destruct (create_chain_agree C L (sk_root recv) priv' (en_priv y)) as (send & K2 & _).
    unfold en_pub in EG. rewrite K1, HG, K2 in EG.
    injection EG as <- <- <-. exists recv, send. eexists. split; reflexivity. }
  destruct HO as (recv & send & i & -> & ->). rewrite M1 in H.
  pose proof (receiver_chain_ratcheted s (en_pub y) recv send (pair_of C priv') i HFR) as HRC.
  set (s2 := ratcheted _ _ _ _ _ _) in *.
  change (sk_chain recv) with (ch_key (fresh_chain (en_pub y) (sk_chain recv))) in H.
  rewrite (gcmk_spec C s2 _ (fresh_chain (en_pub y) (sk_chain recv))) in H by (auto; rewrite M2; unfold u32_modulus; lia).
  unfold chain_receive in H. change (has_message_keys (fresh_chain (en_pub y) (sk_chain recv)) (sg_counter (sm_struct m))) with false in H. cbn iota in H.
  destruct (_ <? ck_index (ch_key (fresh_chain _ _)))%N; [injection H as <- _ _; discriminate|].
  destruct (max_future <? _)%N; [injection H as <- _ _; discriminate|]. cbv zeta in H.
  change (s_remote_id (upd_chain (en_pub y) _ s2)) with (s_remote_id s) in H.
  change (s_local_id (upd_chain (en_pub y) _ s2)) with (s_local_id s) in H. rewrite HRi, HLi in H.
  clear M5 M6. destruct (verify_mac C m 3 them me _) as [[]| |] eqn:EV; [|injection H as <- _ _; discriminate|exfalso; revert EV; apply genuine_no_panic; exact M7].
  destruct (decrypt_with_key C m _) as [q| |] eqn:ED; [injection H as <- _ _; discriminate|injection H as <- _ _; discriminate|].
  exfalso. revert ED. eapply body_no_panic; eauto; apply (message_keys_sizes C L).
Qed.
End Conv.
