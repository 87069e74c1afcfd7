(** SessionProofs.v: core facts about one session state: what a decrypt attempt does to it. *)
From Verif Require Import Base Labels Crypto Bytehelper Ecc Cbc Keys X3dh Messages SessionState SessionRecord
  SessionBuilder SessionCipher Toy CodecProofs CodecProofs2 CryptoProofs.
From Coq Require Import ZifyBool ZifyN ZifyNat.

(** * Receiver chains *)

Lemma chain_is_eq : forall k c, chain_is k c = true <-> kp_pub (ch_pair c) = k.
Proof. intros k c. unfold chain_is. apply arr_eqb_eq. Qed.

Lemma receiver_chain_is : forall k s c, receiver_chain k s = Some c -> kp_pub (ch_pair c) = k.
Proof. intros k s c H. apply find_some in H. apply chain_is_eq. tauto. Qed.

Lemma find_upd_first : forall k f l, (forall c, ch_pair (f c) = ch_pair c) ->
  find (chain_is k) (upd_first k f l) = option_map f (find (chain_is k) l).
Proof.
  intros k f l Hf. induction l as [|c l IH]; [reflexivity|]. cbn [upd_first find].
  destruct (chain_is k c) eqn:E; cbn [find].
  - unfold chain_is in *. rewrite Hf, E. reflexivity.
  - rewrite E. exact IH.
Qed.

Lemma find_upd_first_other : forall k k' f l, (forall c, ch_pair (f c) = ch_pair c) -> k' <> k ->
  find (chain_is k') (upd_first k f l) = find (chain_is k') l.
Proof.
  intros k k' f l Hf Hk. induction l as [|c l IH]; [reflexivity|]. cbn [upd_first find].
  destruct (chain_is k c) eqn:E; cbn [find].
  - assert (E' : chain_is k' (f c) = false /\ chain_is k' c = false) .
    { apply chain_is_eq in E. split; (destruct (chain_is k' _) eqn:X; [|reflexivity]);
        apply chain_is_eq in X; rewrite ?Hf in X; congruence. }
    destruct E' as [-> ->]. reflexivity.
  - rewrite IH. reflexivity.
Qed.

Lemma upd_first_id : forall k f l, (forall c, f c = c) -> upd_first k f l = l.
Proof.
  intros k f l Hf. induction l as [|c l IH]; [reflexivity|]. cbn. destruct (chain_is k c); [rewrite Hf|rewrite IH]; reflexivity.
Qed.

Lemma upd_first_compose : forall k f g l, (forall c, ch_pair (f c) = ch_pair c) ->
  upd_first k g (upd_first k f l) = upd_first k (fun c => g (f c)) l.
Proof.
  intros k f g l Hf. induction l as [|c l IH]; [reflexivity|]. cbn [upd_first].
  destruct (chain_is k c) eqn:E; cbn [upd_first].
  - unfold chain_is in *. rewrite Hf, E. reflexivity.
  - rewrite E, IH. reflexivity.
Qed.

Lemma upd_first_ext : forall k f g l, (forall c, find (chain_is k) l = Some c -> f c = g c) ->
  upd_first k f l = upd_first k g l.
Proof.
  intros k f g l H. induction l as [|c l IH]; [reflexivity|]. cbn [upd_first find] in *.
  destruct (chain_is k c); [rewrite H; reflexivity|]. rewrite IH; auto.
Qed.

Lemma upd_first_length : forall k f l, length (upd_first k f l) = length l.
Proof. intros k f l. induction l as [|c l IH]; [reflexivity|]. cbn. destruct (chain_is k c); cbn; congruence. Qed.

Lemma upd_first_pairs : forall k f l, (forall c, ch_pair (f c) = ch_pair c) ->
  map ch_pair (upd_first k f l) = map ch_pair l.
Proof.
  intros k f l Hf. induction l as [|c l IH]; [reflexivity|]. cbn. destruct (chain_is k c); cbn; [rewrite Hf|rewrite IH]; reflexivity.
Qed.

Lemma upd_first_Forall : forall (P : chain -> Prop) k f l, Forall P l ->
  (forall c, find (chain_is k) l = Some c -> P c -> P (f c)) -> Forall P (upd_first k f l).
Proof.
  intros P k f l H. induction H as [|c l Hc Hl IH]; intros HF; [constructor|]. cbn [upd_first find] in *.
  destruct (chain_is k c); constructor; auto.
Qed.

Lemma set_recv_same : forall s, set_recv (s_recv s) s = s.
Proof. intros []. reflexivity. Qed.

Lemma upd_chain_compose : forall k f g s, (forall c, ch_pair (f c) = ch_pair c) ->
  upd_chain k g (upd_chain k f s) = upd_chain k (fun c => g (f c)) s.
Proof. intros k f g s H. unfold upd_chain. cbn [s_recv set_recv]. rewrite upd_first_compose by exact H. reflexivity. Qed.

Lemma receiver_chain_upd : forall k f s, (forall c, ch_pair (f c) = ch_pair c) ->
  receiver_chain k (upd_chain k f s) = option_map f (receiver_chain k s).
Proof. intros k f s H. apply find_upd_first. exact H. Qed.

Lemma receiver_chain_upd_other : forall k k' f s, (forall c, ch_pair (f c) = ch_pair c) -> k' <> k ->
  receiver_chain k' (upd_chain k f s) = receiver_chain k' s.
Proof. intros k k' f s H Hk. apply find_upd_first_other; assumption. Qed.

(** * Chain key iteration *)

Section S.
Context (C : crypto).

Fixpoint ck_iter (n : nat) (ck : chain_key) : chain_key :=
  match n with O => ck | S n' => ck_iter n' (next_key C ck) end.

(** The message keys of the [n] positions from [ck] on. *)
Fixpoint mk_range (n : nat) (ck : chain_key) : list msg_keys :=
  match n with O => [] | S n' => message_keys C ck :: mk_range n' (next_key C ck) end.

Definition add_keys (l : list msg_keys) (c : chain) : chain := fold_left (fun c m => chain_add_key m c) l c.

Lemma add_keys_pair : forall l c, ch_pair (add_keys l c) = ch_pair c.
Proof. intros l. induction l as [|m l IH]; intros c; [reflexivity|]. cbn. unfold add_keys in IH. rewrite IH. reflexivity. Qed.
Lemma add_keys_key : forall l c, ch_key (add_keys l c) = ch_key c.
Proof. intros l. induction l as [|m l IH]; intros c; [reflexivity|]. cbn. unfold add_keys in IH. rewrite IH. reflexivity. Qed.

(** The last [n] elements. *)
Definition lastn {A} (n : nat) (l : list A) : list A := skipn (length l - n) l.

Lemma lastn_all : forall A n (l : list A), (length l <= n)%nat -> lastn n l = l.
Proof. intros A n l H. unfold lastn. replace (length l - n)%nat with 0%nat by lia. reflexivity. Qed.

Lemma lastn_snoc : forall A n (l : list A) x, (0 < n)%nat -> (length l <= n)%nat ->
  lastn n (l ++ [x]) = if (n <? length (l ++ [x]))%nat then tl (l ++ [x]) else l ++ [x].
Proof.
  intros A n l x Hn H. unfold lastn. rewrite app_length. cbn [length].
  destruct (n <? length l + 1)%nat eqn:E.
  - replace (length l + 1 - n)%nat with 1%nat by lia. destruct (l ++ [x]); reflexivity.
  - replace (length l + 1 - n)%nat with 0%nat by lia. reflexivity.
Qed.

Lemma lastn_length : forall A n (l : list A), length (lastn n l) = Nat.min n (length l).
Proof. intros A n l. unfold lastn. rewrite skipn_length. lia. Qed.

Lemma skipn_skipn' : forall A a b (l : list A), skipn a (skipn b l) = skipn (a + b) l.
Proof.
  intros A a b. induction b as [|b IH]; intros l; [rewrite Nat.add_0_r; reflexivity|].
  destruct l; [rewrite !skipn_nil; reflexivity|]. replace (a + S b)%nat with (S (a + b)) by lia. cbn. apply IH.
Qed.

Lemma lastn_lastn_app : forall A n (l r : list A), lastn n (lastn n l ++ r) = lastn n (l ++ r).
Proof.
  intros A n l r. destruct (Nat.le_gt_cases (length l) n) as [H|H].
  - rewrite (lastn_all A n l) by exact H. reflexivity.
  - pose proof (lastn_length A n l) as HL. replace (Nat.min n (length l)) with n in HL by lia.
    assert (HS : l = firstn (length l - n) l ++ lastn n l) by (symmetry; apply firstn_skipn).
    set (a := firstn (length l - n) l) in *. set (b := lastn n l) in *.
    assert (HA : length a = (length l - n)%nat) by (subst a; rewrite firstn_length; lia).
    rewrite HS, <- app_assoc. unfold lastn. rewrite !app_length.
    rewrite (skipn_app _ a). rewrite (skipn_all2 a) by lia. cbn [app]. f_equal. lia.
Qed.

Lemma add_keys_msgs : forall l c, (length (ch_msgs c) <= max_message_keys)%nat ->
  ch_msgs (add_keys l c) = lastn max_message_keys (ch_msgs c ++ l).
Proof.
  intros l. induction l as [|m l IH]; intros c H.
  - cbn. rewrite app_nil_r, lastn_all; auto.
  - unfold add_keys in *. cbn [fold_left].
    assert (HE : ch_msgs (chain_add_key m c) = lastn max_message_keys (ch_msgs c ++ [m])).
    { unfold chain_add_key. cbn [ch_msgs]. rewrite lastn_snoc; [reflexivity|unfold max_message_keys; lia|exact H]. }
    rewrite IH.
    + rewrite HE, lastn_lastn_app, <- app_assoc. reflexivity.
    + rewrite HE, lastn_length. lia.
Qed.

Lemma ck_iter_index : forall n ck, (ck_index ck + N.of_nat n < u32_modulus)%N ->
  ck_index (ck_iter n ck) = (ck_index ck + N.of_nat n)%N.
Proof.
  intros n. induction n as [|n IH]; intros ck H; [cbn; lia|]. cbn [ck_iter].
  assert (HN : ck_index (next_key C ck) = (ck_index ck + 1)%N).
  { cbn. apply u32_add_small. lia. }
  rewrite IH; rewrite HN; lia.
Qed.

Lemma ck_iter_snoc : forall n ck, ck_iter (S n) ck = next_key C (ck_iter n ck).
Proof. intros n. induction n as [|n IH]; intros ck; [reflexivity|]. cbn [ck_iter] in *. rewrite <- IH. reflexivity. Qed.

Lemma ck_iter_add : forall a b ck, ck_iter (a + b) ck = ck_iter b (ck_iter a ck).
Proof. intros a. induction a as [|a IH]; intros b ck; [reflexivity|]. cbn. apply IH. Qed.

Lemma mk_range_length : forall n ck, length (mk_range n ck) = n.
Proof. intros n. induction n as [|n IH]; intros ck; cbn; auto. Qed.

Lemma mk_range_app : forall a b ck, mk_range (a + b) ck = mk_range a ck ++ mk_range b (ck_iter a ck).
Proof. intros a. induction a as [|a IH]; intros b ck; [reflexivity|]. cbn. rewrite IH. reflexivity. Qed.

Lemma skip_keys_spec : forall fuel their counter ck s,
  (counter < u32_modulus)%N -> (ck_index ck + N.of_nat fuel = counter)%N ->
  skip_keys C fuel their counter ck s = (ck_iter fuel ck, upd_chain their (add_keys (mk_range fuel ck)) s).
Proof.
  intros fuel. induction fuel as [|f IH]; intros their counter ck s Hc Hf.
  - cbn. f_equal. unfold upd_chain. rewrite upd_first_id by reflexivity. symmetry. apply set_recv_same.
  - cbn [skip_keys]. replace (ck_index ck <? counter)%N with true by lia.
    assert (HN : ck_index (next_key C ck) = (ck_index ck + 1)%N).
    { cbn. apply u32_add_small. lia. }
    rewrite IH by (rewrite ?HN; lia). f_equal.
    rewrite upd_chain_compose by reflexivity. reflexivity.
Qed.

(** What a receiver chain does with counter [n]: an old counter takes a stored key out; a new one (at most
    5000 ahead) stores the keys in between and advances. *)
Definition chain_receive (c : chain) (n : N) : res (msg_keys * chain) :=
  if (n <? ck_index (ch_key c))%N then
    if has_message_keys c n then
      match remove_message_keys c n with Some x => Ok x | None => Panic end
    else Err EOldCounter
  else if (max_future <? n - ck_index (ch_key c))%N then Err ETooFarFuture
  else let d := N.to_nat (n - ck_index (ch_key c)) in
       Ok (message_keys C (ck_iter d (ch_key c)),
           chain_set_key (ck_iter (S d) (ch_key c)) (add_keys (mk_range d (ch_key c)) c)).

Lemma chain_receive_pair : forall c n mk c', chain_receive c n = Ok (mk, c') -> ch_pair c' = ch_pair c.
Proof.
  intros c n mk c' H. unfold chain_receive in H.
  destruct (n <? ck_index (ch_key c))%N.
  - destruct (has_message_keys c n); [|discriminate]. unfold remove_message_keys in H.
    destruct (nth_error (ch_msgs c) _); [|discriminate]. injection H as _ <-. reflexivity.
  - destruct (max_future <? _)%N; [discriminate|]. injection H as _ <-. cbn. apply add_keys_pair.
Qed.

Lemma gcmk_spec : forall s k c n, (n < u32_modulus)%N -> receiver_chain k s = Some c ->
  get_or_create_message_keys C s k (ch_key c) n =
  match chain_receive c n with
  | Ok (mk, c') => (Ok mk, upd_chain k (fun _ => c') s)
  | Err e => (Err e, s)
  | Panic => (Panic, s)
  end.
Proof.
  intros s k c n Hn Hr. unfold get_or_create_message_keys, chain_receive. rewrite Hr.
  destruct (n <? ck_index (ch_key c))%N eqn:E1.
  - destruct (has_message_keys c n); [|reflexivity].
    destruct (remove_message_keys c n) as [[mk c']|]; reflexivity.
  - rewrite u32_sub_small by lia.
    destruct (max_future <? n - ck_index (ch_key c))%N eqn:E2; [reflexivity|].
    rewrite skip_keys_spec by lia.
    rewrite upd_chain_compose by (intros x; apply add_keys_pair).
    rewrite <- ck_iter_snoc.
    f_equal. unfold upd_chain. f_equal. apply upd_first_ext. intros x Hx. unfold receiver_chain in Hr. congruence.
Qed.

(** * Chain creation *)

(** The state after a Diffie-Hellman ratchet step for their key [k] with our new pair [ours]. *)
Definition ratcheted (s : state) (k : arr32) (recv send : session_keys) (ours : ec_pair) (old_index : N) : state :=
  set_sender_chain ours (sk_chain send)
    (set_prev_counter (N.max (u32_sub old_index 1) 0)
    (add_receiver_chain k (sk_chain recv)
    (set_root (sk_root send) s))).

Lemma gcck_known : forall s k g c, receiver_chain k s = Some c ->
  get_or_create_chain_key C s k g = (Ok (ch_key c), s, g).
Proof. intros s k g c H. unfold get_or_create_chain_key. rewrite H. reflexivity. Qed.

Lemma gcck_new : forall s k g o s1 g1, receiver_chain k s = None ->
  get_or_create_chain_key C s k g = (o, s1, g1) ->
  match o with
  | Ok ck => exists root sc recv send ours,
      s_root s = Some root /\ s_sender s = Some sc /\ create_chain C root k (ch_pair sc) = Ok recv /\
      generate_key_pair C g = (Ok ours, g1) /\ create_chain C (sk_root recv) k ours = Ok send /\
      ck = sk_chain recv /\ s1 = ratcheted s k recv send ours (ck_index (ch_key sc))
  | _ => s1 = s
  end.
Proof.
  intros s k g o s1 g1 Hr H. unfold get_or_create_chain_key in H. rewrite Hr in H.
  destruct (s_root s) as [root|]; [|injection H as <- <- _; reflexivity].
  destruct (s_sender s) as [sc|]; [|injection H as <- <- _; reflexivity].
  destruct (create_chain C root k (ch_pair sc)) as [recv| |] eqn:E1;
    [|injection H as <- <- _; reflexivity|injection H as <- <- _; reflexivity].
  destruct (generate_key_pair C g) as [[ours| |] g2] eqn:E2;
    [|injection H as <- <- _; reflexivity|injection H as <- <- _; reflexivity].
  destruct (create_chain C (sk_root recv) k ours) as [send| |] eqn:E3;
    [|injection H as <- <- _; reflexivity|injection H as <- <- _; reflexivity].
  injection H as <- <- <-. exists root, sc, recv, send, ours. repeat split; auto.
Qed.

Lemma find_app : forall A (f : A -> bool) a b, find f (a ++ b) = match find f a with Some x => Some x | None => find f b end.
Proof. intros A f a b. induction a as [|x a IH]; [reflexivity|]. cbn. destruct (f x); auto. Qed.

Definition fresh_chain (k : arr32) (ck : chain_key) : chain :=
  {| ch_pair := {| kp_pub := k; kp_priv := None |}; ch_key := ck; ch_msgs := [] |}.

Lemma receiver_chain_ratcheted : forall s k recv send ours i, receiver_chain k s = None ->
  receiver_chain k (ratcheted s k recv send ours i) = Some (fresh_chain k (sk_chain recv)).
Proof.
  intros s k recv send ours i H. unfold receiver_chain, ratcheted in *.
  cbn [s_recv set_sender_chain set_sender set_prev_counter add_receiver_chain set_recv set_root].
  assert (HC : chain_is k (fresh_chain k (sk_chain recv)) = true) by (apply chain_is_eq; reflexivity).
  fold (fresh_chain k (sk_chain recv)).
  destruct (max_receiver_chains <? length (s_recv s ++ [fresh_chain k (sk_chain recv)]))%nat eqn:EL.
  - rewrite app_length in EL. cbn [length] in EL. unfold max_receiver_chains in EL.
    destruct (s_recv s) as [|c l]; [cbn [length] in EL; lia|]. cbn [app tl]. cbn [find] in H.
    destruct (chain_is k c); [discriminate|]. rewrite find_app, H. cbn [find]. rewrite HC. reflexivity.
  - rewrite find_app, H. cbn [find]. rewrite HC. reflexivity.
Qed.

(** * The outcome of a decrypt attempt against one state *)

(** The receiver chain for [k], possibly made by a ratchet step. *)
Definition prepared (s : state) (k : arr32) (g : rng) (s1 : state) (g1 : rng) (c : chain) : Prop :=
  (receiver_chain k s = Some c /\ s1 = s /\ g1 = g) \/
  (receiver_chain k s = None /\
   exists root sc recv send ours,
      s_root s = Some root /\ s_sender s = Some sc /\ create_chain C root k (ch_pair sc) = Ok recv /\
      generate_key_pair C g = (Ok ours, g1) /\ create_chain C (sk_root recv) k ours = Ok send /\
      c = fresh_chain k (sk_chain recv) /\ s1 = ratcheted s k recv send ours (ck_index (ch_key sc))).

Lemma prepared_chain : forall s k g s1 g1 c, prepared s k g s1 g1 c -> receiver_chain k s1 = Some c.
Proof.
  intros s k g s1 g1 c [(H & -> & _)|(H & root & sc & recv & send & ours & _ & _ & _ & _ & _ & -> & ->)]; [exact H|].
  apply receiver_chain_ratcheted. exact H.
Qed.

Lemma prepared_ids : forall s k g s1 g1 c, prepared s k g s1 g1 c ->
  s_remote_id s1 = s_remote_id s /\ s_local_id s1 = s_local_id s /\ s_version s1 = s_version s /\
  s_base s1 = s_base s /\ s_pending s1 = s_pending s /\ s_local_reg s1 = s_local_reg s /\ s_remote_reg s1 = s_remote_reg s /\
  s_pending_kx s1 = s_pending_kx s /\ s_needs_refresh s1 = s_needs_refresh s.
Proof.
  intros s k g s1 g1 c [(H & -> & _)|(H & root & sc & recv & send & ours & _ & _ & _ & _ & _ & _ & ->)].
  - repeat split.
  - unfold ratcheted, set_sender_chain, add_receiver_chain. repeat split.
Qed.

Definition failed {A} (o : res A) : Prop := forall x, o <> Ok x.

Lemma dws_cases : forall s m g o s' g', (sg_counter (sm_struct m) < u32_modulus)%N ->
  decrypt_with_state C s m g = (o, s', g') ->
  (failed o /\ s' = s) \/
  exists s1 c, prepared s (sm_ratchet m) g s1 g' c /\ s_sender s <> None /\ sg_version (sm_struct m) = s_version s /\
    ((failed o /\ s' = s1 /\ failed (chain_receive c (sg_counter (sm_struct m)))) \/
     exists mk c', chain_receive c (sg_counter (sm_struct m)) = Ok (mk, c') /\
       ((failed o /\ s' = upd_chain (sm_ratchet m) (fun _ => c') s1) \/
        exists pt rid lid, o = Ok (pt, mk) /\
          s' = set_pending None (upd_chain (sm_ratchet m) (fun _ => c') s1) /\
          s_remote_id s = Some rid /\ s_local_id s = Some lid /\
          verify_mac C m (sg_version (sm_struct m)) rid lid (mk_mac mk) = Ok tt /\
          decrypt_with_key C m mk = Ok pt)).
Proof.
  intros s m g o s' g' Hn H. unfold decrypt_with_state in H.
  destruct (s_sender s) as [sc|] eqn:Es; [|injection H as <- <- _; left; split; [intros x; discriminate|reflexivity]].
  destruct (sg_version (sm_struct m) =? s_version s)%Z eqn:Ev; cbn [negb] in H;
    [|injection H as <- <- _; left; split; [intros x; discriminate|reflexivity]].
  destruct (get_or_create_chain_key C s (sm_ratchet m) g) as [[oc s1] g1] eqn:Ec.
  assert (HP : (failed oc /\ s1 = s) \/ exists c, prepared s (sm_ratchet m) g s1 g1 c /\ oc = Ok (ch_key c)).
  { destruct (receiver_chain (sm_ratchet m) s) as [c|] eqn:Er.
    - rewrite (gcck_known _ _ _ _ Er) in Ec. injection Ec as <- <- <-. right. exists c. split; [left; auto|reflexivity].
    - pose proof (gcck_new _ _ _ _ _ _ Er Ec) as HC. destruct oc as [ck| |].
      + destruct HC as (root & sc' & recv & send & ours & H1 & H2 & H3 & H4 & H5 & H6 & H7).
        right. exists (fresh_chain (sm_ratchet m) (sk_chain recv)). split; [|rewrite H6; reflexivity].
        right. split; [exact Er|]. exists root, sc', recv, send, ours. repeat split; assumption.
      + left. split; [intros x; discriminate|exact HC].
      + left. split; [intros x; discriminate|exact HC]. }
  destruct HP as [[HF ->]|(c & HP & ->)].
  { left. destruct oc as [ck| |]; [exfalso; exact (HF ck eq_refl)| |]; injection H as <- <- _; split; auto; intros x; discriminate. }
  right. assert (HC := prepared_chain _ _ _ _ _ _ HP).
  rewrite (gcmk_spec _ _ _ _ Hn HC) in H.
  assert (HID := prepared_ids _ _ _ _ _ _ HP). destruct HID as (HR & HL & _).
  assert (Hv : sg_version (sm_struct m) = s_version s) by lia.
  destruct (chain_receive c (sg_counter (sm_struct m))) as [[mk c']|e|] eqn:Er.
  - set (s2 := upd_chain (sm_ratchet m) (fun _ => c') s1) in *.
    assert (HR2 : s_remote_id s2 = s_remote_id s) by exact HR.
    assert (HL2 : s_local_id s2 = s_local_id s) by exact HL.
    assert (HCase : (failed o /\ s' = s2 /\ g' = g1) \/ exists pt rid lid, o = Ok (pt, mk) /\ s' = set_pending None s2 /\ g' = g1 /\
          s_remote_id s = Some rid /\ s_local_id s = Some lid /\
          verify_mac C m (sg_version (sm_struct m)) rid lid (mk_mac mk) = Ok tt /\
          decrypt_with_key C m mk = Ok pt).
    { destruct (s_remote_id s2) as [rid|] eqn:E1; [|injection H as <- <- <-; left; repeat split; intros x; discriminate].
      destruct (s_local_id s2) as [lid|] eqn:E2; [|injection H as <- <- <-; left; repeat split; intros x; discriminate].
      destruct (verify_mac C m (sg_version (sm_struct m)) rid lid (mk_mac mk)) as [[]| |] eqn:E3;
        [|injection H as <- <- <-; left; repeat split; intros x; discriminate
         |injection H as <- <- <-; left; repeat split; intros x; discriminate].
      destruct (decrypt_with_key C m mk) as [pt| |] eqn:E4;
        [|injection H as <- <- <-; left; repeat split; intros x; discriminate
         |injection H as <- <- <-; left; repeat split; intros x; discriminate].
      injection H as <- <- <-. right. exists pt, rid, lid. repeat split; congruence. }
    destruct HCase as [(A & B & ->)|(pt & rid & lid & A & B & -> & D)]; exists s1, c.
    + split; [exact HP|]. split; [congruence|]. split; [exact Hv|]. right. exists mk, c'. split; [exact Er|]. left. auto.
    + split; [exact HP|]. split; [congruence|]. split; [exact Hv|]. right. exists mk, c'. split; [exact Er|].
      right. exists pt, rid, lid. tauto.
  - injection H as <- <- <-. exists s1, c. split; [exact HP|]. split; [congruence|]. split; [exact Hv|].
    left. rewrite Er. repeat split; intros x; discriminate.
  - injection H as <- <- <-. exists s1, c. split; [exact HP|]. split; [congruence|]. split; [exact Hv|].
    left. rewrite Er. repeat split; intros x; discriminate.
Qed.
End S.
