(** GroupFsProofs.v: proofs for C68. *)
From Coq Require Import String List.
From Verif Require Import Base Labels Crypto Bytehelper Ecc Cbc Messages SessionState Group GroupSpec GroupConvSpec GroupProofs GroupProofs2 GroupConvProofs
  GroupStoreSpec GroupStoreProofs GroupFsSpec CryptoProofs SerialProofs.
From Coq Require Import Lia ZifyBool ZifyN ZifyNat.
Import ListNotations.
Local Open Scope list_scope.

Lemma holds_by_id : forall r id s, holds r id s <-> by_id id r = Some s.
Proof.
  intros r id s. split.
  - intros (a & b & -> & HI & Ha). unfold by_id. induction a as [|x a IH]; cbn [app find]; [rewrite (proj2 (N.eqb_eq _ _) HI); reflexivity|].
    destruct (N.eqb_spec (gs_id x) id) as [E|_]; [destruct (Ha x (or_introl eq_refl) E)|]. apply IH. intros t Ht. apply Ha. right. exact Ht.
  - intros H. destruct (by_id_split _ _ _ H) as (a & b & E & Ha). exists a, b. split; [exact E|]. split; [exact (proj2 (by_id_in _ _ _ H))|exact Ha].
Qed.

Section Fs.
Context (C : crypto) (L : crypto_laws C).

(** A state that came from [ck0] (with no kept keys): a later chain position, and keys of earlier positions. *)
Definition trace (ck0 : gchain) (s : gstate) : Prop :=
  exists p, gs_chain s = gck C p ck0 /\ (gc_iter ck0 + N.of_nat p < u32_modulus)%N /\
    Forall (fun k => exists n, (n < p)%nat /\ k = gmk C (gck C n ck0)) (gs_keys s).

Lemma gkeys_trace : forall p d ck0, Forall (fun k => exists n, (n < p + d)%nat /\ k = gmk C (gck C n ck0)) (gkeys C d (gck C p ck0)).
Proof.
  intros p d ck0. unfold gkeys. apply Forall_forall. intros k Hk. apply in_map_iff in Hk. destruct Hk as (i & <- & Hi). apply in_seq in Hi.
  exists (p + i)%nat. split; [lia|]. rewrite gck_add. reflexivity.
Qed.

Lemma trace_get_key : forall ck0 s n o s', gwf s -> g_no_wrap n -> g_get_key C s n = (o, s') -> trace ck0 s ->
  trace ck0 s' /\ forall k, o = Ok k -> exists i, k = gmk C (gck C i ck0) /\ n = (gc_iter ck0 + N.of_nat i)%N.
Proof.
  intros ck0 s n o s' (_ & _ & _ & W4) Hn H (p & HP & HB & HF). unfold g_no_wrap in Hn.
  assert (HI : gc_iter (gs_chain s) = (gc_iter ck0 + N.of_nat p)%N) by (rewrite HP; apply gck_iter; exact HB).
  destruct (N.lt_ge_cases n (gc_iter (gs_chain s))) as [HO|HO].
  - destruct (get_key_old C s n HO) as [(_ & E)|(a & k & b & E1 & E2 & _ & E)]; rewrite E in H; apply pair_equal_spec in H; destruct H as [<- <-].
    + split; [exists p; split; [exact HP|split; [exact HB|exact HF]]|]. intros k X. discriminate X.
    + rewrite E1 in HF. apply Forall_app in HF. destruct HF as [F1 F2]. inversion F2 as [|k0 l0 (i & Hi & Ek) F3]; subst k0 l0. split.
      * exists p. cbn [gset_keys gs_chain gs_keys]. split; [exact HP|]. split; [exact HB|]. apply Forall_app. split; assumption.
      * intros k' X. apply (f_equal (fun z => match z with Ok q => q | _ => k end)) in X. cbv beta iota in X. subst k'. exists i. split; [exact Ek|].
        rewrite <- E2, Ek. cbn [gmk gm_iter]. apply gck_iter. lia.
  - destruct (N.le_gt_cases (n - gc_iter (gs_chain s)) 2000) as [HJ|HJ].
    + assert (Hu : (n < u32_modulus)%N) by (unfold u32_modulus; lia).
      rewrite (get_key_new C L s n HO Hu W4 HJ) in H. apply pair_equal_spec in H. destruct H as [<- <-].
      set (d := N.to_nat (n - gc_iter (gs_chain s))). assert (Hd : (gc_iter ck0 + N.of_nat (p + d) = n)%N) by (unfold d; lia). split.
      * exists (p + S d)%nat. cbn [gset_chain gset_keys gs_chain gs_keys]. rewrite HP. split; [rewrite <- gck_add; reflexivity|].
        split; [unfold u32_modulus in *; lia|]. apply last_n_forall. apply Forall_app. split.
        -- eapply Forall_impl; [|exact HF]. intros k (i & Hi & E). exists i. split; [lia|exact E].
        -- eapply Forall_impl; [|apply (gkeys_trace p d ck0)]. intros k (i & Hi & E). exists i. split; [lia|exact E].
      * intros k X. apply (f_equal (fun z => match z with Ok q => q | _ => k end)) in X. cbv beta iota in X. exists (p + d)%nat. split; [|lia]. rewrite <- X, HP, <- gck_add. reflexivity.
    + assert (Hu : (n < u32_modulus)%N) by (unfold u32_modulus; lia). rewrite (get_key_far C s n Hu) in H by lia. apply pair_equal_spec in H. destruct H as [<- <-].
      split; [exists p; split; [exact HP|split; [exact HB|exact HF]]|]. intros k X. discriminate X.
Qed.

Lemma trace_step : forall ck0 id r r' s, Forall gwf r -> gstep C g_no_wrap r r' -> by_id id r = Some s -> trace ck0 s ->
  exists s', by_id id r' = Some s' /\ trace ck0 s'.
Proof.
  intros ck0 id r r' s W H HB HT. destruct H as [pt g o r' es g' HQ H|m o m' r' es HQ H|d r' es Hd HL H|].
  - apply group_encrypt_record in H. destruct H as [(-> & _ & _)|(s0 & rest & m & -> & _ & -> & _)]; [exists s; split; assumption|].
    specialize (HQ s0 eq_refl). unfold by_id in *. cbn [find gset_chain gs_id] in *. destruct (gs_id s0 =? id)%N; [|exists s; split; assumption].
    apply some_eq in HB. subst s0. eexists. split; [reflexivity|]. destruct HT as (p & HP & HI & HF). exists (S p). cbn [gset_chain gs_chain gs_keys].
    split; [rewrite HP; reflexivity|]. split.
    + unfold g_no_wrap in HQ. rewrite HP, gck_iter in HQ by exact HI. unfold u32_modulus in *. lia.
    + eapply Forall_impl; [|exact HF]. intros k (i & Hi & E). exists i. split; [lia|exact E].
  - apply group_decrypt_cases in H. destruct H as [(_ & -> & _)|(t & t' & ok & HB2 & _ & HG & -> & _)]; [exists s; split; assumption|].
    destruct (by_id_in _ _ _ HB2) as [HIn Eid]. assert (Wt : gwf t) by (rewrite Forall_forall in W; auto). destruct (get_key_id C _ _ _ _ HG) as [Ei _].
    destruct (N.eq_dec id (km_id m)) as [->|HN].
    + assert (t = s) by congruence. subst t. exists t'. split; [eapply upd_id_same; [exact HB2|congruence]|]. exact (proj1 (trace_get_key _ _ _ _ _ Wt HQ HG HT)).
    + exists s. split; [|exact HT]. rewrite upd_id_other; [exact HB|congruence|exact HN].
  - unfold group_process in H. apply (f_equal fst) in H. cbn [fst] in H. subst r'. unfold g_add_state.
    match goal with |- context [(max_group_keys <? ?n)%nat] => assert (E : (max_group_keys <? n)%nat = false) end.
    { apply Nat.ltb_ge. rewrite app_length. cbn [length]. unfold max_group_keys. lia. }
    rewrite E. exists s. split; [apply by_id_app; exact HB|exact HT].
  - exists (with_zero_private s). split; [rewrite by_id_reload, HB; reflexivity|exact HT].
Qed.

Lemma trace_steps : forall r r', gsteps C g_no_wrap r r' -> Forall gwf r -> forall ck0 id s, by_id id r = Some s -> trace ck0 s ->
  exists s', by_id id r' = Some s' /\ trace ck0 s'.
Proof.
  intros r r' H. induction H as [r|r r1 r2 H1 H2 IH]; intros W ck0 id s HB HT; [exists s; split; assumption|].
  destruct (trace_step ck0 id r r1 s W H1 HB HT) as (s1 & B1 & T1). destruct (step_wf C L _ _ W H1) as [W1 _]. exact (IH W1 ck0 id s1 B1 T1).
Qed.

Lemma trace_fresh : forall s, gs_keys s = [] -> gwf s -> trace (gs_chain s) s.
Proof. intros s H (_ & _ & W & _). exists 0%nat. split; [reflexivity|]. split; [lia|]. rewrite H. constructor. Qed.

(** ** Values *)
Lemma nexts_value : forall ck0 n, gc_key (gck C n ck0) = gvalue C (gc_key ck0) (nexts n).
Proof. intros ck0. induction n as [|n IH]; [reflexivity|]. cbn [nexts gvalue]. rewrite <- IH. reflexivity. Qed.

Lemma key_value : forall ck, gm_iv (gmk C ck) ++ gm_cipher (gmk C ck) = hkdf_bytes C (hmac C (gc_key ck) [x01]) None (str "WhisperGroup"%string) 48.
Proof.
  intros ck. unfold gmk, g_derivative. cbn [gm_iv gm_cipher]. change (str "WhisperGroup"%string) with group_kdf_info.
  assert (HL := hkdf_bytes_length C (hmac C (gc_key ck) [x01]) None group_kdf_info 48 (law_hmac_len C L)).
  set (d := hkdf_bytes C (hmac C (gc_key ck) [x01]) None group_kdf_info 48) in *. clearbody d.
  assert (HT : take_pad 32 (skipn 16 d) = skipn 16 d) by (unfold take_pad; apply firstn_app_exact; rewrite skipn_length, HL; reflexivity). rewrite HT. apply firstn_skipn.
Qed.

(** ** Derivability *)
Fixpoint depth (t : gterm) : nat := match t with Seed => 0 | Next t => S (depth t) | Key t => depth t end.

Inductive pure : gterm -> Prop := P_seed : pure Seed | P_next : forall t, pure t -> pure (Next t).
Lemma nexts_pure : forall n, pure (nexts n).
Proof. induction n; constructor; assumption. Qed.
Lemma pure_nexts : forall t, pure t -> t = nexts (depth t).
Proof. intros t H. induction H as [|t H IH]; [reflexivity|]. cbn [depth nexts]. rewrite <- IH. reflexivity. Qed.
Lemma nexts_inj : forall a b, nexts a = nexts b -> a = b.
Proof. induction a as [|a IH]; intros [|b] H; try discriminate; [reflexivity|]. cbn [nexts] in H. inversion H. f_equal. apply IH. assumption. Qed.

Lemma derive_pure : forall p ks t, (forall k, In k ks -> exists j, k = Key (nexts j)) -> gderivable (nexts p :: ks) t -> pure t -> (p <= depth t)%nat.
Proof.
  intros p ks t HK H. induction H as [t [<-|Hin]|t H IH|t H IH]; intros HP.
  - apply pure_nexts in HP. apply nexts_inj in HP. lia.
  - destruct (HK _ Hin) as (j & ->). inversion HP.
  - inversion HP. cbn [depth]. specialize (IH H1). lia.
  - inversion HP.
Qed.

Lemma derive_key : forall p ks n, (forall k, In k ks -> exists j, k = Key (nexts j)) ->
  (gderivable (nexts p :: ks) (Key (nexts n)) <-> (p <= n)%nat \/ In (Key (nexts n)) ks).
Proof.
  intros p ks n HK. split.
  - intros H. inversion H as [t [E|Hin]|t H1|t H1]; subst.
    + destruct p; discriminate E.
    + right. exact Hin.
    + left. pose proof (derive_pure p ks _ HK H1 (nexts_pure n)) as X. assert (E : depth (nexts n) = n) by (clear; induction n as [|n IH]; [reflexivity|cbn [nexts depth]; rewrite IH; reflexivity]). lia.
  - intros [H|H]; [|apply GD_held; right; exact H]. apply GD_key. induction H as [|n H IH]; [apply GD_held; left; reflexivity|]. cbn [nexts]. apply GD_next. exact IH.
Qed.

(** ** The reading of a traced state *)
Lemma trace_reads : forall ck0 s, trace ck0 s -> exists p js, gs_chain s = gck C p ck0 /\ (gc_iter ck0 + N.of_nat p < u32_modulus)%N /\
  gs_keys s = map (fun j => gmk C (gck C j ck0)) js /\ Forall (fun j => (j < p)%nat) js /\
  greads C (gc_key ck0) s (nexts p :: map (fun j => Key (nexts j)) js).
Proof.
  intros ck0 s (p & HP & HI & HF).
  assert (HJ : exists js, gs_keys s = map (fun j => gmk C (gck C j ck0)) js /\ Forall (fun j => (j < p)%nat) js).
  { clear - HF. induction HF as [|k l (j & Hj & E) _ (js & E2 & F2)]; [exists []; split; [reflexivity|constructor]|].
    exists (j :: js). cbn [map]. rewrite E, E2. split; [reflexivity|]. constructor; assumption. }
  destruct HJ as (js & EJ & FJ). exists p, js. split; [exact HP|]. split; [exact HI|]. split; [exact EJ|]. split; [exact FJ|].
  exists (nexts p), (map (fun j => Key (nexts j)) js). split; [reflexivity|]. split; [rewrite HP; apply nexts_value|].
  rewrite EJ. clear - L. induction js as [|j js IH]; cbn [map]; [constructor|]. constructor; [|exact IH]. split.
  - rewrite key_value. cbn [gvalue]. rewrite nexts_value. reflexivity.
  - exists (nexts j). split; [reflexivity|]. cbn [gmk gm_seed]. unfold g_derivative. rewrite nexts_value. reflexivity.
Qed.

Lemma in_key_map : forall n js, In (Key (nexts n)) (map (fun j => Key (nexts j)) js) <-> In n js.
Proof.
  intros n js. rewrite in_map_iff. split.
  - intros (j & E & Hj). inversion E as [E1]. apply nexts_inj in E1. subst j. exact Hj.
  - intros H. exists n. split; [reflexivity|exact H].
Qed.
End Fs.
