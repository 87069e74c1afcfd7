(** SerialProofs.v: record serialization. *)
From Verif Require Import Base Labels Crypto Bytehelper Ecc Keys Messages SessionState SessionRecord
  SessionBuilder SessionCipher Address World Group PreKeyRecords CodecProofs.
From Coq Require Import ZifyBool ZifyN ZifyNat.

Lemma chain_roundtrip : forall c, chain_from_structure (chain_structure c) = Ok c.
Proof.
  intros [[pub priv] key msgs]. unfold chain_from_structure, chain_structure.
  cbn [ch_pair ch_key ch_msgs kp_pub kp_priv cs_pub cs_priv cs_key cs_msgs].
  rewrite decode_ser_pub. cbn [bind]. destruct priv as [k|]; [|reflexivity].
  rewrite arr_length, to_arr_abytes. reflexivity.
Qed.

Lemma map_res_roundtrip : forall A B (f : A -> B) (g : B -> res A) l,
  (forall a, g (f a) = Ok a) -> map_res g (map f l) = Ok l.
Proof.
  intros A B f g l H. induction l as [|a l IH]; [reflexivity|]. cbn. rewrite H. cbn. rewrite IH. reflexivity.
Qed.

Lemma map_res_comp : forall A B (f : A -> res B) (g : B -> res A) l t,
  (forall a b, f a = Ok b -> g b = Ok a) -> map_res f l = Ok t -> map_res g t = Ok l.
Proof.
  intros A B f g l. induction l as [|a l IH]; intros t H E; cbn in E.
  - injection E as <-. reflexivity.
  - destruct (f a) as [b| |] eqn:E1; cbn in E; try discriminate.
    destruct (map_res f l) as [bs| |] eqn:E2; cbn in E; try discriminate. injection E as <-.
    cbn. rewrite (H _ _ E1). cbn. rewrite (IH bs H eq_refl). reflexivity.
Qed.

Lemma px_roundtrip : forall p t, px_structure p = Ok t -> px_from_structure t = p.
Proof.
  intros [seq [bp [bk|]] [rp [rk|]] [ip ik]] t H; cbn in H; try discriminate. injection H as <-.
  unfold px_from_structure.
  cbn [xs_seq xs_base_pub xs_base_priv xs_ratchet_pub xs_ratchet_priv xs_ident_pub xs_ident_priv].
  rewrite !to_arr_abytes. reflexivity.
Qed.

Lemma state_roundtrip : forall s t, state_structure s = Ok t -> state_from_structure t = Ok s.
Proof.
  intros [li lr nr kx pp pc rc ri rr rk bk sc ver] t H. unfold state_structure in H.
  cbn [s_local_id s_local_reg s_needs_refresh s_pending_kx s_pending s_prev_counter s_recv s_remote_id
       s_remote_reg s_root s_base s_sender s_version] in H.
  destruct (match kx with Some p => x <- px_structure p ;; Ok (Some x) | None => Ok None end) as [px| |] eqn:EK;
    cbn [bind] in H; try discriminate.
  destruct li as [li|]; [|discriminate]. destruct ri as [ri|]; [|discriminate].
  destruct rk as [rk|]; [|discriminate]. destruct bk as [bk|]; [|discriminate].
  destruct sc as [sc|]; [|discriminate]. injection H as <-. unfold state_from_structure.
  cbn [ss_local_id ss_local_reg ss_needs_refresh ss_pending_kx ss_pending ss_prev_counter ss_recv ss_remote_id
       ss_remote_reg ss_root ss_base ss_sender ss_version].
  rewrite !decode_ser_pub. cbn [bind].
  assert (EP : (match (match pp with Some p => Some (pp_structure p) | None => None end) with
         | Some p => x <- pp_from_structure p ;; Ok (Some x) | None => Ok None end) = Ok pp).
  { destruct pp as [[i sg b]|]; [|reflexivity]. cbn [pp_structure pp_from_structure]. unfold pp_from_structure.
    cbn [ps_base ps_id ps_signed pp_structure pp_id pp_signed pp_base]. rewrite decode_ser_pub. reflexivity. }
  rewrite EP. cbn [bind]. rewrite chain_roundtrip. cbn [bind].
  rewrite (map_res_roundtrip _ _ chain_structure chain_from_structure rc chain_roundtrip). cbn [bind].
  repeat f_equal. destruct kx as [p|].
  - destruct (px_structure p) as [x| |] eqn:EX; cbn [bind] in EK; try discriminate. injection EK as <-.
    rewrite (px_roundtrip _ _ EX). reflexivity.
  - injection EK as <-. reflexivity.
Qed.

(** The parts every initialised session has. *)
Definition initialised (s : state) : Prop :=
  s_local_id s <> None /\ s_remote_id s <> None /\ s_root s <> None /\ s_base s <> None /\ s_sender s <> None /\
  match s_pending_kx s with
  | Some p => kp_priv (px_base p) <> None /\ kp_priv (px_ratchet p) <> None
  | None => True
  end.

Lemma state_structure_iff : forall s,
  (initialised s -> exists t, state_structure s = Ok t) /\ (~ initialised s -> state_structure s = Panic).
Proof.
  intros s. unfold initialised, state_structure, px_structure.
  destruct (s_pending_kx s) as [p|].
  - destruct (kp_priv (px_base p)); destruct (kp_priv (px_ratchet p)); cbn [bind];
      destruct (s_local_id s); destruct (s_remote_id s); destruct (s_root s); destruct (s_base s); destruct (s_sender s);
      (split; [intros H; try (eexists; reflexivity); exfalso; intuition congruence
              |intros H; try reflexivity; exfalso; apply H; repeat split; discriminate]).
  - cbn [bind]. destruct (s_local_id s); destruct (s_remote_id s); destruct (s_root s); destruct (s_base s); destruct (s_sender s);
      (split; [intros H; try (eexists; reflexivity); exfalso; intuition congruence
              |intros H; try reflexivity; exfalso; apply H; repeat split; discriminate]).
Qed.

Definition unfresh (r : record) : record := {| r_cur := r_cur r; r_prev := r_prev r; r_fresh := false |}.

Lemma persist_ok : forall r, initialised (r_cur r) -> Forall initialised (r_prev r) -> persist r = Ok (unfresh r).
Proof.
  intros r Hc Hp. unfold persist, record_structure.
  assert (HP : exists t, map_res state_structure (r_prev r) = Ok t).
  { induction Hp as [|s l Hs Hl IH]; [exists []; reflexivity|].
    destruct (proj1 (state_structure_iff s) Hs) as [t Ht]. destruct IH as [ts Hts].
    exists (t :: ts). cbn. rewrite Ht. cbn. rewrite Hts. reflexivity. }
  destruct HP as [tp Htp]. rewrite Htp. cbn [bind].
  destruct (proj1 (state_structure_iff _) Hc) as [t Ht]. rewrite Ht. cbn [bind].
  unfold record_from_structure. cbn [rs_prev rs_cur].
  rewrite (map_res_comp _ _ state_structure state_from_structure _ _ state_roundtrip Htp). cbn [bind].
  rewrite (state_roundtrip _ _ Ht). reflexivity.
Qed.

Lemma persist_panic : forall r, ~ (initialised (r_cur r) /\ Forall initialised (r_prev r)) -> persist r = Panic.
Proof.
  intros r H. unfold persist, record_structure.
  assert (HP : (Forall initialised (r_prev r) /\ exists t, map_res state_structure (r_prev r) = Ok t) \/
               map_res state_structure (r_prev r) = Panic).
  { clear H. induction (r_prev r) as [|s l IH]; [left; split; [constructor|exists []; reflexivity]|].
    cbn. assert (D : initialised s \/ ~ initialised s).
    { unfold initialised. destruct (s_local_id s), (s_remote_id s), (s_root s), (s_base s), (s_sender s), (s_pending_kx s) as [p|];
        try (right; intuition congruence); try (left; repeat split; discriminate).
      destruct (kp_priv (px_base p)), (kp_priv (px_ratchet p));
        try (right; intuition congruence); try (left; repeat split; discriminate). }
    destruct D as [D|D].
    - destruct (proj1 (state_structure_iff s) D) as [t Ht]. rewrite Ht. cbn [bind].
      destruct IH as [[HF [ts Hts]]|E]; [left; split; [constructor; assumption|]|right]; [rewrite Hts|rewrite E]; eauto.
      exists (t :: ts). reflexivity.
    - rewrite (proj2 (state_structure_iff s) D). right. reflexivity. }
  destruct HP as [[HF [t Ht]]|E]; [|rewrite E; reflexivity].
  rewrite Ht. cbn [bind]. rewrite (proj2 (state_structure_iff (r_cur r))); [reflexivity|]. tauto.
Qed.

Lemma persist_iff : forall r r', persist r = Ok r' <->
  initialised (r_cur r) /\ Forall initialised (r_prev r) /\ r' = unfresh r.
Proof.
  intros r r'. split.
  - intros H. assert (D : initialised (r_cur r) /\ Forall initialised (r_prev r)).
    { assert (DD : forall s, initialised s \/ ~ initialised s).
      { intros s. unfold initialised. destruct (s_local_id s), (s_remote_id s), (s_root s), (s_base s), (s_sender s), (s_pending_kx s) as [p|];
        try (right; intuition congruence); try (left; repeat split; discriminate).
        destruct (kp_priv (px_base p)), (kp_priv (px_ratchet p));
        try (right; intuition congruence); try (left; repeat split; discriminate). }
      destruct (DD (r_cur r)) as [D1|D1].
      - assert (D2 : Forall initialised (r_prev r) \/ ~ Forall initialised (r_prev r)).
        { clear - DD. induction (r_prev r) as [|s l IH]; [left; constructor|].
          destruct (DD s) as [A|A]; [|right; intros X; inversion X; auto].
          destruct IH as [B|B]; [left; constructor; auto|right; intros X; inversion X; auto]. }
        destruct D2 as [D2|D2]; [auto|]. rewrite persist_panic in H by tauto. discriminate.
      - rewrite persist_panic in H by tauto. discriminate. }
    destruct D as [D1 D2]. rewrite (persist_ok r D1 D2) in H. injection H as <-. auto.
  - intros (H1 & H2 & ->). apply persist_ok; assumption.
Qed.

(** * Prekey records *)

Lemma shifted_key : forall k : arr32, to_arr 32 (ser_pub k) = k <-> k = to_arr 32 (repeat x05 32).
Proof.
  intros k. split.
  - intros H. apply (f_equal abytes) in H. cbn [to_arr abytes ser_pub] in H. unfold take_pad, ser_pub, djb_type in H.
    pose proof (arr_length 32 k) as HL. apply arr_eq. revert H HL. cbn [to_arr abytes]. unfold take_pad.
    generalize (abytes k) as l. intros l H HL.
    do 32 (destruct l as [|? l]; [cbn in HL; lia|]). destruct l; [|cbn in HL; lia].
    cbn [app firstn repeat length Nat.sub] in H |- *. injection H. intros. subst. reflexivity.
  - intros ->. vm_compute. reflexivity.
Qed.

Lemma shifted_bytes : forall k : arr32, abytes (to_arr 32 (ser_pub k)) = x05 :: firstn 31 (abytes k).
Proof.
  intros k. cbn [to_arr abytes]. unfold take_pad, ser_pub, djb_type.
  rewrite firstn_app. cbn [length]. rewrite (arr_length 32). cbn [Nat.sub repeat].
  cbn [firstn app]. rewrite app_nil_r. reflexivity.
Qed.

Lemma pkr_reload : forall id p priv r, kp_priv p = Some priv -> new_pkr id p = Ok r ->
  let r' := pkr_from_struct (pkr_serialize r) in
  pkr_id r' = pkr_id r /\ pkr_id r' = ou_some id /\ kp_priv (kr_pair r') = Some priv /\
  (kp_pub (kr_pair r') = kp_pub p <-> kp_pub p = to_arr 32 (repeat x05 32)) /\
  abytes (kp_pub (kr_pair r')) = x05 :: firstn 31 (abytes (kp_pub p)).
Proof.
  intros id p priv r Hp H. unfold new_pkr in H. rewrite Hp in H. injection H as <-.
  cbn [pkr_from_struct pkr_serialize kr_struct kr_pair kp_pub kp_priv ks_pub ks_priv pkr_id ks_id].
  repeat split; try reflexivity.
  - rewrite to_arr_abytes. reflexivity.
  - apply shifted_key.
  - intros ->. apply shifted_key. reflexivity.
  - apply shifted_bytes.
Qed.

Lemma skr_reload : forall id time p priv sig r, kp_priv p = Some priv -> new_skr id time p sig = Ok r ->
  let r' := skr_from_struct (skr_serialize r) in
  zs_id (zr_struct r') = id /\ zs_time (zr_struct r') = time /\ zr_sig r' = sig /\ kp_priv (zr_pair r') = Some priv /\
  (kp_pub (zr_pair r') = kp_pub p <-> kp_pub p = to_arr 32 (repeat x05 32)) /\
  abytes (kp_pub (zr_pair r')) = x05 :: firstn 31 (abytes (kp_pub p)).
Proof.
  intros id time p priv sig r Hp H. unfold new_skr in H. rewrite Hp in H. injection H as <-.
  cbn [skr_from_struct skr_serialize zr_struct zr_pair kp_pub kp_priv zs_pub zs_priv zs_id zs_time zr_sig zs_sig].
  repeat split; try reflexivity.
  - apply to_arr_abytes.
  - rewrite to_arr_abytes. reflexivity.
  - apply shifted_key.
  - intros ->. apply shifted_key. reflexivity.
  - apply shifted_bytes.
Qed.

(** * Group records *)

Definition with_zero_private (s : gstate) : gstate :=
  {| gs_keys := gs_keys s; gs_id := gs_id s; gs_chain := gs_chain s;
     gs_signing := {| kp_pub := kp_pub (gs_signing s);
                      kp_priv := match kp_priv (gs_signing s) with
                                 | Some k => Some k
                                 | None => Some (zero_arr 32)
                                 end |} |}.

Lemma gstate_roundtrip : forall s, gstate_from_structure (gstate_structure s) = Ok (with_zero_private s).
Proof.
  intros [keys id ch [pub priv]]. unfold gstate_from_structure, gstate_structure, with_zero_private.
  cbn [gs_keys gs_id gs_chain gs_signing kp_pub kp_priv gss_keys gss_id gss_chain gss_priv gss_pub].
  rewrite decode_ser_pub. cbn [bind]. destruct priv as [k|]; [rewrite to_arr_abytes|]; reflexivity.
Qed.

Lemma grecord_roundtrip : forall r, grecord_from_structure (grecord_structure r) = Ok (map with_zero_private r).
Proof.
  intros r. unfold grecord_from_structure, grecord_structure. induction r as [|s r IH]; [reflexivity|].
  cbn [map map_res]. rewrite gstate_roundtrip. cbn [bind]. rewrite IH. reflexivity.
Qed.

Lemma persist_idempotent : forall r r', persist r = Ok r' -> persist r' = Ok r'.
Proof. intros r r' H. apply persist_iff in H. destruct H as (H1 & H2 & ->). apply persist_iff. split; [exact H1|]. split; [exact H2|reflexivity]. Qed.

Lemma own_grecord_roundtrip : forall r, Forall (fun s => kp_priv (gs_signing s) <> None) r ->
  grecord_from_structure (grecord_structure r) = Ok r.
Proof.
  intros r H. rewrite grecord_roundtrip. f_equal. induction H as [|s r Hs Hr IH]; [reflexivity|].
  cbn [map]. rewrite IH. f_equal. destruct s as [k i c [p [q|]]]; [reflexivity|]. cbn in Hs. congruence.
Qed.

Lemma grecord_reload_stable : forall r r', grecord_from_structure (grecord_structure r) = Ok r' ->
  grecord_from_structure (grecord_structure r') = Ok r'.
Proof.
  intros r r' H. rewrite grecord_roundtrip in H. injection H as <-. apply own_grecord_roundtrip.
  apply Forall_forall. intros s Hs. apply in_map_iff in Hs. destruct Hs as (t & <- & _).
  cbn. destruct (kp_priv (gs_signing t)); discriminate.
Qed.
