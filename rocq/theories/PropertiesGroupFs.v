(** PropertiesGroupFs.v: C68, what a stolen sender key record reveals. *)
From Verif Require Import Base Labels Crypto Bytehelper Ecc Cbc Messages SessionState Group GroupSpec GroupConvSpec GroupProofs GroupProofs2 GroupConvProofs
  GroupStoreSpec GroupStoreProofs GroupFsSpec GroupFsProofs CryptoProofs SerialProofs Toy ToySession PropertiesGroup.
From Coq Require Import Lia ZifyBool ZifyN ZifyNat.

(** ** C68 *)

(** A member holds under an id a sender key [s0] with no kept message keys (as Process and Create leave it), and calls Encrypt,
    Decrypt, Process in any order, with any messages, restarts included. Whoever then steals the record can derive the key of the
    [n]-th message from the one the key started at, if and only if the member itself could still decrypt that message: it is not yet
    reached by the chain, or its key is among those kept for skipped messages. So all future messages, for ever, and no past one. *)
Theorem C68_stolen_record : forall C, crypto_laws C -> forall r1 id s0 r2,
  greachable C g_no_wrap r1 -> holds r1 id s0 -> gs_keys s0 = [] -> gsteps C g_no_wrap r1 r2 ->
  exists s ts, holds r2 id s /\ greads C (gc_key (gs_chain s0)) s ts /\
    forall n, let i := (gc_iter (gs_chain s0) + N.of_nat n)%N in (i < 4294967296)%N ->
      (gderivable ts (Key (nexts n)) <-> (gc_iter (gs_chain s) <= i)%N \/ In i (map gm_iter (gs_keys s))).
Proof.
  intros C L r1 id s0 r2 HR HH HK HS. assert (W := reachable_gwf C L _ HR). apply holds_by_id in HH.
  assert (Ws : gwf s0). { apply by_id_in in HH. rewrite Forall_forall in W. apply W, HH. }
  destruct (trace_steps C L _ _ HS W _ _ _ HH (trace_fresh C s0 HK Ws)) as (s & HB & HT).
  destruct (trace_reads C L _ _ HT) as (p & js & EP & HI & EJ & FJ & RD). exists s, (nexts p :: map (fun j => Key (nexts j)) js).
  split; [apply holds_by_id; exact HB|]. split; [exact RD|]. intros n i Hi. subst i.
  rewrite derive_key; [|intros k Hk; apply in_map_iff in Hk; destruct Hk as (j & <- & _); exists j; reflexivity].
  rewrite in_key_map, EP, EJ, gck_iter by exact HI. rewrite map_map.
  assert (E : In n js <-> In (gc_iter (gs_chain s0) + N.of_nat n)%N (map (fun j => gm_iter (gmk C (gck C j (gs_chain s0)))) js)).
  { rewrite in_map_iff. split.
    - intros H. exists n. split; [|exact H]. cbn [gmk gm_iter]. apply gck_iter. unfold u32_modulus. lia.
    - intros (j & E & Hj). rewrite Forall_forall in FJ. specialize (FJ j Hj). cbn [gmk gm_iter] in E. rewrite gck_iter in E by lia. assert (j = n) by lia. subst j. exact Hj. }
  rewrite E. split; (intros [H|H]; [left; lia|right; exact H]).
Qed.

(** Forward secrecy: the key of a message that was decrypted can not be derived from any later state of the record, even with the keys of all
    the other messages. *)
Theorem C68_forward_secrecy : forall C, crypto_laws C -> forall r1 id s0 r2 m pt m' r3 es r4,
  greachable C g_no_wrap r1 -> holds r1 id s0 -> gs_keys s0 = [] -> gsteps C g_no_wrap r1 r2 ->
  km_id m = id -> g_no_wrap (km_iter m) -> group_decrypt C (Some r2) m = (Ok pt, m', Some r3, es) -> gsteps C g_no_wrap r3 r4 ->
  exists n iv key, km_iter m = (gc_iter (gs_chain s0) + N.of_nat n)%N /\ length iv = 16%nat /\
    iv ++ key = gvalue C (gc_key (gs_chain s0)) (Key (nexts n)) /\ decrypt_cbc C (Some iv) key (skm_body m) = Ok pt /\
    exists s ts, holds r4 id s /\ greads C (gc_key (gs_chain s0)) s ts /\
      forall others, (forall t, In t others -> exists k, k <> n /\ t = Key (nexts k)) -> ~ gderivable (ts ++ others) (Key (nexts n)).
Proof.
  intros C L r1 id s0 r2 m pt m' r3 es r4 HR HH HK HS Hid Hn HD HS2. assert (W := reachable_gwf C L _ HR). apply holds_by_id in HH.
  assert (Ws : gwf s0). { apply by_id_in in HH. rewrite Forall_forall in W. apply W, HH. }
  destruct (trace_steps C L _ _ HS W _ _ _ HH (trace_fresh C s0 HK Ws)) as (s2 & HB2 & HT2). destruct (steps_wf C L _ _ HS W) as [W2 _].
  apply group_decrypt_cases in HD. destruct HD as [(HF & _)|(t & t' & ok & HB & _ & HG & -> & [(HF & _)|(k & p & -> & HO & HC & _)])];
    [exfalso; exact (HF pt eq_refl)|exfalso; exact (HF pt eq_refl)|].
  apply (f_equal (fun z => match z with Ok q => q | _ => pt end)) in HO. cbv beta iota in HO. subst p.
  rewrite Hid in *. assert (t = s2) by congruence. subst t. destruct (by_id_in _ _ _ HB) as [HI Es]. assert (Wt : gwf s2) by (rewrite Forall_forall in W2; auto).
  destruct (trace_get_key C L _ _ _ _ _ Wt Hn HG HT2) as [HT3 HKy]. destruct (HKy k eq_refl) as (n & Ek & En).
  destruct (get_key_cases C L _ _ _ _ Wt Hn HG) as (W' & _ & _ & [(_ & HSp & _)|((e & HE) & _)]); [|discriminate].
  destruct (get_key_id C _ _ _ _ HG) as [Eg _].
  assert (HB3 : by_id id (g_upd_id id t' r2) = Some t') by (eapply upd_id_same; [exact HB|congruence]).
  assert (W3 := upd_id_forall _ id t' r2 W2 W').
  destruct (trace_steps C L _ _ HS2 W3 _ _ _ HB3 HT3) as (s4 & HB4 & HT4). destruct (steps_wf C L _ _ HS2 W3) as [_ K4].
  destruct (K4 _ _ HB3) as (s4' & HB4' & _ & KS). assert (s4' = s4) by congruence. subst s4'. specialize (KS _ HSp). destruct KS as [S1 S2].
  exists n, (gm_iv k), (gm_cipher k). split; [exact En|]. subst k. split; [exact (proj1 (gmk_sizes C L _))|].
  split; [rewrite (key_value C L); cbn [gvalue]; rewrite nexts_value; reflexivity|]. split; [exact HC|].
  destruct (trace_reads C L _ _ HT4) as (q & js & EP & HQ & EJ & FJ & RD). exists s4, (nexts q :: map (fun j => Key (nexts j)) js).
  split; [apply holds_by_id; exact HB4|]. split; [exact RD|]. intros others HOt. cbn [app].
  rewrite derive_key.
  2:{ intros x Hx. apply in_app_iff in Hx. destruct Hx as [Hx|Hx]; [apply in_map_iff in Hx; destruct Hx as (j & <- & _); exists j; reflexivity|].
      destruct (HOt x Hx) as (j & _ & ->). exists j. reflexivity. }
  rewrite EP, gck_iter in S1 by exact HQ. intros [H|H]; [lia|]. apply in_app_iff in H. destruct H as [H|H].
  - apply in_key_map in H. apply S2. rewrite EJ, map_map. apply in_map_iff. exists n. split; [|exact H]. cbn [gmk gm_iter]. rewrite gck_iter; [lia|].
    unfold g_no_wrap, u32_modulus in *. lia.
  - destruct (HOt _ H) as (j & Hj & E). inversion E as [E1]. apply nexts_inj in E1. exact (Hj (eq_sym E1)).
Qed.

(** The same for the messages a member sent itself. *)
Theorem C68_sent_forward_secrecy : forall C, crypto_laws C -> forall r1 s0 rest1 r2 pt g m r3 es g' r4,
  greachable C g_no_wrap r1 -> r1 = s0 :: rest1 -> gs_keys s0 = [] -> gsteps C g_no_wrap r1 r2 ->
  (forall s, hd_error r2 = Some s -> g_no_wrap (gc_iter (gs_chain s))) ->
  group_encrypt C (Some r2) pt g = (Ok m, Some r3, es, g') -> gsteps C g_no_wrap r3 r4 ->
  exists n iv key ct, km_iter m = (gc_iter (gs_chain s0) + N.of_nat n)%N /\ length iv = 16%nat /\
    iv ++ key = gvalue C (gc_key (gs_chain s0)) (Key (nexts n)) /\ km_ct m = Some ct /\ encrypt_cbc C iv key pt = Ok ct /\
    exists s ts, holds r4 (gs_id s0) s /\ greads C (gc_key (gs_chain s0)) s ts /\
      forall others, (forall t, In t others -> exists k, k <> n /\ t = Key (nexts k)) -> ~ gderivable (ts ++ others) (Key (nexts n)).
Proof.
  intros C L r1 s0 rest1 r2 pt g m r3 es g' r4 HR E1 HK HS HW HE HS2. pose proof (GS_encrypt C g_no_wrap r2 pt g (Ok m) r3 es g' HW HE) as Hstep. assert (W := reachable_gwf C L _ HR).
  assert (HH : by_id (gs_id s0) r1 = Some s0) by (rewrite E1; apply by_id_head; reflexivity).
  assert (Ws : gwf s0). { apply by_id_in in HH. rewrite Forall_forall in W. apply W, HH. }
  destruct (trace_steps C L _ _ HS W _ _ _ HH (trace_fresh C s0 HK Ws)) as (s2 & HB2 & HT2). destruct (steps_wf C L _ _ HS W) as [W2 _].
  assert (HF : exists t rest, r2 = t :: rest /\ gs_id t = gs_id s0).
  { clear - HS E1. revert rest1 s0 E1. induction HS as [r|r r1 r2 H1 H2 IH]; intros rest s0 ->; [exists s0, rest; split; reflexivity|].
    assert (HX : exists t l, r1 = t :: l /\ gs_id t = gs_id s0).
    { clear - H1. inversion H1 as [pt g o r' es g' HQ H|m o m' r' es HQ H|d r' es Hd HL H|]; subst.
      - apply group_encrypt_record in H. destruct H as [(-> & _ & _)|(x & l & m & E & _ & -> & _)]; [exists s0, rest; split; reflexivity|].
        inversion E; subst. eexists. eexists. split; reflexivity.
      - apply group_decrypt_cases in H. destruct H as [(_ & -> & _)|(t & t' & ok & HB & _ & HG & -> & _)]; [exists s0, rest; split; reflexivity|].
        destruct (get_key_id C _ _ _ _ HG) as [Eg _]. cbn [g_upd_id]. unfold by_id in HB. cbn [find] in HB. destruct (gs_id s0 =? km_id m)%N.
        + apply some_eq in HB. subst t. eexists. eexists. split; [reflexivity|exact Eg].
        + eexists. eexists. split; reflexivity.
      - unfold group_process, g_add_state in H. apply (f_equal fst) in H. cbn [fst] in H. subst r1.
        match goal with |- context [(max_group_keys <? ?n)%nat] => assert (E : (max_group_keys <? n)%nat = false) end.
        { apply Nat.ltb_ge. rewrite app_length. cbn [length]. unfold max_group_keys. cbn [length] in HL. lia. }
        rewrite E. cbn [app]. eexists. eexists. split; reflexivity.
      - rewrite greload_map. cbn [map]. eexists. eexists. split; reflexivity. }
    destruct HX as (t & l & -> & Et). destruct (IH l t eq_refl) as (t2 & l2 & E2 & Et2). exists t2, l2. split; [exact E2|congruence]. }
  destruct HF as (t & rest & E2 & Eid). assert (HBt : by_id (gs_id s0) r2 = Some t) by (rewrite E2; apply by_id_head; exact Eid).
  assert (t = s2) by congruence. subst t. rewrite E2 in HE. unfold group_encrypt in HE. cbn [g_first] in HE. rewrite (message_key_ok C L) in HE.
  destruct (encrypt_cbc C (gm_iv (gmk C (gs_chain s2))) (gm_cipher (gmk C (gs_chain s2))) pt) as [ct| |] eqn:EC; try discriminate.
  unfold new_sender_key_message in HE. destruct (kp_priv (gs_signing s2)) as [priv|]; [|discriminate].
  destruct (calculate_signature C priv _ g) as [sg g1]. cbn [g_upd_first] in HE.
  assert (Em := f_equal (fun z => fst (fst (fst z))) HE). assert (Er := f_equal (fun z => snd (fst (fst z))) HE). cbn [fst snd] in Em, Er. clear HE.
  apply some_eq in Er. apply (f_equal (fun z => match z with Ok q => q | _ => m end)) in Em. cbv beta iota in Em.
  assert (HT3 : by_id (gs_id s0) r3 = Some (gset_chain (g_next C (gs_chain s2)) s2)) by (first [rewrite <- Er|rewrite Er]; apply by_id_head; exact Eid).
  assert (W2s : gwf s2). { apply by_id_in in HB2. rewrite Forall_forall in W2. apply W2, HB2. }
  assert (HG3 : gsteps C g_no_wrap r2 r3) by (eapply GH_step; [exact Hstep|apply GH_none]).
  destruct (trace_steps C L _ _ HG3 W2 _ _ _ HB2 HT2) as (s3 & HB3 & HTr3). rewrite HT3 in HB3. apply some_eq in HB3. subst s3.
  destruct (steps_wf C L _ _ HG3 W2) as [W3 _].
  destruct HT2 as (n & HP & HB & HFk). specialize (HW s2). rewrite E2 in HW. specialize (HW eq_refl).
  assert (EI : gc_iter (gs_chain s2) = (gc_iter (gs_chain s0) + N.of_nat n)%N) by (rewrite HP; apply gck_iter; exact HB).
  assert (HSp : spent (gc_iter (gs_chain s2)) (gset_chain (g_next C (gs_chain s2)) s2)).
  { split; cbn [gset_chain gs_chain gs_keys].
    - unfold g_no_wrap in HW. cbn [g_next gc_iter]. unfold u32_add. rewrite u32_small; [lia|unfold u32_modulus in *; lia].
    - intros HX. apply (proj1 (proj2 W2s)) in HX. lia. }
  destruct (trace_steps C L _ _ HS2 W3 _ _ _ HT3 HTr3) as (s4 & HB4 & HT4). destruct (steps_wf C L _ _ HS2 W3) as [_ K4].
  destruct (K4 _ _ HT3) as (s4' & HB4' & _ & KS). assert (s4' = s4) by congruence. subst s4'. specialize (KS _ HSp). destruct KS as [S1 S2].
  exists n, (gm_iv (gmk C (gs_chain s2))), (gm_cipher (gmk C (gs_chain s2))), ct. split; [rewrite <- EI, <- Em; reflexivity|].
  split; [exact (proj1 (gmk_sizes C L _))|].
  split; [rewrite HP, (key_value C L); cbn [gvalue]; rewrite nexts_value; reflexivity|]. split; [rewrite <- Em; reflexivity|]. split; [exact EC|].
  destruct (trace_reads C L _ _ HT4) as (q & js & EP & HQ & EJ & FJ & RD). exists s4, (nexts q :: map (fun j => Key (nexts j)) js).
  split; [apply holds_by_id; exact HB4|]. split; [exact RD|]. intros others HOt. cbn [app].
  rewrite derive_key.
  2:{ intros x Hx. apply in_app_iff in Hx. destruct Hx as [Hx|Hx]; [apply in_map_iff in Hx; destruct Hx as (j & <- & _); exists j; reflexivity|].
      destruct (HOt x Hx) as (j & _ & ->). exists j. reflexivity. }
  rewrite EP, gck_iter in S1 by exact HQ. rewrite EI in S1, S2. intros [H|H]; [lia|]. apply in_app_iff in H. destruct H as [H|H].
  - apply in_key_map in H. apply S2. rewrite EJ, map_map. apply in_map_iff. exists n. split; [|exact H]. cbn [gmk gm_iter]. rewrite gck_iter; [lia|]. exact HB.
  - destruct (HOt _ H) as (j & Hj & E). inversion E as [E3]. apply nexts_inj in E3. exact (Hj (eq_sym E3)).
Qed.

(** The sender sends three messages and the receiver decrypts only the third, then restarts. *)
Definition fs_e1 := gw_encrypt toy [x61] [] ex_store1.
Definition fs_e2 := gw_encrypt toy [x62] [] (snd fs_e1).
Definition fs_e3 := gw_encrypt toy [x63] [] (snd fs_e2).
Definition fs_m3 : skm := match fst fs_e3 with Ok m => m | _ => ex_skm end.
Definition fs_d3 := group_decrypt toy (Some ex_rcv) fs_m3.
Definition fs_r3 : grecord := match snd (fst fs_d3) with Some r => r | None => [] end.
Definition fs_s0 : gstate := match ex_rcv with s :: _ => s | [] => new_gstate 0 0 [] {| kp_pub := zero_arr 32; kp_priv := None |} end.
Example C68_hypotheses_met : greachable toy g_no_wrap ex_rcv /\ holds ex_rcv (km_id fs_m3) fs_s0 /\ gs_keys fs_s0 = [] /\ gsteps toy g_no_wrap ex_rcv ex_rcv /\
  g_no_wrap (km_iter fs_m3) /\ (exists m' es, group_decrypt toy (Some ex_rcv) fs_m3 = (Ok [x63], m', Some fs_r3, es)) /\ gsteps toy g_no_wrap fs_r3 (greload fs_r3) /\
  map (fun s => (gc_iter (gs_chain s), map gm_iter (gs_keys s))) (greload fs_r3) = [(3%N, [0%N; 1%N])].
Proof.
  split; [eapply (GR_evict toy g_no_wrap [] ex_parsed); [constructor| |reflexivity]; vm_compute; reflexivity|].
  split; [exists [], []; split; [vm_compute; reflexivity|split; [vm_compute; reflexivity|intros t []]]|].
  split; [vm_compute; reflexivity|]. split; [apply GH_none|]. split; [vm_compute; reflexivity|].
  split; [exists (snd (fst (fst fs_d3))), (snd fs_d3); vm_compute; reflexivity|].
  split; [eapply GH_step; [apply GS_reload|apply GH_none]|vm_compute; reflexivity].
Qed.

(** The sender's side. *)
Definition fs_snd : grecord := match ex_store1 with Some r => r | None => [] end.
Definition fs_cr := group_create toy None ex_rng.
Definition fs_enc := group_encrypt toy (Some fs_snd) [x61] [].
Definition fs_sent : grecord := match snd (fst (fst fs_enc)) with Some r => r | None => [] end.
Example C68_sent_hypotheses_met : greachable toy g_no_wrap fs_snd /\ (exists s0, fs_snd = [s0] /\ gs_keys s0 = []) /\ gsteps toy g_no_wrap fs_snd fs_snd /\
  (forall s, hd_error fs_snd = Some s -> g_no_wrap (gc_iter (gs_chain s))) /\
  (exists m es g', group_encrypt toy (Some fs_snd) [x61] [] = (Ok m, Some fs_sent, es, g')) /\ gsteps toy g_no_wrap fs_sent (greload fs_sent).
Proof.
  split; [exact (GR_create toy g_no_wrap None ex_rng (fst (fst (fst fs_cr))) fs_snd (snd (fst fs_cr)) (snd fs_cr) eq_refl ltac:(vm_compute; reflexivity))|].
  split; [exists (match fs_snd with s :: _ => s | [] => fs_s0 end); split; vm_compute; reflexivity|]. split; [apply GH_none|].
  split; [intros s H; assert (E : s = match fs_snd with s :: _ => s | [] => fs_s0 end) by (vm_compute in H |- *; apply some_eq in H; exact H); rewrite E; vm_compute; reflexivity|].
  split; [exists ex_skm, (snd (fst fs_enc)), (snd fs_enc); vm_compute; reflexivity|]. eapply GH_step; [apply GS_reload|apply GH_none].
Qed.

Print Assumptions C68_stolen_record.
Print Assumptions C68_forward_secrecy.
Print Assumptions C68_sent_forward_secrecy.
