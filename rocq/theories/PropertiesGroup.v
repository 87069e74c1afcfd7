(** PropertiesGroup.v: C32-C37. The reference behaviour and histories are in GroupSpec.v. *)
From Verif Require Import Base Labels Crypto Bytehelper Ecc Cbc Messages SessionState Group GroupSpec Toy WireProofs CodecProofs
  CodecProofs2 CryptoProofs SerialProofs MiscProofs GroupProofs GroupProofs2.
From Coq Require Import Lia ZifyBool ZifyN ZifyNat.

(** ** C32 *)

(** A member creates (or already owns) a sender key and calls Create; another member processes the parsed
    distribution message. For every schedule of further encryptions and deliveries (any loss, duplication and
    order) each delivery returns what the reference receiver [gspec] prescribes. *)
Theorem C32_any_schedule : forall C, crypto_laws C -> forall st g d st1 rcv evs,
  g_is_empty st = true \/ own_store C st ->
  gw_create C g st = (Ok d, st1) ->
  (forall s, In s (match rcv with Some r => r | None => [] end) -> gs_id s <> dm_id d) ->
  (N.of_nat (length (match rcv with Some r => r | None => [] end)) < 2000)%N ->
  (dm_iter d + N.of_nat (sends evs) < 4294967296)%N ->
  (forall pt g, In (GSend pt g) evs -> (N.of_nat (length pt) + 16 < 9223372036854775808)%N) ->
  exists dm, skd_from_bytes (skd_bytes d) = Ok dm /\
  Forall2 agrees (grun C st1 (gw_process dm rcv) [] evs)
                 (gspec (dm_iter d) [] {| gv_next := dm_iter d; gv_kept := [] |} evs).
Proof.
  intros C L st g d st1 rcv evs [HE|HO] HC Hn Hl Hb Hs.
  - apply (schedule_from_create C L st1 [] d st1 rcv evs); auto.
    + eapply Own_create; eassumption.
    + unfold gw_create, group_create in HC. rewrite HE in HC. destruct (generate_key_pair C g) as [[signing| |] g1]; try discriminate.
      destruct (generate_registration_id g1) as [id g2]. destruct (generate_sender_key g2) as [key g3]. cbn [g_first g_set_state] in HC.
      injection HC as <- <-. cbn [gcommit fold_left]. rewrite greload_map. reflexivity.
  - apply (schedule_from_create C L st g d st1 rcv evs); auto.
Qed.

(** When at most 2001 messages are sent, nothing is ever evicted or too far ahead: a delivery succeeds with the
    plaintext exactly when it is the first delivery of that message. *)
Fixpoint once_spec (sent : list bytes) (seen : list nat) (evs : list gevent) : list (option bytes) :=
  match evs with
  | [] => []
  | GSend pt _ :: rest => once_spec (sent ++ [pt]) seen rest
  | GDeliver i :: rest =>
      match nth_error sent i with
      | None => once_spec sent seen rest
      | Some pt => if existsb (Nat.eqb i) seen then None :: once_spec sent seen rest
                   else Some pt :: once_spec sent (i :: seen) rest
      end
  end.

Lemma once_spec_ok : forall evs base sent seen v,
  (N.of_nat (length sent) + N.of_nat (sends evs) <= 2001)%N ->
  (base <= gv_next v)%N -> (gv_next v <= base + N.of_nat (length sent))%N ->
  (N.of_nat (length (gv_kept v)) <= gv_next v - base)%N ->
  (forall i, In i seen -> (base + N.of_nat i < gv_next v)%N) ->
  (forall i, (base + N.of_nat i < gv_next v)%N -> (In (base + N.of_nat i)%N (gv_kept v) <-> ~ In i seen)) ->
  (forall x, In x (gv_kept v) -> (x < gv_next v)%N) ->
  gspec base sent v evs = once_spec sent seen evs.
Proof.
  induction evs as [|[pt g|i] evs IH]; intros base sent seen v H1 H2 H3 H4 H5 H6 H7; [reflexivity| |].
  - cbn [gspec once_spec]. unfold sends in H1. cbn [filter length] in H1. fold (sends evs) in H1.
    apply IH; auto; rewrite app_length; cbn [length]; lia.
  - cbn [gspec once_spec]. unfold sends in H1. cbn [filter] in H1. fold (sends evs) in H1.
    destruct (nth_error sent i) as [pt|] eqn:E; [|apply IH; auto].
    assert (HL : (i < length sent)%nat) by (apply nth_error_Some; congruence).
    assert (HS : existsb (Nat.eqb i) seen = true <-> In i seen).
    { rewrite existsb_exists. split; [intros (x & Hx & Ex); apply Nat.eqb_eq in Ex; subst; exact Hx|intros Hx; exists i; split; [exact Hx|apply Nat.eqb_refl]]. }
    unfold gaccept. destruct (N.ltb_spec (base + N.of_nat i) (gv_next v)) as [HO|HO].
    + specialize (H6 i HO) as H6i. assert (HK : existsb (N.eqb (base + N.of_nat i)) (gv_kept v) = true <-> In (base + N.of_nat i)%N (gv_kept v)).
      { rewrite existsb_exists. split; [intros (x & Hx & Ex); apply N.eqb_eq in Ex; subst; exact Hx|intros Hx; eexists; split; [exact Hx|apply N.eqb_refl]]. }
      destruct (existsb (N.eqb (base + N.of_nat i)) (gv_kept v)).
      * destruct (existsb (Nat.eqb i) seen); [exfalso; tauto|]. f_equal. apply IH; cbn [gv_next gv_kept]; auto.
        -- eapply N.le_trans; [|exact H4]. clear. induction (gv_kept v) as [|x l IHl]; cbn [filter]; [lia|]. destruct (negb _); cbn [length]; lia.
        -- intros j [<-|Hj]; auto.
        -- intros j Hj. rewrite filter_In. rewrite (H6 j Hj). cbn [In]. split.
           ++ intros [A B] [->|C]; [|tauto]. rewrite N.eqb_refl in B. discriminate.
           ++ intros A. split; [tauto|]. apply negb_true_iff. apply N.eqb_neq. intros K. apply A. left. lia.
        -- intros x Hx. apply filter_In in Hx. apply H7. apply Hx.
      * destruct (existsb (Nat.eqb i) seen); [|exfalso; destruct HK, HS, H6i; apply (Bool.diff_false_true); tauto]. f_equal. apply IH; auto.
    + replace (2000 <? base + N.of_nat i - gv_next v)%N with false by lia.
      destruct (existsb (Nat.eqb i) seen) eqn:ES; [exfalso; destruct HS as [HS _]; specialize (HS eq_refl); apply H5 in HS; lia|].
      set (k := N.to_nat (base + N.of_nat i - gv_next v)).
      assert (HR : length (n_range (gv_next v) k) = k) by (unfold n_range; rewrite map_length, seq_length; reflexivity).
      rewrite last_n_all by (rewrite app_length, HR; unfold k; lia).
      f_equal. apply IH; cbn [gv_next gv_kept]; auto; try lia.
      * rewrite app_length, HR. unfold k. lia.
      * intros j [<-|Hj]; [lia|]. apply H5 in Hj. lia.
      * intros j Hj. rewrite in_app_iff. cbn [In]. destruct (N.lt_ge_cases (base + N.of_nat j) (gv_next v)) as [A|A].
        -- rewrite (H6 j A). split; [|tauto]. intros [B|B]; [|apply n_range_in in B; lia]. intros [->|D]; [lia|tauto].
        -- split.
           ++ intros [B|B]; [apply H7 in B; lia|apply n_range_in in B]. intros [->|D]; [lia|apply H5 in D; lia].
           ++ intros B. right. unfold n_range. apply in_map_iff. exists (N.to_nat (base + N.of_nat j - gv_next v)). split; [lia|].
              apply in_seq. assert (j <> i) by (intros ->; apply B; left; reflexivity). unfold k. lia.
      * intros x Hx. apply in_app_or in Hx. destruct Hx as [Hx|Hx]; [apply H7 in Hx; lia|apply n_range_in in Hx; lia].
Qed.

Theorem C32_exactly_once : forall C, crypto_laws C -> forall st g d st1 rcv evs,
  g_is_empty st = true \/ own_store C st ->
  gw_create C g st = (Ok d, st1) ->
  (forall s, In s (match rcv with Some r => r | None => [] end) -> gs_id s <> dm_id d) ->
  (N.of_nat (length (match rcv with Some r => r | None => [] end)) < 2000)%N ->
  (dm_iter d + N.of_nat (sends evs) < 4294967296)%N -> (N.of_nat (sends evs) <= 2001)%N ->
  (forall pt g, In (GSend pt g) evs -> (N.of_nat (length pt) + 16 < 9223372036854775808)%N) ->
  exists dm, skd_from_bytes (skd_bytes d) = Ok dm /\
  Forall2 agrees (grun C st1 (gw_process dm rcv) [] evs) (once_spec [] [] evs).
Proof.
  intros C L st g d st1 rcv evs HO HC Hn Hl Hb H2 Hs.
  destruct (C32_any_schedule C L st g d st1 rcv evs HO HC Hn Hl Hb Hs) as (dm & E & F). exists dm. split; [exact E|].
  rewrite <- (once_spec_ok evs (dm_iter d) [] [] {| gv_next := dm_iter d; gv_kept := [] |}); [exact F| | | | | | |]; cbn [gv_next gv_kept length]; try lia.
  - intros i [].
  - intros x [].
Qed.

(** The member's store and the schedule used by the examples. *)
Definition ex_rng : rng := [Some [x11]; Some [x22]; Some [x33]].
Definition ex_create : res skd * option grecord := gw_create toy ex_rng None.
Definition ex_skd : skd := match fst ex_create with Ok d => d | _ => new_skd 0 0 [] (zero_arr 32) end.
Definition ex_evs : list gevent :=
  [GSend [x61] []; GSend [x62] []; GSend [x63] []; GDeliver 2; GDeliver 0; GDeliver 0; GDeliver 2; GSend [x64] []; GDeliver 3; GDeliver 1].

Example C32_hypotheses_met : exists st1 dm, gw_create toy ex_rng None = (Ok ex_skd, st1) /\ skd_from_bytes (skd_bytes ex_skd) = Ok dm /\
  grun toy st1 (gw_process dm None) [] ex_evs = [Ok [x63]; Ok [x61]; Err EGroupOldCounter; Err EGroupOldCounter; Ok [x64]; Ok [x62]] /\
  once_spec [] [] ex_evs = [Some [x63]; Some [x61]; None; None; Some [x64]; Some [x62]].
Proof.
  eexists. exists (match skd_from_bytes (skd_bytes ex_skd) with Ok dm => dm | _ => ex_skd end).
  split; [vm_compute; reflexivity|]. split; [vm_compute; reflexivity|]. split; [vm_compute; reflexivity|vm_compute; reflexivity].
Qed.

(** ** C33 *)

(** After a success for (id, iteration), through any number of further operations of any kind, a message with the
    same id and iteration (whatever its ciphertext and signature) is refused, changing and storing nothing. *)
Theorem C33_at_most_once : forall C, crypto_laws C -> forall r m1 pt m1' r1 es r2 m2,
  greachable C g_no_wrap r -> g_no_wrap (km_iter m1) ->
  group_decrypt C (Some r) m1 = (Ok pt, m1', Some r1, es) -> gsteps C g_no_wrap r1 r2 ->
  km_id m2 = km_id m1 -> km_iter m2 = km_iter m1 ->
  forall o m2' r3 es2, group_decrypt C (Some r2) m2 = (o, m2', Some r3, es2) -> (forall pt2, o <> Ok pt2) /\ r3 = r2 /\ es2 = [].
Proof. exact group_at_most_once. Qed.

Definition ex_store1 : option grecord := snd ex_create.
Definition ex_skm : skm := match fst (gw_encrypt toy [x61] [] ex_store1) with Ok m => m | _ => {| km_id := 0; km_iter := 0; km_ct := None; km_version := 0; km_sig := None |} end.
Definition ex_parsed : skd := match skd_from_bytes (skd_bytes ex_skd) with Ok dm => dm | _ => ex_skd end.
Definition ex_rcv : grecord := fst (group_process None ex_parsed).
Definition ex_dec : res bytes * skm * option grecord * list geffect := group_decrypt toy (Some ex_rcv) ex_skm.

Example C33_hypotheses_met : greachable toy g_no_wrap ex_rcv /\ g_no_wrap (km_iter ex_skm) /\
  (exists m' r1 es, group_decrypt toy (Some ex_rcv) ex_skm = (Ok [x61], m', Some r1, es) /\ gsteps toy g_no_wrap r1 (greload r1)).
Proof.
  split; [|split].
  - eapply (GR_evict toy g_no_wrap [] ex_parsed); [constructor| |reflexivity]. vm_compute. reflexivity.
  - vm_compute. reflexivity.
  - exists (snd (fst (fst ex_dec))), (match snd (fst ex_dec) with Some r => r | None => [] end), (snd ex_dec).
    split; [vm_compute; reflexivity|]. eapply GH_step; [apply GS_reload|apply GH_none].
Qed.

(** ** C34 *)

(** Success: the record has a state with the message's id, the signature verifies under the signing key of the
    first one, and exactly one store write happens. *)
Theorem C34_success_is_authentic : forall C r m pt m' r' es,
  group_decrypt C (Some r) m = (Ok pt, m', Some r', es) ->
  es = [StoreSenderKey r'] /\
  exists before s after, r = before ++ s :: after /\ gs_id s = km_id m /\ (forall t, In t before -> gs_id t <> km_id m) /\
    verify_signature C (kp_pub (gs_signing s)) (skm_unsigned m) (skm_signature m) = true.
Proof.
  intros C r m pt m' r' es H. apply group_decrypt_cases in H. destruct H as [(H & _)|(s & s' & ok & HB & HV & HG & -> & [(H & _)|(k & p & _ & _ & _ & ->)])];
    [exfalso; eapply H; reflexivity|exfalso; eapply H; reflexivity|].
  split; [reflexivity|]. clear - HB HV. induction r as [|x r IH]; [discriminate|]. unfold by_id in HB. cbn [find] in HB.
  destruct (N.eqb_spec (gs_id x) (km_id m)) as [E|E].
  - injection HB as ->. exists [], s, r. split; [reflexivity|]. split; [exact E|]. split; [intros t []|exact HV].
  - destruct (IH HB) as (b & t & a & -> & H1 & H2 & H3). exists (x :: b), t, a. split; [reflexivity|]. split; [exact H1|]. split; [|exact H3].
    intros y [<-|Hy]; auto.
Qed.

(** No state with the id, or a signature that does not verify: an error; the record object and the message
    object are untouched and nothing is stored. *)
Theorem C34_unverified_no_effect : forall C r m,
  (forall before s after, r = before ++ s :: after -> gs_id s = km_id m -> (forall t, In t before -> gs_id t <> km_id m) ->
     verify_signature C (kp_pub (gs_signing s)) (skm_unsigned m) (skm_signature m) = false) ->
  exists e, group_decrypt C (Some r) m = (Err e, m, Some r, []).
Proof.
  intros C r m H. unfold group_decrypt. destruct r as [|x r]; [eexists; reflexivity|]. rewrite by_id_spec.
  destruct (by_id (km_id m) (x :: r)) as [s|] eqn:EB; [|eexists; reflexivity].
  assert (HV : verify_signature C (kp_pub (gs_signing s)) (skm_unsigned m) (skm_signature m) = false).
  { generalize dependent (x :: r). clear x r. intros r H HB. assert (K : exists b a, r = b ++ s :: a /\ gs_id s = km_id m /\ forall t, In t b -> gs_id t <> km_id m).
    { clear H. induction r as [|x r IH]; [discriminate|]. unfold by_id in HB. cbn [find] in HB. destruct (N.eqb_spec (gs_id x) (km_id m)) as [E|E].
      - injection HB as ->. exists [], r. split; [reflexivity|]. split; [exact E|intros t []].
      - destruct (IH HB) as (b & a & -> & H1 & H2). exists (x :: b), a. split; [reflexivity|]. split; [exact H1|]. intros y [<-|Hy]; auto. }
    destruct K as (b & a & -> & H1 & H2). eapply H; [reflexivity|exact H1|exact H2]. }
  rewrite HV. eexists. reflexivity.
Qed.

(** Any failure: nothing is stored. *)
Theorem C34_failure_stores_nothing : forall C st m o m' r' es, group_decrypt C st m = (o, m', r', es) -> (forall pt, o <> Ok pt) -> es = [].
Proof.
  intros C [r|] m o m' r' es H HF; [|injection H as _ _ _ <-; reflexivity].
  destruct r' as [r'|].
  - apply group_decrypt_cases in H. destruct H as [(_ & _ & _ & ->)|(s & s' & ok & _ & _ & _ & _ & [(_ & ->)|(k & pt & _ & -> & _)])]; [reflexivity..|].
    exfalso. exact (HF pt eq_refl).
  - exfalso. unfold group_decrypt in H. destruct r as [|x r]; [discriminate|]. destruct (g_by_id _ _) as [s| |]; try discriminate.
    destruct (negb _); [discriminate|]. destruct (g_get_key C s (km_iter m)) as [[k| |] s']; try discriminate.
    destruct (decrypt_cbc_full _ _ _ _) as [[]]; discriminate.
Qed.

(** What an unverified message leaves in the store. *)
Example C34_cases : exists m', group_decrypt toy (Some ex_rcv) ex_skm = (Ok [x61], m', snd (fst ex_dec), snd ex_dec) /\
  group_decrypt toy (Some ex_rcv) (skm_with_ct ex_skm [x00]) = (Err EVerification, skm_with_ct ex_skm [x00], Some ex_rcv, []).
Proof. exists (snd (fst (fst ex_dec))). split; vm_compute; reflexivity. Qed.

(** ** C35 *)

(** Over every history, whatever the counters: at most 2000 states, each with at most 2000 message keys. *)
Theorem C35_bounds : forall C r, greachable C (fun _ => True) r ->
  (N.of_nat (length r) <= 2000)%N /\ forall s, In s r -> (N.of_nat (length (gs_keys s)) <= 2000)%N.
Proof.
  intros C r H. apply reachable_bounded in H. destruct H as [H1 H2]. unfold max_group_keys in *.
  split; [lia|]. intros s Hs. rewrite Forall_forall in H2. specialize (H2 s Hs). unfold small, max_group_keys in H2. lia.
Qed.

(** A verified message more than 2000 ahead is refused, nothing changes. *)
Theorem C35_too_far : forall C r m s, by_id (km_id m) r = Some s ->
  verify_signature C (kp_pub (gs_signing s)) (skm_unsigned m) (skm_signature m) = true ->
  (km_iter m < 4294967296)%N -> (gc_iter (gs_chain s) + 2000 < km_iter m)%N ->
  exists r', group_decrypt C (Some r) m = (Err EOver2000, m, Some r', []) /\ r' = r.
Proof.
  intros C r m s HB HV Hn HF. unfold group_decrypt. destruct r as [|x r]; [discriminate|]. rewrite by_id_spec, HB, HV. cbn [negb].
  rewrite (get_key_far C s (km_iter m)) by (unfold u32_modulus; lia). eexists. split; [reflexivity|].
  clear - HB. generalize dependent (x :: r). intros l HB. induction l as [|y l IH]; [reflexivity|]. unfold by_id in HB. cbn [find g_upd_id] in *.
  destruct (gs_id y =? km_id m)%N; [injection HB as ->; reflexivity|]. f_equal. apply IH. exact HB.
Qed.

(** An accepted message at or after the expected iteration was at most 2000 ahead. Afterwards the next expected
    iteration is the following one, and the stored iterations are the latest 2000 of the previously stored ones
    followed by the ones skipped: the oldest are dropped first. *)
Theorem C35_retention : forall C, crypto_laws C -> forall r m s pt m' r' es, greachable C g_no_wrap r -> by_id (km_id m) r = Some s ->
  g_no_wrap (km_iter m) -> (gc_iter (gs_chain s) <= km_iter m)%N ->
  group_decrypt C (Some r) m = (Ok pt, m', Some r', es) ->
  (km_iter m - gc_iter (gs_chain s) <= 2000)%N /\
  exists s', by_id (km_id m) r' = Some s' /\ gc_iter (gs_chain s') = (km_iter m + 1)%N /\
    map gm_iter (gs_keys s') =
      last_n (N.to_nat 2000) (map gm_iter (gs_keys s) ++ n_range (gc_iter (gs_chain s)) (N.to_nat (km_iter m - gc_iter (gs_chain s)))).
Proof.
  intros C L r m s pt m' r' es HR HB Hn Hle H. assert (W := reachable_gwf C L r HR). rewrite Forall_forall in W.
  destruct (by_id_in _ _ _ HB) as [HI HId]. specialize (W s HI). destruct W as (W1 & W2 & W3 & W4). unfold g_no_wrap in Hn.
  apply group_decrypt_cases in H. destruct H as [(H & _)|(s0 & s' & ok & HB0 & _ & HG & -> & [(H & _)|(k & p & -> & _)])];
    [exfalso; eapply H; reflexivity|exfalso; eapply H; reflexivity|].
  rewrite HB in HB0. injection HB0 as <-.
  assert (HJ : (km_iter m - gc_iter (gs_chain s) <= 2000)%N).
  { destruct (N.le_gt_cases (km_iter m - gc_iter (gs_chain s)) 2000) as [A|A]; [exact A|exfalso].
    rewrite get_key_far in HG by (unfold u32_modulus; lia). discriminate. }
  split; [exact HJ|].
  assert (G := get_key_new C L s (km_iter m) Hle ltac:(unfold u32_modulus; lia) W4 HJ). cbv zeta in G. rewrite G in HG.
  apply (f_equal snd) in HG. cbn [snd] in HG. subst s'. set (k0 := N.to_nat (km_iter m - gc_iter (gs_chain s))).
  eexists. split; [apply (upd_id_same _ _ _ s HB); exact HId|]. cbn [gset_chain gset_keys gs_chain gs_keys].
  unfold u32_modulus in W3. split.
  - rewrite gck_iter; unfold u32_modulus; lia.
  - rewrite last_n_map, map_app, gkeys_iters by (unfold u32_modulus; lia). unfold max_group_keys. replace (N.to_nat 2000) with 2000%nat by reflexivity. reflexivity.
Qed.

(** The limit is exact: if [n+1] messages are sent and only the last one is delivered, it is accepted exactly when
    [n <= 2000]. *)
Theorem C35_jump_exact : forall C, crypto_laws C -> forall st g d st1 (pts : list (bytes * rng)) pt gn,
  g_is_empty st = true -> gw_create C g st = (Ok d, st1) ->
  (N.of_nat (length pts) < 4294967295)%N ->
  (forall p, In p ((pt, gn) :: pts) -> (N.of_nat (length (fst p)) + 16 < 9223372036854775808)%N) ->
  exists dm o, skd_from_bytes (skd_bytes d) = Ok dm /\
  grun C st1 (gw_process dm None) [] (map (fun p => GSend (fst p) (snd p)) pts ++ [GSend pt gn; GDeliver (length pts)]) = [o] /\
  ((N.of_nat (length pts) <= 2000)%N -> o = Ok pt) /\
  ((2000 < N.of_nat (length pts))%N -> exists e, o = Err e).
Proof.
  intros C L st g d st1 pts pt gn HE HC Hn Hs. set (evs := map (fun p => GSend (fst p) (snd p)) pts ++ _).
  assert (Hd : dm_iter d = 0%N).
  { unfold gw_create, group_create in HC. rewrite HE in HC. destruct (generate_key_pair C g) as [[signing| |] g1]; try discriminate.
    destruct (generate_registration_id g1) as [id g2]. destruct (generate_sender_key g2) as [key g3]. cbn [g_first g_set_state] in HC.
    injection HC as <- _. reflexivity. }
  assert (Hsends : sends evs = S (length pts)).
  { unfold sends, evs. rewrite filter_app, app_length. replace (filter _ (map _ pts)) with (map (fun p : bytes * rng => GSend (fst p) (snd p)) pts).
    - rewrite map_length. cbn. lia.
    - clear. induction pts as [|p l IH]; [reflexivity|]. cbn [map filter]. f_equal. exact IH. }
  destruct (C32_any_schedule C L st g d st1 None evs) as (dm & E & F).
  - left. exact HE.
  - exact HC.
  - intros s [].
  - reflexivity.
  - rewrite Hd, Hsends. lia.
  - intros p gg Hi. unfold evs in Hi. apply in_app_or in Hi. destruct Hi as [Hi|[Hi|[Hi|[]]]]; [|injection Hi as <- <-; apply (Hs (pt, gn)); left; reflexivity|discriminate].
    apply in_map_iff in Hi. destruct Hi as (q & Eq & Hq). injection Eq as <- <-. apply (Hs q). right. exact Hq.
  - rewrite Hd in F.
    assert (G : forall l sent v, gspec 0 sent v (map (fun p : bytes * rng => GSend (fst p) (snd p)) l ++ [GSend pt gn; GDeliver (length pts)]) =
                gspec 0 (sent ++ map fst l) v [GSend pt gn; GDeliver (length pts)]).
    { induction l as [|p l IH]; intros sent v; [cbn [map app]; rewrite app_nil_r; reflexivity|]. cbn [map app gspec]. rewrite IH, <- app_assoc. reflexivity. }
    unfold evs in F. rewrite G in F. cbn [app gspec] in F.
    rewrite nth_error_app2 in F by (rewrite map_length; lia). rewrite map_length, Nat.sub_diag in F. cbn [nth_error] in F. unfold gaccept in F.
    cbn [gv_next gv_kept] in F. replace (0 + N.of_nat (length pts) <? 0)%N with false in F by lia.
    fold evs in F. exists dm.
    destruct (N.ltb_spec 2000 (0 + N.of_nat (length pts) - 0)) as [A|A]; inversion F as [|o x l l' HA HF E1 E2]; subst; inversion HF; subst; exists o;
      (split; [exact E|]; split; [first [reflexivity|symmetry; assumption]|]; split; intros B; [|]).
    + lia.
    + exact HA.
    + exact HA.
    + lia.
Qed.

Example C35_hypotheses_met : greachable toy g_no_wrap ex_rcv /\ exists s, by_id (km_id ex_skm) ex_rcv = Some s /\ gc_iter (gs_chain s) = 0%N /\ km_iter ex_skm = 0%N.
Proof.
  split; [eapply (GR_evict toy g_no_wrap [] ex_parsed); [constructor| |reflexivity]; vm_compute; reflexivity|].
  exists (match by_id (km_id ex_skm) ex_rcv with Some s => s | None => new_gstate 0 0 [] {| kp_pub := zero_arr 32; kp_priv := None |} end).
  split; [vm_compute; reflexivity|]. split; vm_compute; reflexivity.
Qed.

(** ** C36 *)

(** "Decrypting leaves the message object unchanged" is false: it loses its ciphertext, so that the same object
    is refused even by the record that just accepted it. *)
Theorem C36_message_unchanged_refuted : exists C, crypto_laws C /\ exists r m pt m' r' es,
  greachable C g_no_wrap r /\ group_decrypt C (Some r) m = (Ok pt, m', Some r', es) /\ km_ct m' <> km_ct m /\
  group_decrypt C (Some r) m' = (Err EVerification, m', Some r, []).
Proof.
  exists toy. split; [exact toy_laws|]. exists ex_rcv, ex_skm, [x61], (snd (fst (fst ex_dec))),
    (match snd (fst ex_dec) with Some r => r | None => [] end), (snd ex_dec).
  split; [eapply (GR_evict toy g_no_wrap [] ex_parsed); [constructor| |reflexivity]; vm_compute; reflexivity|].
  split; [vm_compute; reflexivity|]. split; [vm_compute; discriminate|]. vm_compute. reflexivity.
Qed.

(** What does hold: nothing but the ciphertext changes, and after a success the plaintext is a prefix of what
    replaced it. *)
Theorem C36_what_changes : forall C st m o m' r' es, group_decrypt C st m = (o, m', r', es) ->
  km_id m' = km_id m /\ km_iter m' = km_iter m /\ km_version m' = km_version m /\ km_sig m' = km_sig m /\
  (forall pt, o = Ok pt -> exists padding, km_ct m' = Some (pt ++ padding)).
Proof.
  intros C st m o m' r' es H. unfold group_decrypt in H. destruct st as [r|]; [|injection H as <- <- _ _; repeat split; discriminate].
  destruct r as [|x r]; [injection H as <- <- _ _; repeat split; discriminate|].
  destruct (g_by_id _ _) as [s| |]; try (injection H as <- <- _ _; repeat split; discriminate).
  destruct (negb _); [injection H as <- <- _ _; repeat split; discriminate|].
  destruct (g_get_key C s (km_iter m)) as [[k| |] s']; try (injection H as <- <- _ _; repeat split; discriminate).
  destruct (decrypt_cbc_full C (Some (gm_iv k)) (gm_cipher k) (skm_body m)) as [[pt| |] ct'] eqn:ED;
    injection H as <- <- _ _; cbn [skm_with_ct km_id km_iter km_version km_sig km_ct]; try (repeat split; discriminate).
  do 4 (split; [reflexivity|]). intros p Ep. injection Ep as ->. unfold decrypt_cbc_full in ED.
  assert (U : forall l q, unpad l = Ok q -> exists z, l = q ++ z).
  { intros l q Hq. unfold unpad in Hq. destruct (rev l) as [|c ?]; [discriminate|].
    repeat match type of Hq with context[if ?b then _ else _] => destruct b end; try discriminate; injection Hq as <-;
    eexists; symmetry; apply firstn_skipn. }
  destruct (negb (aes_key_ok _)); [discriminate|]. destruct (length (skm_body m) <? 16)%nat; [discriminate|].
  destruct (negb (length (gm_iv k) =? 16)%nat); [discriminate|]. destruct (negb (length (skm_body m) mod 16 =? 0)%nat); [discriminate|].
  injection ED as ED <-. apply U in ED. destruct ED as (z & ->). exists z. reflexivity.
Qed.

(** ** C37 *)

(** An existing sender key: Create only describes it. Parsing the distribution message and processing it gives a
    state with the same id, iteration, chain key and public signing key. *)
Theorem C37_idempotent : forall C r g, r <> [] -> exists s d, hd_error r = Some s /\
  group_create C (Some r) g = (Ok d, Some r, [], g) /\
  dm_id d = gs_id s /\ dm_iter d = gc_iter (gs_chain s) /\ dm_chain d = Some (gc_key (gs_chain s)) /\ dm_sigkey d = kp_pub (gs_signing s).
Proof.
  intros C [|s r] g H; [congruence|]. exists s, (skd_of_state s). split; [reflexivity|]. split; [reflexivity|]. repeat split.
Qed.

(** A first Create: the generator is read for 32, 4 and 32 bytes; one write, of a record with one state at iteration 0
    that can sign, and the distribution message describes that state. A second Create returns the same message. *)
Theorem C37_first_time : forall C st g o r es g', g_is_empty st = true -> group_create C st g = (o, r, es, g') ->
  (exists e, o = Err e /\ r = st /\ es = []) \/
  exists d s seed, o = Ok d /\ r = Some [s] /\ es = [StoreSenderKey [s]] /\ gs_keys s = [] /\ gc_iter (gs_chain s) = 0%N /\
    gs_signing s = pair_of C (clamp seed) /\ fst (rng_read 32 g) = Some seed /\
    dm_id d = gs_id s /\ dm_iter d = 0%N /\ dm_chain d = Some (gc_key (gs_chain s)) /\ dm_sigkey d = kp_pub (gs_signing s) /\
    forall g2, gw_create C g2 (gcommit es st) = (Ok d, gcommit es st).
Proof.
  intros C st g o r es g' HE H. unfold group_create in H. rewrite HE in H. unfold generate_key_pair in H.
  destruct (rng_read 32 g) as [[seed|] g1] eqn:ER.
  - destruct (generate_registration_id g1) as [id g2]. destruct (generate_sender_key g2) as [key g3]. cbn [g_first g_set_state] in H.
    injection H as <- <- <- _. right. exists (skd_of_state (new_gstate id 0 key (pair_of C (clamp seed)))). eexists. exists seed.
    split; [reflexivity|]. split; [reflexivity|]. split; [reflexivity|]. split; [reflexivity|]. split; [reflexivity|]. split; [reflexivity|].
    split; [reflexivity|]. do 4 (split; [reflexivity|]). intros g4. cbn [gcommit fold_left]. rewrite greload_map. reflexivity.
  - injection H as <- <- <- _. left. eexists. split; [reflexivity|]. split; reflexivity.
Qed.

Example C37_hypotheses_met : exists d st, gw_create toy ex_rng None = (Ok d, st) /\ gw_create toy [] st = (Ok d, st) /\ dm_iter d = 0%N.
Proof.
  exists ex_skd, ex_store1. split; [vm_compute; reflexivity|]. split; vm_compute; reflexivity.
Qed.

Print Assumptions C32_any_schedule.
Print Assumptions C32_exactly_once.
Print Assumptions C33_at_most_once.
Print Assumptions C34_success_is_authentic.
Print Assumptions C34_unverified_no_effect.
Print Assumptions C34_failure_stores_nothing.
Print Assumptions C35_bounds.
Print Assumptions C35_too_far.
Print Assumptions C35_retention.
Print Assumptions C35_jump_exact.
Print Assumptions C36_message_unchanged_refuted.
Print Assumptions C36_what_changes.
Print Assumptions C37_idempotent.
Print Assumptions C37_first_time.
