(** PropertiesGroupStore.v: C67, repeated, excess and foreign distribution messages; panics of the group calls. *)
From Verif Require Import Base Labels Crypto Bytehelper Ecc Cbc Messages SessionState Group GroupSpec GroupConvSpec GroupProofs GroupProofs2 GroupConvProofs
  GroupStoreSpec GroupStoreProofs CryptoProofs SerialProofs Toy ToySession.
From Coq Require Import Lia ZifyBool ZifyN ZifyNat.

(** ** C67 *)

(** Processing a distribution message whose sender key id is already known to the member, because it processed one
    with that id or because Create returned it, changes no later answer, whatever its other contents: as long as fewer than
    2000 distribution messages are processed in all. *)
Theorem C67_known_id_changes_nothing : forall C before d d' after,
  In (CProcess d') before \/ In (ADistribution (Ok d')) (ganswers C before) -> dm_id d' = dm_id d ->
  (N.of_nat (processes (before ++ CProcess d :: after)) < 2000)%N ->
  exists rest, ganswers C (before ++ after) = ganswers C before ++ rest /\
               ganswers C (before ++ CProcess d :: after) = ganswers C before ++ AProcessed :: rest.
Proof.
  intros C before d d' after HK HI HL. unfold ganswers in *. exists (fst (gplay C after (snd (gplay C before None)))).
  rewrite !play_app. cbn [fst]. split; [reflexivity|]. f_equal. rewrite play_cons. cbn [fst snd gcall_run]. f_equal.
  assert (E : processes (before ++ CProcess d :: after) = (processes before + S (processes after))%nat).
  { unfold processes. rewrite filter_app, app_length. reflexivity. }
  rewrite E in HL. clear E. assert (HM : (processes before + S (processes after) < max_group_keys)%nat) by (unfold max_group_keys; lia). clear HL.
  destruct (play_ids C before None I) as (_ & B & D); [cbn [size]; lia|]. cbn [size] in D.
  assert (HID : In (dm_id d) (ids (snd (gplay C before None)))).
  { rewrite <- HI. destruct HK as [HK|HK]; [exact (B d' HK)|]. apply (play_created C before None I); [cbn [size]; lia|exact HK]. }
  pose proof (play_sane C before None I) as HS. destruct (snd (gplay C before None)) as [r|] eqn:ER; [|destruct HID]. cbn [ids size sane] in *.
  rewrite process_char by apply HS. rewrite last_n_all by (rewrite app_length; cbn [length]; lia).
  eapply play_shadowed; [|split|reflexivity|].
  - rewrite <- (app_nil_r r) at 2. apply Shadowed. exact HID.
  - apply Forall_app. split; [apply HS|]. constructor; [apply received_keyed|constructor].
  - rewrite app_length. cbn [length]. lia.
  - rewrite app_length. cbn [length]. lia.
Qed.

(** Exactly which sender keys a member holds after processing any list of distribution messages: the 2000 latest. *)
Theorem C67_latest_2000_kept : forall C before ds, ds <> [] ->
  gstore_after C (before ++ map CProcess ds) =
  Some (last_n (N.to_nat 2000) (match gstore_after C before with Some r => r | None => [] end ++ map received ds)).
Proof.
  intros C before ds HD. unfold gstore_after. rewrite play_app. cbn [snd]. pose proof (play_sane C before None I) as HS.
  apply processed; assumption.
Qed.

(** Processing the same distribution message 2000 times makes the member forget all it had read with it: it answers to any
    message of that sender key like a member that has just joined. *)
Theorem C67_everything_forgotten : forall C before d n m, (2000 <= N.of_nat n)%N -> km_id m = dm_id d ->
  exists l o, ganswers C [CProcess d; CDecrypt m] = [AProcessed; APlain o] /\
              ganswers C (before ++ repeat (CProcess d) n ++ [CDecrypt m]) = l ++ [APlain o].
Proof.
  intros C before d n m Hn Hid.
  assert (HJ : ganswers C [CProcess d; CDecrypt m] = [AProcessed; APlain (fst (gw_decrypt C m (Some [received d])))]).
  { unfold ganswers. rewrite !play_cons. cbn [fst snd gcall_run]. rewrite process_none, process_char; [|constructor|apply Nat.le_0_l].
    rewrite last_n_all by (apply Nat.leb_le; reflexivity). cbn [app]. destruct (gw_decrypt C m (Some [received d])). reflexivity. }
  eexists. exists (fst (gw_decrypt C m (Some [received d]))). split; [exact HJ|].
  unfold ganswers. rewrite app_assoc, play_app. cbn [fst]. f_equal. rewrite play_cons. cbn [fst gcall_run gplay].
  pose proof (C67_latest_2000_kept C before (repeat d n)) as HF. rewrite map_repeat' in HF. unfold gstore_after in HF. rewrite HF.
  2:{ destruct n as [|n]; [lia|]. intros H. discriminate H. }
  assert (E : last_n (N.to_nat 2000) (match snd (gplay C before None) with Some r => r | None => [] end ++ map received (repeat d n)) = received d :: repeat (received d) (pred (N.to_nat 2000))).
  { rewrite map_repeat'. unfold last_n. rewrite skipn_app, skipn_all2 by (rewrite app_length, repeat_length; lia). cbn [app].
    rewrite app_length, repeat_length, skipn_repeat. change (received d :: repeat (received d) (pred (N.to_nat 2000))) with (repeat (received d) (S (pred (N.to_nat 2000)))). f_equal. lia. }
  rewrite E. clear E. cbn [snd]. rewrite !decrypt_char. rewrite !(by_id_head (km_id m) (received d)) by (cbn [received gs_id]; congruence).
  destruct (dec_state C m (received d)) as [o [s'|]]; reflexivity.
Qed.

(** So a message already read is read again. *)
Corollary C67_reread_after_2000_distributions : forall C d m pt n, (2000 <= N.of_nat n)%N -> km_id m = dm_id d ->
  ganswers C [CProcess d; CDecrypt m] = [AProcessed; APlain (Ok pt)] ->
  exists l, ganswers C ([CProcess d; CDecrypt m] ++ repeat (CProcess d) n ++ [CDecrypt m]) = l ++ [APlain (Ok pt)].
Proof.
  intros C d m pt n Hn Hid H. destruct (C67_everything_forgotten C [CProcess d; CDecrypt m] d n m Hn Hid) as (l & o & E1 & E2).
  exists l. rewrite E2. rewrite H in E1. apply (f_equal (fun z => match z with [_; APlain p] => p | _ => Panic end)) in E1. cbv beta iota in E1. rewrite <- E1. reflexivity.
Qed.

(** And 2000 distribution messages with other ids make it lose the sender. *)
Theorem C67_lost_after_2000_others : forall C before ds m, (2000 <= N.of_nat (length ds))%N -> (forall d, In d ds -> dm_id d <> km_id m) ->
  exists l, ganswers C (before ++ map CProcess ds ++ [CDecrypt m]) = l ++ [APlain (Err ENoSenderKeyForId)].
Proof.
  intros C before ds m Hn HD. eexists. unfold ganswers. rewrite app_assoc, play_app. cbn [fst]. f_equal. rewrite play_cons. cbn [fst gcall_run gplay].
  pose proof (C67_latest_2000_kept C before ds) as HF. unfold gstore_after in HF. rewrite HF.
  2:{ intros ->. cbn [length] in Hn. lia. }
  assert (E : last_n (N.to_nat 2000) (match snd (gplay C before None) with Some r => r | None => [] end ++ map received ds) = last_n (N.to_nat 2000) (map received ds)).
  { unfold last_n. rewrite app_length, map_length, skipn_app, skipn_all2 by lia. cbn [app]. f_equal. lia. }
  rewrite E. clear E. set (q := last_n (N.to_nat 2000) (map received ds)).
  assert (HQ : length q = N.to_nat 2000) by (unfold q, last_n; rewrite skipn_length, map_length; lia).
  assert (HB : by_id (km_id m) q = None).
  { unfold by_id. destruct (find (fun s => (gs_id s =? km_id m)%N) q) as [s|] eqn:E; [|reflexivity]. apply find_some in E. destruct E as [HI E].
    unfold q in HI. apply last_n_in, in_map_iff in HI. destruct HI as (d & <- & Hd). cbn [received gs_id] in E. apply N.eqb_eq in E. destruct (HD d Hd E). }
  rewrite decrypt_char. destruct q as [|x q]; [exfalso; cbn [length] in HQ; lia|]. rewrite HB. reflexivity.
Qed.

(** Encrypt with somebody else's sender key is not refused: it returns a message signed with the all-zero private key, and
    it uses up the iteration, so that the sender's own message of that iteration is refused. *)
Theorem C67_encrypting_with_a_received_key : forall C, crypto_laws C -> forall d pt g, (dm_iter d < 4294967295)%N ->
  exists m, ganswers C [CProcess d; CEncrypt pt g] = [AProcessed; AMessage (Ok m)] /\
    km_id m = dm_id d /\ km_iter m = dm_iter d /\
    km_sig m = Some (abytes (fst (calculate_signature C (zero_arr 32) (skm_unsigned m) g))) /\
    forall m2, km_id m2 = dm_id d -> km_iter m2 = dm_iter d -> verify_signature C (dm_sigkey d) (skm_unsigned m2) (skm_signature m2) = true ->
      ganswers C [CProcess d; CEncrypt pt g; CDecrypt m2] = [AProcessed; AMessage (Ok m); APlain (Err EGroupOldCounter)].
Proof.
  intros C L d pt g Hi.
  destruct (gmk_sizes C L (gs_chain (received d))) as [Z1 Z2].
  assert (HK : aes_key_ok (gm_cipher (gmk C (gs_chain (received d)))) = true) by (unfold aes_key_ok; rewrite Z2; reflexivity).
  destruct (cbc_roundtrip_given C L (gm_iv (gmk C (gs_chain (received d)))) (gm_cipher (gmk C (gs_chain (received d)))) pt HK Z1) as (ct & E1 & _).
  assert (EP : gw_process d None = Some [received d]).
  { rewrite process_none, process_char; [|constructor|apply Nat.le_0_l]. rewrite last_n_all by (apply Nat.leb_le; reflexivity). reflexivity. }
  set (m := {| km_id := dm_id d; km_iter := dm_iter d; km_ct := Some ct; km_version := 3;
               km_sig := Some (abytes (fst (calculate_signature C (zero_arr 32) (skm_unsigned {| km_id := dm_id d; km_iter := dm_iter d; km_ct := Some ct; km_version := 3; km_sig := None |}) g))) |}).
  set (s1 := gset_chain (g_next C (gs_chain (received d))) (received d)).
  assert (EE : gw_encrypt C pt g (Some [received d]) = (Ok m, Some [s1])).
  { rewrite encrypt_char. unfold enc_state. rewrite (message_key_ok C L), E1. unfold new_sender_key_message. cbn [received gs_signing kp_priv gs_id].
    change (gm_iter (gmk C (gs_chain (received d)))) with (dm_iter d).
    destruct (calculate_signature C (zero_arr 32) _ g) as [sg g1] eqn:EC. rewrite (stored_same [gset_chain _ _]); [|constructor; [apply received_keyed|constructor]].
    reflexivity. }
  exists m. assert (EA : ganswers C [CProcess d; CEncrypt pt g] = [AProcessed; AMessage (Ok m)]).
  { unfold ganswers. cbn [gplay gcall_run]. rewrite EP, EE. reflexivity. }
  split; [exact EA|]. split; [reflexivity|]. split; [reflexivity|]. split; [reflexivity|].
  intros m2 H1 H2 H3. unfold ganswers. cbn [gplay gcall_run]. rewrite EP, EE, decrypt_char, (by_id_head (km_id m2) s1 []) by (cbn [s1 gset_chain received gs_id]; congruence).
  unfold dec_state. change (kp_pub (gs_signing s1)) with (dm_sigkey d). rewrite H3. cbn [negb].
  assert (HG : g_get_key C s1 (km_iter m2) = (Err EGroupOldCounter, s1)).
  { apply (spent_blocks C). split; [|intros []]. unfold s1. cbn [gset_chain gs_chain g_next received gc_iter]. rewrite H2.
    unfold u32_add. rewrite u32_small by (unfold u32_modulus; lia). lia. }
  rewrite HG. reflexivity.
Qed.

(** ** Panics. [cs] is any program of group calls on an initially empty store, and the call is made after it. *)

(** Encrypt panics exactly when nothing is stored under the name. *)
Theorem C67_encrypt_panics_exactly : forall C, crypto_laws C -> forall cs pt g,
  fst (gw_encrypt C pt g (gstore_after C cs)) = Panic <-> gstore_after C cs = None.
Proof.
  intros C L cs pt g. pose proof (play_sound C L cs None I I) as HS. unfold gstore_after in *. destruct (snd (gplay C cs None)) as [r|].
  - split; [|intros H; discriminate H]. intros H. destruct (encrypt_panic C L pt g r HS H).
  - split; reflexivity.
Qed.

(** Decrypt panics exactly when nothing is stored under the name, or when the message carries the valid signature of the known
    sender key with its id, its iteration is one that can be read, and its ciphertext is at least 16 bytes and not a multiple of
    16 bytes long. Create and Process never panic. *)
Theorem C67_decrypt_panics_exactly : forall C, crypto_laws C -> forall cs m, (km_iter m < 4294967296)%N ->
  (fst (gw_decrypt C m (gstore_after C cs)) = Panic <->
   gstore_after C cs = None \/
   exists before s after, gstore_after C cs = Some (before ++ s :: after) /\ gs_id s = km_id m /\ (forall t, In t before -> gs_id t <> km_id m) /\
     verify_signature C (kp_pub (gs_signing s)) (skm_unsigned m) (skm_signature m) = true /\
     gaccept (view_of s) (km_iter m) <> None /\ (16 <= length (skm_body m))%nat /\ (length (skm_body m) mod 16 <> 0)%nat).
Proof.
  intros C L cs m Hm. pose proof (play_sound C L cs None I I) as HS. unfold gstore_after in *. destruct (snd (gplay C cs None)) as [r|].
  2:{ split; [intros _; left; reflexivity|reflexivity]. }
  rewrite (decrypt_panic C L m r HS Hm). split.
  - intros (s & HB & R). right. destruct (by_id_split _ _ _ HB) as (a & b & E & Ha). exists a, s, b. split; [rewrite E; reflexivity|].
    apply by_id_in in HB. split; [exact (proj2 HB)|]. split; [exact Ha|exact R].
  - intros [H|(a & s & b & E & HI & Ha & R)]; [discriminate H|]. exists s. split; [|exact R]. apply some_eq in E. rewrite <- E.
    clear - HI Ha. unfold by_id. induction a as [|x a IH]; cbn [app find]; [rewrite (proj2 (N.eqb_eq _ _) HI); reflexivity|].
    destruct (N.eqb_spec (gs_id x) (km_id m)) as [E|_]; [destruct (Ha x (or_introl eq_refl) E)|]. apply IH. intros t Ht. apply Ha. right. exact Ht.
Qed.

Theorem C67_create_never_panics : forall C g st, fst (gw_create C g st) <> Panic.
Proof.
  intros C g st. unfold gw_create, group_create. destruct (g_is_empty st) eqn:E.
  - unfold generate_key_pair. destruct (rng_read 32 g) as [[z|] g1]; [|intros H; discriminate H]. destruct (generate_registration_id g1) as [i g2].
    destruct (generate_sender_key g2) as [k g3]. intros H. discriminate H.
  - destruct st as [[|s r]|]; [discriminate E|intros H; discriminate H|discriminate E].
Qed.

(** ** Examples: a created sender key, its distribution message, two messages. *)
Definition ex_g : rng := [Some [x21]; Some [x01; x02]; Some [x41]].
Definition ex_dist : skd := match ganswers toy [CCreate ex_g] with [ADistribution (Ok d)] => d | _ => new_skd 0 0 [] (zero_arr 32) end.
Definition no_skm : skm := {| km_id := 0; km_iter := 0; km_ct := None; km_version := 0; km_sig := None |}.
Definition ex_m (k : nat) : skm :=
  match nth_error (ganswers toy [CCreate ex_g; CEncrypt [x61] []; CEncrypt [x62] []]) (S k) with Some (AMessage (Ok m)) => m | _ => no_skm end.
(** A ciphertext of 17 bytes, properly signed. *)
Definition ex_ragged : skm := fst (match new_sender_key_message toy (dm_id ex_dist) 1 (repeat x00 17) (Some (clamp (to_arr 32 [x21]))) [] with
  (Ok m, g) => (m, g) | _ => (no_skm, []) end).

Example C67_hypotheses_met :
  dm_id ex_dist = 513%N /\
  ganswers toy [CProcess ex_dist; CDecrypt (ex_m 0)] = [AProcessed; APlain (Ok [x61])] /\
  ganswers toy [CProcess ex_dist; CDecrypt (ex_m 0); CProcess ex_dist; CDecrypt (ex_m 0); CDecrypt (ex_m 1)] =
    [AProcessed; APlain (Ok [x61]); AProcessed; APlain (Err EGroupOldCounter); APlain (Ok [x62])] /\
  (forall d, In d (map (fun i => new_skd (1000 + N.of_nat i) 0 [] (zero_arr 32)) (seq 0 4)) -> dm_id d <> km_id (ex_m 0)) /\
  ganswers toy [CProcess ex_dist; CDecrypt ex_ragged] = [AProcessed; APlain Panic] /\
  ganswers toy [CDecrypt (ex_m 0)] = [APlain Panic] /\
  verify_signature toy (dm_sigkey ex_dist) (skm_unsigned (ex_m 0)) (skm_signature (ex_m 0)) = true /\ km_iter (ex_m 0) = dm_iter ex_dist.
Proof.
  split; [vm_compute; reflexivity|]. split; [vm_compute; reflexivity|]. split; [vm_compute; reflexivity|]. split.
  - intros d H. cbn [map seq In] in H. repeat (destruct H as [<-|H]; [intros E; vm_compute in E; discriminate E|]). destruct H.
  - repeat split; vm_compute; reflexivity.
Qed.

Print Assumptions C67_known_id_changes_nothing.
Print Assumptions C67_latest_2000_kept.
Print Assumptions C67_everything_forgotten.
Print Assumptions C67_reread_after_2000_distributions.
Print Assumptions C67_lost_after_2000_others.
Print Assumptions C67_encrypting_with_a_received_key.
Print Assumptions C67_encrypt_panics_exactly.
Print Assumptions C67_decrypt_panics_exactly.
Print Assumptions C67_create_never_panics.
