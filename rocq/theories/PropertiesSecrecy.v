(** PropertiesSecrecy.v: C69, who can read which messages of a conversation. *)
From Verif Require Import Base Labels Crypto Bytehelper Ecc Cbc Wire Itoa Keys X3dh Messages SessionState SessionRecord
  SessionBuilder SessionCipher Address World CryptoProofs SessionProofs SerialProofs SessionSpec
  GroupSpec GroupProofs ConvSpec ConvProofs ConvProofs2 ConvProofs3 SecrecySpec SecrecyProofs SecrecyProofs2 Toy ToySession PropertiesConv.
From Coq Require Import Lia ZifyBool ZifyN ZifyNat.

Definition identity_of (p : party) : secret := match p with Alice => IdA | Bob => IdB end.

(** ** C69, the keys

    Whatever the two parties send and whatever is delivered, lost, repeated or reordered: there is one assignment of private keys (the
    identity keys, the ephemeral and the ratchet key of ProcessBundle, Bob's prekeys, and ratchet keys generated while decrypting), such
    that every message is protected with the keys [key_value] gives for its epoch and number, the stored sessions hold exactly the keys
    [session_keys_are] lists, and Bob's one-time prekey is gone once he has a session. *)
Theorem C69_conversation_keys : forall C, crypto_laws C ->
  forall addr wa wb b i sid signed otk g g1 g2 eph ratchet wa1 g' evs,
  strangers C addr wa wb b i sid signed otk ->
  generate_key_pair C g = (Ok eph, g1) -> generate_key_pair C g1 = (Ok ratchet, g2) ->
  w_process_bundle C (addr Bob) b g wa = (Ok tt, wa1, g') -> fair C signed ratchet evs ->
  no_collision (crun C addr (both wa1 wb) (fun _ => []) evs) (cspec start_view (fun _ => []) evs) ->
  let '(w, wire) := cafter C addr (both wa1 wb) (fun _ => []) evs in
  let '(v, sent) := vafter start_view (fun _ => []) evs in
  exists sk : secret -> arr32,
    (sk IdA = ip_priv (w_self wa) /\ sk IdB = ip_priv (w_self wb) /\ kp_priv eph = Some (sk EphA) /\ sk OneB = otk /\
     sk (Ratchet 0) = signed /\ kp_priv ratchet = Some (sk (Ratchet 1)) /\
     forall e, (2 <= e <= Nat.max (pv_epoch (v Alice)) (pv_epoch (v Bob)))%nat ->
       exists gd gd', In gd (delivery_rngs evs) /\ generate_key_pair C gd = (Ok (pair_of C (sk (Ratchet e))), gd')) /\
    (forall p, Forall2 (fun k x => let '(e, n, pt) := x in carries C sk (identity_of p) (identity_of (other p)) k e n pt) (wire p) (sent p)) /\
    (forall p, match w_sessions (w p) (addr (other p)) with
               | None => pv_epoch (v p) = 0%nat
               | Some r => exists s, r = record_from_state s /\ session_keys_are C sk (v p) s
               end) /\
    (forall p, w_self (w p) = w_self (both wa1 wb p)) /\
    (pv_epoch (v Bob) <> 0%nat -> w_prekeys (w Bob) i = None).
Proof.
  intros C L addr wa wb b i sid signed otk g g1 g2 eph ratchet wa1 g' evs H HG1 HG2 HP HF HN.
  destruct (cafter C addr (both wa1 wb) (fun _ => []) evs) as [w wire] eqn:EA. destruct (vafter start_view (fun _ => []) evs) as [v sent] eqn:EV.
  destruct (start_of_strangers C L _ _ _ _ _ _ _ _ _ _ _ _ _ _ _ _ H HG1 HG2 HP HF) as (E & k1 & k2 & -> & -> & EP & HI). cbn [kp_pub pair_of] in HI.
  assert (HG : gone i start_view (both wa1 wb)) by (intros HZ; destruct (HZ eq_refl)).
  destruct H. destruct (after_inv C L addr (privs wa wb) k1 signed otk i sid st_i st_sid st_i_max _ _ _ _ _ _ HI HG HN) as (F & X1 & X2 & X3 & X4).
  rewrite EA, EV in X1, X2. rewrite EA in X3. cbn [fst snd] in X1, X2, X3. exists (sk_of (privs wa wb) k1 otk (E ++ F)).
  pose proof (g_ladder _ _ _ _ _ _ _ _ _ _ _ _ _ _ X1) as HL. pose proof (g_epoch0 _ _ _ _ _ _ _ _ _ _ _ _ _ _ X1) as H0.
  assert (HE : exists x0 x1, E = [x0; x1] /\ en_priv x0 = signed /\ en_priv x1 = k2).
  { destruct E as [|x0 [|x1 [|x2 E]]]; try discriminate EP. exists x0, x1. split; [reflexivity|]. cbn [map] in EP.
    split; [exact (f_equal (hd signed) EP)|]. exact (f_equal (fun l => hd signed (tl l)) EP). }
  destruct HE as (x0 & x1 & -> & P0 & P1). split; [|split; [|split; [|split]]].
  - cbn [sk_of privs both app nth_error kp_priv pair_of]. split; [reflexivity|]. split; [reflexivity|]. split; [reflexivity|]. split; [reflexivity|].
    split; [exact P0|]. split; [rewrite P1; reflexivity|]. intros e He.
    pose proof (g_len _ _ _ _ _ _ _ _ _ _ _ _ _ _ X1) as HLen. destruct e as [|[|e]]; [lia|lia|]. cbn [nth_error]. cbn [app length] in HLen.
    destruct (nth_error F e) as [y|] eqn:Ey; [|apply nth_error_None in Ey; lia]. rewrite Forall_forall in X4.
    destruct (X4 y (nth_error_In _ _ Ey)) as (gd & gd' & Y1 & Y2). exists gd, gd'. split; [exact Y1|exact Y2].
  - intros p. pose proof (g_wire _ _ _ _ _ _ _ _ _ _ _ _ _ _ X1 p) as HW. induction HW as [|k x l l' HR HF2 IH]; [constructor|]. constructor; [|exact IH].
    destruct x as [[e n] pt]. pose proof (message_carries C L (privs wa wb) k1 signed otk i sid (( [x0; x1]) ++ F) p k e n pt HL H0 HR) as HC. destruct p; exact HC.
  - intros p. destruct (g_party _ _ _ _ _ _ _ _ _ _ _ _ _ _ X1 p) as [_ HPR].
    assert (HSR : session_rel C addr (privs wa wb) (x_base C k1) i sid ([x0; x1] ++ F) p (v p) (w p) ->
      match w_sessions (w p) (addr (other p)) with
               | None => pv_epoch (v p) = 0%nat
               | Some r => exists s, r = record_from_state s /\ session_keys_are C (sk_of (privs wa wb) k1 otk ([x0; x1] ++ F)) (v p) s
               end).
    { intros (s & S1 & S2 & _). rewrite S1. exists s. split; [reflexivity|]. exact (session_values C L (privs wa wb) k1 signed otk _ _ _ _ _ HL H0 S2). }
    destruct p; destruct (pv_epoch (v _)) as [|z] eqn:EVp in HPR; [destruct HPR|exact (HSR HPR)| |exact (HSR HPR)].
    destruct HPR as (_ & HB & _). cbn [other]. rewrite HB. exact EVp.
  - exact X3.
  - exact X2.
Qed.

(** ** C69, what can be computed

    With private keys [K] and symmetric keys [H], the keys of message [n] of epoch [e] can be computed exactly if they are in [H], or an
    earlier (or this) chain key of the epoch is, or some earlier root key is (or X3DH can be computed: epoch 0) and from there on one
    of the two ratchet private keys of every step is in [K]. *)
Theorem C69_exact : forall K H e n, known K H (Mkey e n) <->
  In (Mkey e n) H \/ (exists m, (m <= n)%N /\ In (Chain e m) H) \/ (e = 0%nat /\ x3dh_known K) \/
  (exists j, (j < e)%nat /\ (In (Root j) H \/ (j = 0%nat /\ x3dh_known K)) /\
     forall i, (j <= i < e)%nat -> K (Ratchet i) \/ K (Ratchet (S i))).
Proof. intros K H e n. rewrite message_exact, chain_exact. reflexivity. Qed.

(** First contact, no symmetric key stolen: which private keys open the messages Alice sends before any reply. *)
Theorem C69_first_messages : forall K n, known K [] (Mkey 1 n) <->
  (K EphA /\ K (Ratchet 0)) \/ (K IdB /\ K (Ratchet 0) /\ K OneB) \/ (K IdA /\ K EphA /\ K (Ratchet 1)).
Proof.
  intros K n. rewrite C69_exact. unfold x3dh_known, dh_known. split.
  - intros [[]|[(m & _ & [])|[[HZ _]|(j & Hj & [[]|[-> HX]] & HD)]]]; [discriminate HZ|]. specialize (HD 0%nat ltac:(lia)). tauto.
  - intros HK. right. right. right. exists 0%nat. split; [lia|]. split; [right; split; [reflexivity|]; tauto|]. intros j Hj. assert (j = 0%nat) by lia. subst j. tauto.
Qed.

(** ** C69, theft

    The thief of everything [p] has stored, at any time of any conversation, can read exactly what [p] itself could still send in
    its epoch or receive; in particular it learns the keys of no message [p] has already read or sent ([C69_past_is_safe]), and of
    no message of the next but one epoch or later ([C69_healing]). *)
Theorem C69_theft : forall evs p e n, let v := fst (vafter start_view (fun _ => []) evs) p in
  known (stolen_secrets p v) (stolen_keys v) (Mkey e n) <-> to_come v e n.
Proof.
  intros evs p e n v. apply theft_exact. destruct (vinv_after evs _ _ _ vinv_start) as ([_ J1 _ _ J4 _] & _). split; [apply J1|apply J4].
Qed.

(** Stealing both stores at the same time reveals nothing more than what each reveals. *)
Theorem C69_theft_of_both : forall evs e n, let v := fst (vafter start_view (fun _ => []) evs) in
  (known (fun x => stolen_secrets Alice (v Alice) x \/ stolen_secrets Bob (v Bob) x) (stolen_keys (v Alice) ++ stolen_keys (v Bob)) (Mkey e n) <->
   to_come (v Alice) e n \/ to_come (v Bob) e n).
Proof.
  intros evs e n v. destruct (vinv_after evs _ _ _ vinv_start) as ([_ J1 _ _ J4 HD] & _).
  apply both_exact; [split; [apply J1|apply J4]|split; [apply J1|apply J4]|exact HD].
Qed.

(** Forward secrecy: what [p] has received (a delivery with a plaintext) or sent. *)
Theorem C69_past_is_safe : forall evs p, let v := fst (vafter start_view (fun _ => []) evs) in let sent := snd (vafter start_view (fun _ => []) evs) in
  (forall j pt e n pt', In (p, j, Plain pt) (cspec start_view (fun _ => []) evs) -> nth_error (sent (other p)) j = Some (e, n, pt') ->
     ~ known (stolen_secrets p (v p)) (stolen_keys (v p)) (Mkey e n)) /\
  (forall e n pt, In (e, n, pt) (sent p) -> ~ known (stolen_secrets p (v p)) (stolen_keys (v p)) (Mkey e n)).
Proof.
  intros evs p v sent. destruct (vinv_after evs _ _ _ vinv_start) as ([[I1 I2 I3] J1 J2 J3 J4 _] & _). fold v sent in I1, I2, I3, J1, J2, J3, J4.
  assert (HV : vok p (v p)) by (split; [apply J1|apply J4]). split.
  - intros j pt e n pt' HI HN HK. apply (theft_exact p) in HK; [|exact HV].
    assert (HA : In (p, j) (plains (cspec start_view (fun _ => []) evs) ++ [])).
    { rewrite app_nil_r. unfold plains. apply in_flat_map. exists (p, j, Plain pt). split; [exact HI|left; reflexivity]. }
    destruct (I3 _ _ HA) as (e' & n' & x & H1 & U1 & U2). rewrite HN in H1. assert (e' = e /\ n' = n) by (split; congruence). destruct H as [-> ->].
    destruct HK as [[-> _]|[(c & Hc & E & [Hn|Hn])| ->]]; [lia| | |lia].
    + destruct (U2 c Hc E). lia.
    + destruct (U2 c Hc E) as [_ U3]. exact (U3 Hn).
  - intros e n pt HI HK. apply (theft_exact p) in HK; [|exact HV]. pose proof (I2 _ _ _ _ HI) as HB. pose proof (J3 _ _ _ _ HI) as HE.
    destruct HK as [[-> Hn]|[(c & Hc & E & _)| ->]]; [lia| |lia]. rewrite <- E, (J2 _ _ Hc) in HE. destruct p; discriminate HE.
Qed.

(** Healing: after the theft the conversation goes on. What [p] sends with a ratchet key generated after the theft, and what the other
    side sends after that, the thief can not read. *)
Theorem C69_healing : forall evs1 evs2 p, let v := fst (vafter start_view (fun _ => []) evs1) in let sent := snd (vafter start_view (fun _ => []) (evs1 ++ evs2)) in
  forall e n pt, (In (e, n, pt) (sent p) /\ (pv_epoch (v p) < e)%nat) \/ (In (e, n, pt) (sent (other p)) /\ (S (pv_epoch (v p)) < e)%nat) ->
  ~ known (stolen_secrets p (v p)) (stolen_keys (v p)) (Mkey e n).
Proof.
  intros evs1 evs2 p v sent e n pt HI HK.
  destruct (vinv_after evs1 _ _ _ vinv_start) as ([[I1 _ _] J1 J2 _ J4 _] & _). fold v in I1, J1, J2, J4.
  destruct (vinv_after (evs1 ++ evs2) _ _ _ vinv_start) as ([_ _ _ J3 _ _] & _). fold sent in J3.
  apply (theft_exact p) in HK; [|split; [apply J1|apply J4]].
  assert (HL : (S (pv_epoch (v p)) < e)%nat).
  { destruct HI as [[HI HL]|[_ HL]]; [|exact HL]. pose proof (J3 _ _ _ _ HI) as HE. specialize (J1 p). destruct (Nat.eq_dec e (S (pv_epoch (v p)))) as [->|HNE]; [|lia].
    rewrite even_S, J1 in HE. destruct p; discriminate HE. }
  destruct HK as [[-> _]|[(c & Hc & E & _)| ->]]; [lia| |lia]. destruct (I1 p) as [_ HC]. rewrite Forall_forall in HC. destruct (HC c Hc) as [HC1 _]. lia.
Qed.

(** But a second theft from [p], two epochs later, also opens the messages of that epoch which were sent before it. *)
Theorem C69_second_theft : forall p v1 v2 n, pv_epoch v1 <> 0%nat -> pv_epoch v2 = S (S (pv_epoch v1)) ->
  known (fun x => stolen_secrets p v1 x \/ stolen_secrets p v2 x) (stolen_keys v1 ++ stolen_keys v2) (Mkey (pv_epoch v2) n).
Proof.
  intros p v1 v2 n H1 H2. apply C69_exact. right. right. right. exists (pv_epoch v1). split; [lia|]. split.
  - left. apply in_or_app. left. unfold stolen_keys. destruct (pv_epoch v1); [destruct (H1 eq_refl)|left; reflexivity].
  - intros k Hk. assert (HK : k = pv_epoch v1 \/ k = S (pv_epoch v1)) by lia. destruct HK as [->| ->].
    + left. left. apply stolen_ratchet. left. reflexivity.
    + right. right. apply stolen_ratchet. left. symmetry. exact H2.
Qed.

(** The conversation of PropertiesConv.v: after it Alice has sent in epochs 1 and 3 and Bob in epoch 2; nothing was forgotten. *)
Example C69_hypotheses_met : strangers toy toy_addr alice0 bob0 bob_bundle 7 9 (tkey x72) (tkey x71) /\ fair toy (tkey x72) toy_ratchet toy_evs /\
  no_collision (crun toy toy_addr (both alice1 bob0) (fun _ => []) toy_evs) (cspec start_view (fun _ => []) toy_evs) /\
  map (fun p => (pv_epoch (fst (vafter start_view (fun _ => []) toy_evs) p), map (fun x => fst (fst x)) (snd (vafter start_view (fun _ => []) toy_evs) p))) [Alice; Bob]
    = [(3%nat, [1%nat; 1%nat; 1%nat; 3%nat]); (4%nat, [2%nat; 2%nat])].
Proof.
  split; [exact toy_strangers|]. split; [exact toy_fair|]. split; [|vm_compute; reflexivity].
  intros k p j Hk. rewrite toy_schedule in Hk. do 8 (destruct k as [|k]; [discriminate Hk|]). destruct k; discriminate Hk.
Qed.

(** A thief of Alice's store then reads what she sends next in epoch 3 and Bob's messages of epoch 4, not those of epochs 1, 2 and 5. *)
Example C69_example : let v := fst (vafter start_view (fun _ => []) toy_evs) Alice in
  (forall n, known (stolen_secrets Alice v) (stolen_keys v) (Mkey 4 n)) /\ known (stolen_secrets Alice v) (stolen_keys v) (Mkey 3 1) /\
  ~ known (stolen_secrets Alice v) (stolen_keys v) (Mkey 3 0) /\ ~ known (stolen_secrets Alice v) (stolen_keys v) (Mkey 2 0) /\
  ~ known (stolen_secrets Alice v) (stolen_keys v) (Mkey 5 0).
Proof.
  set (v := fst (vafter start_view (fun _ => []) toy_evs) Alice). cbv zeta.
  assert (EV : v = {| pv_epoch := 3; pv_count := 1; pv_chains := [{| cv_epoch := 0; cv_next := 0; cv_kept := [] |}; {| cv_epoch := 2; cv_next := 2; cv_kept := [] |}] |}) by (vm_compute; reflexivity).
  pose proof (fun e n => C69_theft toy_evs Alice e n) as HT. cbv zeta in HT. fold v in HT.
  assert (HN : forall e n, ~ to_come v e n -> ~ known (stolen_secrets Alice v) (stolen_keys v) (Mkey e n)) by (intros e n HX HK; apply HX; apply HT; exact HK).
  split; [intros n; apply HT; right; right; rewrite EV; reflexivity|]. split; [apply HT; left; rewrite EV; split; [reflexivity|cbn; lia]|].
  split; [|split]; apply HN; rewrite EV; unfold to_come; cbn [pv_epoch pv_count pv_chains]; (intros [[E H]|[(c & [<-|[<-|[]]] & E & [H|H])|E]]; cbn [cv_epoch cv_next cv_kept] in *; try discriminate E; try lia; destruct H).
Qed.

Print Assumptions C69_conversation_keys.
Print Assumptions C69_exact.
Print Assumptions C69_first_messages.
Print Assumptions C69_theft.
Print Assumptions C69_theft_of_both.
Print Assumptions C69_past_is_safe.
Print Assumptions C69_healing.
Print Assumptions C69_second_theft.
