(** ReopenProofs3.v: whole runs on top of old sessions, with injected packets (C62), and both parties starting a
    session at the same time (C63). *)
From Verif Require Import Base Labels Crypto Bytehelper Ecc Cbc Wire Itoa Keys X3dh Messages SessionState SessionRecord
  SessionBuilder SessionCipher Address World WireProofs CodecProofs CodecProofs2 CryptoProofs SessionProofs SerialProofs SessionSpec
  HistoryProofs InvariantProofs OpsProofs OpsProofs3 GroupSpec MiscProofs GroupProofs ConvSpec ConvProofs ConvProofs2 ConvProofs3 ReopenSpec
  ReopenProofs ReopenProofs2.
From Coq Require Import Lia ZifyBool ZifyN ZifyNat.

Section Reopen3.
Context (C : crypto) (L : crypto_laws C).
Context (addr : party -> address) (priv : party -> arr32) (base signed otk : arr32) (i sid : N).
Context (Hi : (i < 2 ^ 32)%N) (Hsid : (sid < 2 ^ 32)%N) (Him : i <> medium_max).
Notation idk := (idk C priv).
Notation wire_rel := (wire_rel C priv base i sid).
Notation trusting := (trusting C addr priv).
Notation pending_at := (pending_at base i sid).
Notation epoch0 := (epoch0 C priv base signed otk).
Notation session_rel2 := (session_rel2 C addr priv base i sid).
Notation bob_ready2 := (bob_ready2 C addr priv base signed otk i sid).
Notation outcome2 := (outcome2 C addr priv base i sid).

Definition party_rel2 (E : list entry) (p : party) (v : pview) (w : world) : Prop :=
  trusting p w /\
  match p, pv_epoch v with
  | Alice, O => False
  | Bob, O => v = no_view /\ bob_ready2 w
  | _, _ => session_rel2 E p v w
  end.

Record ginv2 (E : list entry) (v : party -> pview) (sent : party -> list (nat * N * bytes)) (w : party -> world) (opened : bool)
    (wire : party -> list packet) (evs : list cevent) : Prop := {
  h_ladder : ladder C E;
  h_epoch0 : exists x, nth_error E 0 = Some x /\ epoch0 x;
  h_len : length E = S (Nat.max (pv_epoch (v Alice)) (pv_epoch (v Bob)));
  h_diff : pv_epoch (v Alice) = S (pv_epoch (v Bob)) \/ pv_epoch (v Bob) = S (pv_epoch (v Alice));
  h_even : Nat.even (pv_epoch (v Bob)) = true;
  h_fresh : NoDup (map (fun x => Some (en_pub C x)) E ++ map (new_pub C) (delivery_rngs evs));
  h_rngs : forall g, In g (delivery_rngs evs) -> new_pub C g <> None;
  h_party : forall p, party_rel2 E p (v p) (w p);
  h_wire : forall p, Forall2 (wire_rel E p) (wire p) (sent p);
  h_sent : forall p e n pt, In (e, n, pt) (sent p) -> (1 <= e <= pv_epoch (v p))%nat /\ (p = Bob -> (2 <= e)%nat);
  h_first : pv_epoch (v Alice) = 1%nat -> map cv_epoch (pv_chains (v Alice)) = [0%nat];
  h_count : forall p, (pv_count (v p) + sends evs < 4294967295)%N;
  h_size : forall pt, In pt (plaintexts evs) -> (N.of_nat (length pt) + 200 < 9223372036854775808)%N;
  h_open : opened = negb (Nat.eqb (pv_epoch (v Bob)) 0) }.

Lemma session_rel2_mono : forall E F p v w, session_rel2 E p v w -> session_rel2 (E ++ F) p v w.
Proof.
  intros E F p v w (r & S1 & S2 & S3 & S4 & S5). exists r. split; [exact S1|]. split; [exact S2|]. split; [exact S3|].
  split; [apply state_rel_mono; exact S4|exact S5].
Qed.

Lemma party_rel2_mono : forall E F p v w, party_rel2 E p v w -> party_rel2 (E ++ F) p v w.
Proof.
  intros E F p v w [HT H]. split; [exact HT|]. destruct p; destruct (pv_epoch v); try exact H; apply session_rel2_mono; exact H.
Qed.

Lemma only_saved_party2 : forall E p v w w', only_saved w w' -> party_rel2 E p v w -> party_rel2 E p v w'.
Proof.
  intros E p v w w' (O1 & O2 & O3 & O4 & O5) [HT H]. split; [unfold ConvProofs2.trusting; rewrite O5; exact HT|].
  assert (HS : session_rel2 E p v w -> session_rel2 E p v w') by (unfold ReopenProofs2.session_rel2; rewrite O1; auto).
  assert (HB : bob_ready2 w -> bob_ready2 w') by (unfold ReopenProofs2.bob_ready2, unused_base; rewrite O1, O2, O3, O4; auto).
  destruct p; destruct (pv_epoch v); auto; tauto.
Qed.

Lemma party_sends : forall E p v w opened, party_rel2 E p v w -> (p = Bob -> opened = negb (Nat.eqb (pv_epoch v) 0)) ->
  match pv_epoch v with O => p = Bob /\ may_send p opened = false | S _ => may_send p opened = true /\ session_rel2 E p v w end.
Proof.
  intros E p v w opened [_ H] HO. destruct p; destruct (pv_epoch v) as [|z] eqn:EV.
  - destruct H.
  - split; [reflexivity|exact H].
  - split; [reflexivity|]. exact (HO eq_refl).
  - split; [|exact H]. exact (HO eq_refl).
Qed.

(** One Encrypt of a party that has the new session. *)
Lemma send_one : forall E p v w pt, session_rel2 E p v w -> ladder C E -> (pv_count v < 4294967295)%N ->
  (N.of_nat (length pt) + 200 < 9223372036854775808)%N -> (pv_epoch v = 1%nat -> p = Alice) -> pv_epoch v <> 0%nat ->
  exists ct k w', w_encrypt C (addr (other p)) pt w = (Ok ct, w') /\ pack ct = Ok k /\ wire_rel E p k (pv_epoch v, pv_count v, pt) /\
    session_rel2 E p {| pv_epoch := pv_epoch v; pv_count := pv_count v + 1; pv_chains := pv_chains v |} w' /\
    w_policy w' = w_policy w /\ w_self w' = w_self w /\ w_prekeys w' = w_prekeys w /\ w_signed w' = w_signed w /\ w_reg w' = w_reg w /\
    (forall r r', w_sessions w (addr (other p)) = Some r -> w_sessions w' (addr (other p)) = Some r' -> r_prev r' = r_prev r).
Proof.
  intros E p v w pt (r & S1 & SF & SS & S2 & S3 & S4 & S5) HL Hlt Hsz HA HNZ.
  assert (HRd := session_states C L addr priv E p v w r SS SF S1 S2).
  assert (HV' : v_load (view_of w (addr (other p))) = r) by (unfold view_of; cbn [v_load]; rewrite S1; reflexivity).
  assert (HV : r_cur (v_load (view_of w (addr (other p)))) = r_cur r) by (rewrite HV'; reflexivity).
  assert (HPO : pending_ok (r_cur r) (idk p)).
  { unfold pending_ok. rewrite S4. unfold ConvProofs2.pending_at. destruct p; [|exact I]. destruct (pv_epoch v) as [|[|]]; try exact I.
    exists i. repeat split; auto. }
  destruct (encrypt_rel C L E (idk p) (idk (other p)) v (r_cur r) (view_of w (addr (other p))) pt S2 HL Hlt Hsz HPO HV)
      as (ct & k & m & s' & E1 & E2 & E3 & E4 & E5 & E6 & E7).
  destruct E7 as (K1 & K2 & _).
  assert (HIn : initialised s') by (eapply state_rel_initialised; [exact E5|]; rewrite K1; exact S3).
  assert (HPer : persist (set_cur s' r) = Ok (unfresh (set_cur s' r))).
  { apply persist_ok; [exact HIn|]. cbn [r_prev set_cur]. inversion HRd as [|? ? _ RP]; subst. eapply Forall_impl; [|exact RP]. exact ready_initialised. }
  exists ct, k. eexists. unfold w_encrypt. rewrite E1, HV'. cbn [commit apply_effect]. rewrite HPer. cbn [commit seal].
  split; [reflexivity|]. split; [exact E2|]. split.
  { exists m. split; [exact E4|]. unfold parses_to in E3. rewrite S4 in E3. unfold ConvProofs2.pending_at in E3.
    destruct p.
    - destruct (pv_epoch v) as [|[|z]]; [exfalso; apply HNZ; reflexivity| |]; destruct k as [b|b]; try (destruct E3; fail).
      + split; [reflexivity|]. destruct E3 as (pm & P1 & P2 & P3 & P4 & P5 & P6 & P7). exists pm. repeat split; auto.
      + split; [exact E3|]. intros _. discriminate.
    - destruct k as [b|b]; [|destruct E3]. split; [exact E3|]. discriminate. }
  split; [|repeat split].
  - exists (unfresh (set_cur s' r)). split; [cbn [w_sessions]; apply upd_addr_here|]. split; [reflexivity|]. split.
    { eapply Stored_write; [|eapply Op_encrypt; exact E1| |exact HPer]; [rewrite HV'; exact SS|rewrite HV'; right; left; reflexivity]. }
    cbn [r_cur unfresh set_cur]. split; [exact E5|]. split; [congruence|].
    split; [rewrite E6, S4; reflexivity|]. intros HA'. rewrite K2. auto.
  - cbn [w_sessions]. intros r1 r2 H1 H2. rewrite upd_addr_here in H2. injection H2 as <-. rewrite S1 in H1. injection H1 as <-. reflexivity.
Qed.

Theorem simulation2 : forall evs E v sent w opened wire, ginv2 E v sent w opened wire (genuine evs) ->
  agrees (rrun C addr w opened wire evs) (cspec v sent (genuine evs)).
Proof.
  induction evs as [|ev evs IH]; intros E v sent w opened wire HI; [constructor|]. destruct ev as [p pt|p j g|p k g].
  - change (genuine (RSend p pt :: evs)) with (Send p pt :: genuine evs) in *. cbn [rrun cspec].
    pose proof (party_sends E p (v p) (w p) opened (h_party _ _ _ _ _ _ _ HI p)) as HH.
    assert (HOP : p = Bob -> opened = negb (pv_epoch (v p) =? 0)%nat) by (intros ->; exact (h_open _ _ _ _ _ _ _ HI)).
    specialize (HH HOP). destruct (pv_epoch (v p)) as [|z] eqn:EV.
    { destruct HH as [-> ->]. apply (IH E). destruct HI as [I1 I2 I3 I4 I13 I5 I6 I7 I8 I9 I10 I11 I12 I14]. constructor; auto.
      - intros q. specialize (I11 q). unfold sends in *. cbn [plaintexts flat_map app length] in I11. fold (plaintexts (genuine evs)) in I11. lia.
      - intros q Hq. apply I12. right. exact Hq. }
    destruct HH as [-> HS].
    destruct HI as [I1 I2 I3 I4 I13 I5 I6 I7 I8 I9 I10 I11 I12 I14].
    assert (Hc : (pv_count (v p) + 1 + sends (genuine evs) < 4294967295)%N).
    { specialize (I11 p). unfold sends in *. cbn [plaintexts flat_map app length] in I11. fold (plaintexts (genuine evs)) in I11. lia. }
    assert (Hlt : (pv_count (v p) < 4294967295)%N) by lia.
    assert (HA1 : pv_epoch (v p) = 1%nat -> p = Alice).
    { intros HE. destruct p; [reflexivity|]. rewrite HE in I13. discriminate I13. }
    assert (HNZ : pv_epoch (v p) <> 0%nat) by (rewrite EV; discriminate).
    destruct (send_one E p (v p) (w p) pt HS I1 Hlt (I12 pt (or_introl eq_refl)) HA1 HNZ) as (ct & k & w' & W1 & W2 & W3 & W4 & W5 & _).
    rewrite W1, W2. rewrite <- EV.
    set (v1 := {| pv_epoch := pv_epoch (v p); pv_count := pv_count (v p) + 1; pv_chains := pv_chains (v p) |}) in *.
    apply (IH E). clear IH.
    constructor; auto.
    + rewrite I3. destruct p; reflexivity.
    + destruct p; exact I4.
    + destruct p; exact I13.
    + intros q. destruct (party_cases p q) as [->| ->]; [|rewrite !upd_diff; apply I7]. rewrite !upd_same.
      split; [unfold ConvProofs2.trusting; rewrite W5; exact (proj1 (I7 p))|].
      assert (EV1 : pv_epoch v1 = S z) by exact EV. rewrite EV1. destruct p; exact W4.
    + intros q. destruct (party_cases p q) as [->| ->]; [|rewrite !upd_diff; apply I8]. rewrite !upd_same.
      apply Forall2_app; [apply I8|]. constructor; [exact W3|constructor].
    + intros q e n x. destruct (party_cases p q) as [->| ->]; [|rewrite !upd_diff; apply I9]. rewrite !upd_same. intros HIn'. apply in_app_or in HIn'.
      destruct HIn' as [HIn'|[HIn'|[]]]; [apply I9 in HIn'; exact HIn'|]. injection HIn' as <- <- <-. cbn [v1 pv_epoch]. split; [lia|].
      intros ->. rewrite EV in I13 |- *. destruct z; [discriminate I13|lia].
    + destruct p; exact I10.
    + intros q. destruct (party_cases p q) as [->| ->]; [rewrite upd_same; exact Hc|rewrite upd_diff]. specialize (I11 (other p)). 
      unfold sends in *. cbn [plaintexts flat_map app length] in I11. fold (plaintexts (genuine evs)) in I11. lia.
    + intros q Hq. apply I12. right. exact Hq.
    + destruct p; exact I14.
  - change (genuine (RDeliver p j g :: evs)) with (Deliver p j g :: genuine evs) in *. cbn [rrun cspec].
    assert (HI' := HI). destruct HI' as [I1 I2 I3 I4 I13 I5 I6 I7 I8 I9 I10 I11 I12 I14].
    cbn [delivery_rngs flat_map app map] in I5, I6. fold (delivery_rngs (genuine evs)) in I5, I6.
    pose proof (nth_rel _ _ _ _ _ j (I8 (other p))) as HJ.
    assert (STAY : forall w', only_saved (w p) w' -> ginv2 E v sent (upd_party w p w') opened wire (genuine evs)).
    { intros w' HO. constructor; auto.
      - apply NoDup_remove_1 in I5. exact I5.
      - intros g' Hg'. apply I6. right. exact Hg'.
      - intros q. destruct (party_cases p q) as [->| ->]; [rewrite upd_same; eapply only_saved_party2; [exact HO|apply I7]|rewrite upd_diff; apply I7]. }
    destruct (nth_error (wire (other p)) j) as [k|]; destruct (nth_error (sent (other p)) j) as [[[e n] pt]|]; [|destruct HJ|destruct HJ|].
    2:{ apply (IH E). specialize (STAY (w p) (only_saved_refl _)). destruct STAY as [J1 J2 J3 J4 J13 J5 J6 J7 J8 J9 J10 J11 J12 J14]. constructor; auto. }
    destruct HJ as [HW HIn]. destruct (I9 _ _ _ _ HIn) as [He1 He2].
    assert (HG : exists priv' g1, generate_key_pair C g = (Ok (pair_of C priv'), g1) /\ new_pub C g = Some (x_base C priv')).
    { specialize (I6 g (or_introl eq_refl)). unfold new_pub in *. destruct (generate_key_pair C g) as [[pr| |] g1] eqn:EG; cbn [fst] in *; try congruence.
      destruct (generated C _ _ _ EG) as (k' & ->). eauto. }
    destruct HG as (priv' & g1 & HG & HP).
    assert (HN : NoDup (map (en_pub C) E)).
    { apply NoDup_remove_1 in I5. apply nodup_app_left in I5. apply (NoDup_map_inv Some). rewrite map_map. exact I5. }
    assert (HEL : e = S (pv_epoch (v p)) -> length E = S e /\ pv_epoch (v (other p)) = e).
    { intros HE. rewrite I3. destruct p; cbn [other] in *; lia. }
    assert (HC1 : p = Alice -> pv_epoch (v p) = 1%nat -> cfind e (pv_chains (v p)) = None).
    { intros -> HE. specialize (I10 HE). specialize (He2 eq_refl). destruct (cfind e (pv_chains (v Alice))) as [c|] eqn:EF; [|reflexivity]. exfalso.
      unfold cfind in EF. apply find_some in EF. destruct EF as [EF1 EF2]. apply Nat.eqb_eq in EF2.
      apply (in_map cv_epoch) in EF1. rewrite I10, EF2 in EF1. destruct EF1 as [EF1|[]]. lia. }
    assert (REC : exists o w', receive C (addr (other p)) k g (w p) = (o, w') /\ outcome2 E p (v p) (w p) e n pt priv' o w').
    { destruct (I7 p) as [HT HPR]. destruct (pv_epoch (v p)) as [|z] eqn:EV.
      - destruct p; [destruct HPR|]. destruct HPR as [HB1 HB2]. destruct I2 as (x & X1 & X2).
        cbn [other] in *. assert (e = 1%nat) by lia. rewrite HB1.
        destruct (receive_first2 C L addr priv base signed otk i sid Hi Hsid Him E x (w Bob) k e n pt priv' g g1) as (o & w' & R1 & R2 & _);
          auto; [rewrite I3; lia|]. exists o, w'. split; assumption.
      - assert (HS : session_rel2 E p (v p) (w p)) by (destruct p; exact HPR).
        eapply (receive_session2 C L addr priv base i sid); eauto; rewrite ?EV; auto. intros HE. apply HEL. exact HE. }
    destruct REC as (o & w' & -> & HO). unfold ReopenProofs2.outcome2 in HO. destruct (cdeliver (v p) e n pt) as [x v'] eqn:EC.
    assert (HU : forall q, upd_party v p (v p) q = v q) by (intros [|]; destruct p; reflexivity).
    assert (ERR : forall er, o = Err er -> v' = v p -> only_saved (w p) w' -> ginv2 E (upd_party v p v') sent (upd_party w p w') (opened || opens p o) wire (genuine evs)).
    { intros er -> -> HOS. specialize (STAY _ HOS).
      destruct STAY as [J1 J2 J3 J4 J13 J5 J6 J7 J8 J9 J10 J11 J12 J14].
      replace (opened || opens p (Err er)) with opened by (destruct p; cbn [opens]; rewrite orb_false_r; reflexivity).
      constructor; auto; try (rewrite !HU; assumption); intros; rewrite ?HU; eauto. }
    destruct x as [q| |].
    + destruct HO as (-> & F & F1 & F2 & F3 & F4 & F5). apply Agr_plain. apply (IH (E ++ F)). clear IH.
      assert (HND : NoDup (map (fun x => Some (en_pub C x)) (E ++ F) ++ map (new_pub C) (delivery_rngs (genuine evs)))).
      { destruct F5 as [(-> & _)|(ent & -> & HE & _)].
        - rewrite app_nil_r. apply NoDup_remove_1 in I5. exact I5.
        - rewrite map_app. cbn [map]. rewrite <- app_assoc. cbn [app]. replace (Some (en_pub C ent)) with (new_pub C g); [exact I5|].
          rewrite HP. unfold en_pub. rewrite HE. reflexivity. }
      assert (HNF : NoDup (map (en_pub C) (E ++ F))).
      { apply nodup_app_left in HND. apply (NoDup_map_inv Some). rewrite map_map. exact HND. }
      specialize (F4 HNF).
      assert (HEP : (F = [] /\ pv_epoch v' = pv_epoch (v p)) \/ (length F = 1%nat /\ e = S (pv_epoch (v p)) /\ pv_epoch v' = S e)).
      { destruct F5 as [(-> & Q & _)|(ent & -> & _ & Q & _ & Q2)]; [left; auto|right; auto]. }
      assert (HZ : pv_epoch v' <> 0%nat).
      { destruct (I7 p) as [HT HPR]. destruct HEP as [(-> & Q)|(Q1 & Q2 & Q3)]; [|lia]. rewrite Q. intros HZ. rewrite HZ in HPR. destruct p; [exact HPR|]. destruct HPR as [HPR _].
        destruct F5 as [(_ & _ & _ & Q4)|(ent & D & _)]; [|discriminate]. apply Q4. rewrite HPR. reflexivity. }
      constructor; auto.
      * destruct I2 as (x & X1 & X2). exists x. split; [apply nth_mono; exact X1|exact X2].
      * rewrite app_length, I3. destruct HEP as [(-> & Q)|(Q1 & Q2 & Q3)]; [|destruct (HEL Q2) as [_ HOE]]; destruct p; cbn [upd_party party_eqb other] in *; cbn [length]; lia.
      * destruct HEP as [(-> & Q)|(Q1 & Q2 & Q3)]; [|destruct (HEL Q2) as [_ HOE]]; destruct p; cbn [upd_party party_eqb other] in *; lia.
      * destruct p; cbn [upd_party party_eqb]; [exact I13|]. destruct HEP as [(-> & Q)|(Q1 & Q2 & Q3)]; [rewrite Q; exact I13|]. rewrite Q3, Q2. exact I13.
      * intros g' Hg'. apply I6. right. exact Hg'.
      * intros q'. destruct (party_cases p q') as [->| ->]; [|rewrite !upd_diff; apply party_rel2_mono; apply I7]. rewrite !upd_same.
        destruct (I7 p) as [HT HPR]. split; [unfold ConvProofs2.trusting; rewrite F2; exact HT|].
        destruct p; destruct (pv_epoch v'); try congruence; exact F4.
      * intros q'. apply wires_mono. apply I8.
      * intros q' e' n' pt' HIn'. apply I9 in HIn'. destruct (party_cases p q') as [->| ->]; [|rewrite upd_diff; exact HIn']. rewrite upd_same.
        split; [|apply HIn']. destruct HEP as [(_ & Q)|(Q1 & Q2 & Q3)]; lia.
      * destruct p; cbn [upd_party party_eqb]; [|exact I10]. intros HE. exfalso.
        destruct F5 as [(_ & Q & _ & Q4)|(ent & _ & _ & Q & _ & Q2)]; [|lia]. apply Q4. apply HC1; [reflexivity|lia].
      * intros q'. destruct (party_cases p q') as [->| ->]; [rewrite upd_same|rewrite upd_diff; apply (I11 (other p))].
        specialize (I11 p). change (sends (Deliver p j g :: genuine evs)) with (sends (genuine evs)) in I11.
        destruct F5 as [(_ & _ & Q & _)|(ent & _ & _ & _ & Q & _)]; lia.
      * destruct p; cbn [upd_party party_eqb opens]; [rewrite orb_false_r; exact I14|]. rewrite orb_true_r. destruct (pv_epoch v'); [congruence|reflexivity].
    + destruct HO as (Hv & [(q & ->)|((er & HE) & HO)]); [apply Agr_surprise; discriminate|]. specialize (ERR er HE Hv HO). rewrite HE in ERR |- *. apply Agr_refused. apply (IH E). exact ERR.
    + destruct HO as (Hv & [(q & ->)|((er & HE) & HO)]); [apply Agr_surprise; discriminate|]. specialize (ERR er HE Hv HO). rewrite HE in ERR |- *. apply Agr_forgotten. apply (IH E). exact ERR.
  - change (genuine (RInject p k g :: evs)) with (genuine evs) in *. cbn [rrun]. destruct (receive C (addr (other p)) k g (w p)) as [o w'] eqn:ER.
    destruct o as [x|er|]; [apply Agr_intruder; discriminate| |apply Agr_intruder; discriminate].
    apply Agr_injected. apply (IH E). apply receive_err in ER. destruct HI as [I1 I2 I3 I4 I13 I5 I6 I7 I8 I9 I10 I11 I12 I14]. constructor; auto.
    intros q. destruct (party_cases p q) as [->| ->]; [rewrite upd_same; eapply only_saved_party2; [exact ER|apply I7]|rewrite upd_diff; apply I7].
Qed.

(** * The start *)

Lemma start_inv2 : forall wa wb b k1 k2 g g1 g2 wa1 g' evs,
  w_self wa = {| ip_pub := idk Alice; ip_priv := priv Alice |} -> (w_reg wa < 2 ^ 32)%N ->
  (forall r, w_sessions wa (addr Bob) = Some r -> stored C u32_msg r) ->
  bob_ready2 wb -> trusting Bob wb ->
  b_prekey_id b = Some (ou_some i) -> b_prekey b = Some (x_base C otk) -> b_signed_id b = sid -> b_signed b = Some (x_base C signed) ->
  b_identity b = idk Bob -> base = x_base C k1 ->
  generate_key_pair C g = (Ok (pair_of C k1), g1) -> generate_key_pair C g1 = (Ok (pair_of C k2), g2) ->
  w_process_bundle C (addr Bob) b g wa = (Ok tt, wa1, g') ->
  NoDup (Some (x_base C signed) :: Some (x_base C k2) :: map (new_pub C) (delivery_rngs evs)) ->
  (forall g, In g (delivery_rngs evs) -> new_pub C g <> None) ->
  (sends evs < 4294967295)%N -> (forall pt, In pt (plaintexts evs) -> (N.of_nat (length pt) + 200 < 9223372036854775808)%N) ->
  (exists E, ginv2 E start_view (fun _ => []) (both wa1 wb) false (fun _ => []) evs) /\
  (exists r, w_sessions wa1 (addr Bob) = Some r /\ r_prev r = firstn 40 (old_states wa (addr Bob))).
Proof.
  intros wa wb b k1 k2 g g1 g2 wa1 g' evs A1 A2 A3 B1 B2 D1 D2 D3 D4 D5 HB HG1 HG2 HP HN HR HS HZ.
  destruct (x3dh_agree C L (priv Alice) k1 (priv Bob) signed (Some otk)) as (dk & X1 & X2 & _ & _ & X5).
  cbn [option_map] in X1, X2. rewrite <- HB in X2.
  destruct (create_chain_agree C L (sk_root dk) k2 signed) as (sk & Y1 & _ & _ & _ & Y5).
  set (r := v_load (view_of wa (addr Bob))).
  assert (HSt : stored C u32_msg r /\ (if r_fresh r then [] else states r) = old_states wa (addr Bob)).
  { unfold r, view_of, old_states. cbn [v_load]. destruct (w_sessions wa (addr Bob)) as [r0|]; [split; [apply A3; reflexivity|reflexivity]|]. split; [constructor|reflexivity]. }
  destruct HSt as (HSt & HOld). destruct (prep_stored C L r HSt) as (PC & PR & PF). rewrite HOld in PF.
  unfold w_process_bundle in HP. destruct (process_bundle C (view_of wa (addr Bob)) b g) as [[[o1 r1] es1] g3] eqn:EPB.
  destruct (process_bundle_cases C _ _ _ _ _ _ _ EPB) as [(HF & -> & _)|(sgn & ob & rt & derived & sending & g4 & P1 & P2 & P3 & P4 & P5 & P6 & P7 & P8 & P9 & P10)].
  { exfalso. cbn [commit seal] in HP. injection HP as -> _ _. exact (HF tt eq_refl). }
  rewrite D4 in P2. injection P2 as <-. rewrite HG1 in P4. injection P4 as <- <-. rewrite HG2 in P5. injection P5 as <- <-.
  cbn [v_identity view_of] in P6. rewrite A1, D2, D5 in P6. unfold ConvProofs2.idk in X1, P6. rewrite X1 in P6. injection P6 as <-.
  rewrite Y1 in P7. injection P7 as <-. fold r in P9. rewrite PC in P9.
  set (s := init_send (view_of wa (addr Bob)) b (x_base C signed) (pair_of C k1) (pair_of C k2) dk sk new_state) in *.
  set (x0 := {| en_priv := signed; en_root := sk_root dk; en_ck := sk_chain dk |}).
  set (x1 := {| en_priv := k2; en_root := sk_root sk; en_ck := sk_chain sk |}).
  assert (HSt1 : state_rel C [x0; x1] (idk Alice) (idk (other Alice)) (start_view Alice) s).
  { unfold state_rel, s, init_send. cbn [v_identity view_of]. rewrite A1, D5. split; [reflexivity|]. split; [reflexivity|]. split; [reflexivity|]. split; [reflexivity|]. split; [reflexivity|]. split.
    - exists x1. repeat split; reflexivity.
    - split; [|split; [repeat constructor; intros []|cbn; lia]]. cbn. constructor; [|constructor]. exists x0. cbn.
      repeat split; auto; try constructor; try lia; try (intros n []). }
  assert (HBase : s_base s = Some base) by (unfold s, init_send; cbn; rewrite HB; reflexivity).
  assert (HIn : initialised s) by (eapply state_rel_initialised; [exact HSt1|exact HBase]).
  assert (HPer : persist r1 = Ok (unfresh r1)).
  { rewrite P9. apply persist_ok; [exact HIn|]. cbn [r_prev set_cur]. eapply Forall_impl; [|exact PR]. exact ready_initialised. }
  destruct (commit_bundle (addr Bob) r1 (unfresh r1) (idk Bob) wa HPer) as (w' & W1 & W2 & W3).
  rewrite P10, D5, W1, P8 in HP. cbn [seal] in HP. assert (w' = wa1) by congruence. subst w'. clear HP W1.
  assert (HSt2 : stored C u32_msg (unfresh r1)).
  { eapply Stored_write; [exact HSt|eapply Op_process_bundle; exact EPB| |exact HPer]. rewrite P10. left. reflexivity. }
  split; [|exists (unfresh r1); split; [exact W2|rewrite P9; exact PF]].
  exists [x0; x1]. constructor.
  - split.
    + intros k a c Ha Hc. destruct k as [|[|k]]; cbn in Ha, Hc; try discriminate; try (destruct k; discriminate).
      injection Ha as <-. injection Hc as <-.
      change (create_chain C (sk_root dk) (x_base C signed) (pair_of C k2) = Ok {| sk_root := sk_root sk; sk_chain := sk_chain sk |}).
      rewrite Y1. destruct sk; reflexivity.
    + intros a [<-|[<-|[]]]; cbn; assumption.
  - exists x0. split; [reflexivity|]. split; [reflexivity|]. cbn [x0 en_root en_ck]. destruct dk; exact X2.
  - reflexivity.
  - left. reflexivity.
  - reflexivity.
  - exact HN.
  - exact HR.
  - intros [|].
    + split; [discriminate|]. cbn [start_view pv_epoch both]. exists (unfresh r1). split; [exact W2|]. split; [reflexivity|]. split; [exact HSt2|].
      cbn [r_cur unfresh]. rewrite P9. cbn [r_cur set_cur]. split; [exact HSt1|]. split; [exact HBase|].
      split; [unfold s, init_send; cbn; rewrite D1, D3, HB; reflexivity|]. intros _. exact A2.
    + split; [exact B2|]. split; [reflexivity|exact B1].
  - constructor.
  - intros p e n pt [].
  - reflexivity.
  - intros p. destruct p; cbn [start_view pv_count]; lia.
  - exact HZ.
  - reflexivity.
Qed.
End Reopen3.
