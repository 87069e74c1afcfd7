(** ReopenProofs2.v: the two parties with their old sessions (C62). *)
From Verif Require Import Base Labels Crypto Bytehelper Ecc Cbc Wire Itoa Keys X3dh Messages SessionState SessionRecord
  SessionBuilder SessionCipher Address World WireProofs CodecProofs CodecProofs2 CryptoProofs SessionProofs SerialProofs SessionSpec
  HistoryProofs InvariantProofs OpsProofs OpsProofs3 GroupSpec MiscProofs GroupProofs ConvSpec ConvProofs ConvProofs2 ConvProofs3 ReopenSpec ReopenProofs.
From Coq Require Import Lia ZifyBool ZifyN ZifyNat.

Section Reopen2.
Context (C : crypto) (L : crypto_laws C).
Context (addr : party -> address) (priv : party -> arr32) (base signed otk : arr32) (i sid : N).
Context (Hi : (i < 2 ^ 32)%N) (Hsid : (sid < 2 ^ 32)%N) (Him : i <> medium_max).
Notation idk := (idk C priv).
Notation wire_rel := (wire_rel C priv base i sid).
Notation trusting := (trusting C addr priv).
Notation pending_at := (pending_at base i sid).
Notation epoch0 := (epoch0 C priv base signed otk).

Definition session_rel2 (E : list entry) (p : party) (v : pview) (w : world) : Prop :=
  exists r, w_sessions w (addr (other p)) = Some r /\ r_fresh r = false /\ stored C u32_msg r /\
    state_rel C E (idk p) (idk (other p)) v (r_cur r) /\ s_base (r_cur r) = Some base /\
    s_pending (r_cur r) = pending_at p (pv_epoch v) /\ (p = Alice -> (s_local_reg (r_cur r) < 2 ^ 32)%N).

Lemma session_states : forall E p v w r, stored C u32_msg r -> r_fresh r = false -> w_sessions w (addr (other p)) = Some r -> 
  state_rel C E (idk p) (idk (other p)) v (r_cur r) -> Forall ready (states r).
Proof.
  intros E p v w r HS HF _ _. destruct (stored_ready C L r HS) as [->|[_ H]]; [discriminate HF|exact H].
Qed.

Definition outcome2 (E : list entry) (p : party) (v : pview) (w : world) (e : nat) (n : N) (pt : bytes) (priv' : arr32) (o : res bytes) (w' : world) : Prop :=
  match cdeliver v e n pt with
  | (Plain q, v') => o = Ok q /\ exists F, ladder C (E ++ F) /\ w_policy w' = w_policy w /\ w_self w' = w_self w /\
      (NoDup (map (en_pub C) (E ++ F)) -> session_rel2 (E ++ F) p v' w') /\
      ((F = [] /\ pv_epoch v' = pv_epoch v /\ pv_count v' = pv_count v /\ cfind e (pv_chains v) <> None) \/
       (exists ent, F = [ent] /\ en_priv ent = priv' /\ pv_epoch v' = S e /\ pv_count v' = 0%N /\ e = S (pv_epoch v)))
  | (_, v') => v' = v /\ ((exists q, o = Ok q) \/ ((exists er, o = Err er) /\ only_saved w w'))
  end.

Lemma plain_ok : forall (x : bytes * msg_keys), plain (Ok x) = Ok (fst x).
Proof. intros [a b]. reflexivity. Qed.

Lemma receive_session2 : forall E p v w k e n pt priv' g g1, session_rel2 E p v w -> trusting p w -> wire_rel E (other p) k (e, n, pt) -> ladder C E ->
  NoDup (map (en_pub C) E) -> (e = S (pv_epoch v) -> length E = S e) -> generate_key_pair C g = (Ok (pair_of C priv'), g1) ->
  (p = Alice -> pv_epoch v = 1%nat -> cfind e (pv_chains v) = None) ->
  exists o w', receive C (addr (other p)) k g w = (o, w') /\ outcome2 E p v w e n pt priv' o w'.
Proof.
  intros E p v w k e n pt priv' g g1 (r & S1 & SF & SS & S2 & S3 & S4 & S5) HT HW HL HN HE HG H1.
  assert (HRd := session_states E p v w r SS SF S1 S2).
  destruct HW as (m & HM & HK).
  assert (Hoo : other (other p) = p) by (destruct p; reflexivity). rewrite Hoo in HM.
  assert (HWf := message_rel_wellformed C _ _ _ _ _ _ _ HM).
  destruct (dws_deliver C L E (idk p) (idk (other p)) v (r_cur r) m e n pt priv' g g1 S2 HM HL HN HE HG) as (o & s' & g' & D1 & D2).
  pose proof (dwr_any C L r m g o s' g' HRd HWf D1) as DR.
  assert (HV : v_load (view_of w (addr (other p))) = r) by (unfold view_of; rewrite S1; reflexivity).
  assert (HVC : v_contains (view_of w (addr (other p))) = true) by (unfold view_of; rewrite S1; reflexivity).
  assert (HRs' : forall x, o = Ok x -> Forall ready (states (set_cur s' r))).
  { intros x ->. inversion HRd as [|? ? RC RP]; subst. constructor; [|exact RP]. eapply (dws_ready C L); [apply HWf|exact RC|exact D1]. }
  assert (CORE : forall ow w0, 
     (forall x, o = Ok x -> ow = Ok (fst x) /\ w_sessions w0 (addr (other p)) = Some (unfresh (set_cur s' r)) /\ stored C u32_msg (unfresh (set_cur s' r)) /\
        w_policy w0 = w_policy w /\ w_self w0 = w_self w) ->
     (forall er, o = Err er -> ow <> Panic) -> receive C (addr (other p)) k g w = (ow, w0) ->
     outcome2 E p v w e n pt priv' ow w0).
  { intros ow w0 HO HErr HRec. unfold outcome2. destruct (cdeliver v e n pt) as [x v'] eqn:EC. destruct x as [q| |].
    - destruct D2 as (-> & mk & F & -> & P1 & P2 & P3 & P4 & P5). specialize (HO _ eq_refl). destruct HO as (O1 & O2 & OS & O3 & O4). cbn [fst] in O1.
      split; [exact O1|]. exists F. split; [exact P3|]. split; [exact O3|]. split; [exact O4|]. split; [|exact P5].
      intros HND. exists (unfresh (set_cur s' r)). split; [exact O2|]. split; [reflexivity|]. split; [exact OS|].
      cbn [r_cur unfresh set_cur]. split; [apply P4; exact HND|]. destruct P2 as (K1 & K2 & K3). split; [congruence|]. split.
      + rewrite P1. destruct P5 as [(-> & Q1 & Q2 & Q3)|(ent & _ & _ & Q1 & _ & Q2)]; rewrite Q1.
        * unfold ConvProofs2.pending_at. destruct p; [|reflexivity]. destruct (pv_epoch v) as [|[|z]] eqn:EV; try reflexivity. exfalso. apply Q3. apply H1; reflexivity.
        * unfold ConvProofs2.pending_at. destruct p; [|reflexivity]. rewrite Q2. reflexivity.
      + intros HA. rewrite K2. apply S5. exact HA.
    - destruct D2 as (-> & er & ->). split; [reflexivity|]. specialize (HErr er eq_refl). destruct ow as [q|e'|]; [left; eauto| |exfalso; apply HErr; reflexivity].
      right. split; [eauto|]. eapply receive_err; exact HRec.
    - destruct D2 as (-> & HNP). split; [reflexivity|]. destruct o as [x|er|]; [left; destruct (HO _ eq_refl) as (-> & _); eauto| |exfalso; apply HNP; reflexivity].
      specialize (HErr er eq_refl). destruct ow as [q|e'|]; [left; eauto| |exfalso; apply HErr; reflexivity].
      right. split; [eauto|]. eapply receive_err; exact HRec. }
  destruct k as [b|b].
  - destruct HK as [HK _]. destruct (receive C (addr (other p)) (PSignal b) g w) as [ow w0] eqn:HREC. exists ow, w0. split; [reflexivity|].
    apply CORE; [| |first [reflexivity|exact HREC]]; unfold receive in HREC; rewrite HK in HREC; unfold w_decrypt in HREC.
    + intros x ->. pose proof (HRs' x eq_refl) as HRs. 
      destruct (decrypt_and_get_key C (view_of w (addr (other p))) m g) as [[[o1 r1] es1] g3] eqn:EDK.
      assert (EDK' := EDK). unfold decrypt_and_get_key in EDK'. rewrite HVC, HV in EDK'. cbn [negb] in EDK'. rewrite DR in EDK'.
      pose proof (Forall_inv HRs) as HRc. destruct (ready_remote _ HRc) as (rid & HRid). rewrite HRid in EDK'. injection EDK' as <- <- <- <-.
      cbn [commit apply_effect] in HREC. rewrite (ready_persist _ HRs) in HREC. cbn [commit seal] in HREC. injection HREC as <- <-.
      split; [destruct x; reflexivity|]. cbn [w_sessions w_policy w_self]. rewrite upd_addr_here. split; [reflexivity|]. split; [|split; reflexivity].
      eapply Stored_write; [|eapply Op_decrypt; [|exact EDK]| |apply ready_persist; exact HRs]; [cbn [v_load]; rewrite ?HV; exact SS|apply HWf|right; left; reflexivity].
    + intros er ->. destruct DR as (o2 & r2 & g2 & DR & NP & RR). unfold decrypt_and_get_key in HREC. rewrite HVC, HV in HREC. cbn [negb] in HREC. rewrite DR in HREC.
      destruct o2 as [x|e'|]; [|cbn in HREC; injection HREC as <- _; discriminate|exfalso; apply NP; reflexivity].
      pose proof (Forall_inv RR) as RRc. destruct (ready_remote _ RRc) as (rid & HRid). rewrite HRid in HREC.
      cbn [commit apply_effect] in HREC. rewrite (ready_persist _ RR) in HREC. cbn [commit seal] in HREC. injection HREC as <- _. destruct x. discriminate.
  - destruct HK as (HA & pm & K1 & K2 & K3 & K4 & K5 & K6 & K7). assert (p = Bob) by (destruct p; [discriminate HA|reflexivity]). subst p.
    assert (HH : has_session_state 3 (ser_pub base) r = true).
    { apply (matches_has _ _ _ (r_cur r)); [left; reflexivity|]. split; [apply S2|exact S3]. }
    assert (HPr : process C (view_of w (addr (other Bob))) r pm = (Ok (Some ou_none), r, [SaveIdentity (idk Alice)])).
    { unfold process. rewrite K4. change (v_trusted (view_of w (addr (other Bob))) (idk (other Bob))) with (w_policy w (w_saved w) (addr (other Bob)) (idk (other Bob))).
      rewrite (HT eq_refl). cbn [negb]. unfold process_v3. rewrite K3, K7, HH. reflexivity. }
    destruct (receive C (addr (other Bob)) (PPreKey b) g w) as [ow w0] eqn:HREC. exists ow, w0. split; [reflexivity|].
    apply CORE; [| |first [reflexivity|exact HREC]]; unfold receive in HREC; rewrite K1 in HREC; unfold w_decrypt_message in HREC.
    + intros x ->. pose proof (HRs' x eq_refl) as HRs.
      destruct (decrypt_message C (view_of w (addr (other Bob))) pm g) as [[[o1 r1] es1] g3] eqn:EDK.
      assert (EDK' := EDK). unfold decrypt_message in EDK'. rewrite HV, HPr, K2, DR in EDK'. cbn [ou_empty ou_none app] in EDK'. injection EDK' as <- <- <- <-.
      cbn [commit apply_effect] in HREC. rewrite (ready_persist _ HRs) in HREC. cbn [commit seal] in HREC. injection HREC as <- <-.
      split; [destruct x; reflexivity|]. cbn [w_sessions w_policy w_self]. rewrite upd_addr_here. split; [reflexivity|]. split; [|split; reflexivity].
      eapply Stored_write; [|eapply Op_decrypt_message; [|exact EDK]| |apply ready_persist; exact HRs]; [rewrite HV; exact SS|rewrite K2; apply HWf|right; left; reflexivity].
    + intros er ->. destruct DR as (o2 & r2 & g2 & DR & NP & RR). unfold decrypt_message in HREC. rewrite HV, HPr, K2, DR in HREC.
      destruct o2 as [x|e'|]; [|cbn in HREC; injection HREC as <- _; discriminate|exfalso; apply NP; reflexivity].
      cbn [ou_empty ou_none app commit apply_effect] in HREC. rewrite (ready_persist _ RR) in HREC. cbn [commit seal] in HREC. injection HREC as <- _. destruct x. discriminate.
Qed.

(** * Bob before the new session *)

Definition bob_ready2 (w : world) : Prop :=
  (forall r, w_sessions w (addr Alice) = Some r -> stored C u32_msg r) /\ unused_base w (addr Alice) base /\
  w_prekeys w i = Some (pair_of C otk) /\ w_signed w sid = Some (pair_of C signed) /\
  w_self w = {| ip_pub := idk Bob; ip_priv := priv Bob |}.

Lemma no_base_no_state : forall r, (forall s, In s (states r) -> s_base s <> Some base) -> has_session_state 3 (ser_pub base) r = false.
Proof.
  intros r H. destruct (has_session_state 3 (ser_pub base) r) eqn:EH; [|reflexivity]. exfalso. unfold has_session_state in EH.
  assert (K : exists s, In s (states r) /\ state_matches 3 (ser_pub base) s = true).
  { apply orb_true_iff in EH. destruct EH as [EH|EH]; [exists (r_cur r); split; [left; reflexivity|exact EH]|].
    apply existsb_exists in EH. destruct EH as (s & H1 & H2). exists s. split; [right; exact H1|exact H2]. }
  destruct K as (s & HI & HM). unfold state_matches in HM. apply andb_true_iff in HM. destruct HM as [_ HM]. apply bytes_eqb_eq in HM.
  unfold base_bytes in HM. destruct (s_base s) as [k|] eqn:EB; [|discriminate HM]. apply (H s HI). rewrite EB. f_equal.
  apply ser_pub_inj. symmetry. exact HM.
Qed.

Lemma receive_first2 : forall E x w k e n pt priv' g g1, bob_ready2 w -> trusting Bob w -> wire_rel E Alice k (e, n, pt) -> e = 1%nat ->
  ladder C E -> NoDup (map (en_pub C) E) -> length E = 2%nat -> nth_error E 0 = Some x -> epoch0 x ->
  generate_key_pair C g = (Ok (pair_of C priv'), g1) ->
  exists o w', receive C (addr Alice) k g w = (o, w') /\ outcome2 E Bob no_view w e n pt priv' o w' /\
    (forall q, o = Ok q -> cdeliver no_view e n pt <> (Refused, no_view) -> exists r, w_sessions w' (addr Alice) = Some r /\ r_prev r = firstn 40 (old_states w (addr Alice))).
Proof.
  intros E x w k e n pt priv' g g1 (B0 & B1 & B2 & B3 & B4) HT HW He HL HN HLen Hx (X1 & X2) HG.
  destruct HW as (m & HM & HK). destruct k as [b|b]; [exfalso; apply HK; auto|].
  destruct HK as (_ & pm & K1 & K2 & K3 & K4 & K5 & K6 & K7).
  assert (HWf := message_rel_wellformed C _ _ _ _ _ _ _ HM).
  set (r := v_load (view_of w (addr Alice))).
  assert (HSt : stored C u32_msg r /\ (forall s, In s (states r) -> s_base s <> Some base) /\ (if r_fresh r then [] else states r) = old_states w (addr Alice)).
  { unfold r, view_of, unused_base, old_states in *. cbn [v_load]. destruct (w_sessions w (addr Alice)) as [r0|]; [split; [apply B0; reflexivity|split; [intros s; apply (B1 r0 s eq_refl)|reflexivity]]|].
    split; [constructor|]. split; [|reflexivity]. intros s [<-|[]]. discriminate. }
  destruct HSt as (HSt & HNB & HOld). destruct (prep_stored C L r HSt) as (PC & PR & PF). rewrite HOld in PF.
  assert (HH := no_base_no_state r HNB).
  set (s0 := init_recv (view_of w (addr Alice)) pm (pair_of C signed) {| sk_root := en_root x; sk_chain := en_ck x |} (r_cur (prep_record r))).
  set (r0 := set_cur s0 (prep_record r)).
  assert (HPr : process C (view_of w (addr Alice)) r pm = (Ok (Some (ou_some i)), r0, [SaveIdentity (idk Alice)])).
  { unfold process. rewrite K4. change (v_trusted (view_of w (addr Alice)) (idk Alice)) with (w_policy w (w_saved w) (addr (other Bob)) (idk (other Bob))).
    rewrite (HT eq_refl). cbn [negb]. unfold process_v3. rewrite K3, K7, HH, K6, K5. cbn [v_signed v_prekey view_of]. rewrite B3. cbn [ou_value ou_some]. rewrite B2.
    cbn [v_identity view_of]. rewrite B4, K4, X2. assert (HM1 : (i =? medium_max)%N = false) by (apply N.eqb_neq; exact Him). rewrite HM1. 
    unfold r0, s0, init_recv. rewrite K3, K4. cbn [v_identity v_reg view_of]. rewrite B4. reflexivity. }
  assert (HS0 : state_rel C E (idk Bob) (idk (other Bob)) no_view s0 /\ s_base s0 = Some base /\ s_pending s0 = None).
  { unfold s0, init_recv. rewrite PC, K3, K4. cbn [v_identity view_of]. rewrite B4. split; [|split; reflexivity]. unfold state_rel. split; [reflexivity|]. split; [reflexivity|]. split; [reflexivity|]. split; [reflexivity|].
    split; [reflexivity|]. split.
    - exists x. split; [exact Hx|]. split; [reflexivity|]. cbn. rewrite X1. reflexivity.
    - split; [constructor|]. split; [constructor|]. cbn. lia. }
  destruct HS0 as (S2 & S3 & S4).
  assert (HRd : Forall ready (states r0)).
  { constructor; [|exact PR]. unfold r0. cbn [r_cur set_cur]. 
    assert (HNR : new_or_ready s0).
    { unfold s0. eapply (proj1 (ready_init C L (r_cur (prep_record r)) (or_introl PC))). cbn [v_identity view_of]. rewrite B4, K3, K4. exact X2. }
    destruct HNR as [HNR|HNR]; [|exact HNR]. exfalso. rewrite HNR in S3. discriminate S3. }
  assert (HE : e = S (pv_epoch no_view) -> length E = S e) by (intros _; rewrite He; exact HLen).
  destruct (dws_deliver C L E (idk Bob) (idk (other Bob)) no_view s0 m e n pt priv' g g1 S2 HM HL HN HE HG) as (o & s' & g' & D1 & D2).
  pose proof (dwr_any C L r0 m g o s' g' HRd HWf D1) as DR.
  destruct (receive C (addr Alice) (PPreKey b) g w) as [ow w0] eqn:HREC. exists ow, w0. split; [reflexivity|].
  assert (HREC' := HREC). unfold receive in HREC. rewrite K1 in HREC. unfold w_decrypt_message in HREC.
  unfold outcome2. destruct (cdeliver no_view e n pt) as [z v'] eqn:EC. destruct z as [q| |].
  - destruct D2 as (-> & mk & F & -> & P1 & P2 & P3 & P4 & P5).
    assert (HRs : Forall ready (states (set_cur s' r0))).
    { inversion HRd as [|? ? RC RP]; subst. constructor; [|exact RP]. eapply (dws_ready C L); [apply HWf|exact RC|exact D1]. }
    destruct (decrypt_message C (view_of w (addr Alice)) pm g) as [[[o1 r1] es1] g3] eqn:EDK.
    assert (EDK' := EDK). unfold decrypt_message in EDK'. fold r in EDK'. rewrite HPr, K2, DR in EDK'. cbn [ou_empty ou_some ou_value app] in EDK'. injection EDK' as <- <- <- <-.
    cbn [commit apply_effect] in HREC. rewrite (ready_persist _ HRs) in HREC. cbn [commit apply_effect seal plain] in HREC. injection HREC as <- <-.
    split; [split; [reflexivity|]|].
    + exists F. split; [exact P3|]. split; [reflexivity|]. split; [reflexivity|]. split; [|exact P5].
      intros HND. exists (unfresh (set_cur s' r0)). split; [cbn [w_sessions]; apply upd_addr_here|]. split; [reflexivity|]. split.
      { eapply Stored_write; [|eapply Op_decrypt_message; [|exact EDK]| |apply ready_persist; exact HRs]; [exact HSt|rewrite K2; apply HWf|right; left; reflexivity]. }
      cbn [r_cur unfresh set_cur]. split; [apply P4; exact HND|]. destruct P2 as (Q1 & _).
      split; [congruence|]. split; [rewrite P1; reflexivity|discriminate].
    + intros _ _ _. eexists. split; [cbn [w_sessions]; apply upd_addr_here|]. exact PF.
  - destruct D2 as (-> & er & ->). split; [|intros q _ HD; exfalso; apply HD; reflexivity]. split; [reflexivity|].
    destruct DR as (o2 & r2 & g2 & DR & NP & RR). unfold decrypt_message in HREC. fold r in HREC. rewrite HPr, K2, DR in HREC.
    destruct o2 as [y|e'|]; [|cbn in HREC; injection HREC as <- <-; right; split; [eauto|]; eapply receive_err; exact HREC'|exfalso; apply NP; reflexivity].
    left. cbn [ou_empty ou_some ou_value app commit apply_effect] in HREC. rewrite (ready_persist _ RR) in HREC. cbn [commit apply_effect seal] in HREC. injection HREC as <- _. destruct y. eexists. reflexivity.
  - exfalso. unfold cdeliver in EC. rewrite He in EC. cbn [cfind find pv_chains no_view pv_epoch Nat.eqb] in EC. destruct (caccept _ n); discriminate.
Qed.
End Reopen2.
