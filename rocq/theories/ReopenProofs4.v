(** ReopenProofs4.v: the end results on re-established sessions (C62) and crossed first messages (C63). *)
From Verif Require Import Base Labels Crypto Bytehelper Ecc Cbc Wire Itoa Keys X3dh Messages SessionState SessionRecord
  SessionBuilder SessionCipher Address World WireProofs CodecProofs CodecProofs2 CryptoProofs SessionProofs SerialProofs SessionSpec
  HistoryProofs InvariantProofs OpsProofs OpsProofs3 GroupSpec MiscProofs GroupProofs ConvSpec ConvProofs ConvProofs2 ConvProofs3 ReopenSpec
  ReopenProofs ReopenProofs2 ReopenProofs3.
From Coq Require Import Lia ZifyBool ZifyN ZifyNat.

Section Reopen4.
Context (C : crypto) (L : crypto_laws C).

Lemma start_of_acquainted : forall addr wa wb b i sid signed otk g g1 g2 eph ratchet wa1 g' evs,
  acquainted C addr wa wb b i sid signed otk -> generate_key_pair C g = (Ok eph, g1) -> generate_key_pair C g1 = (Ok ratchet, g2) ->
  w_process_bundle C (addr Bob) b g wa = (Ok tt, wa1, g') -> unused_base wb (addr Alice) (kp_pub eph) -> fair C signed ratchet evs ->
  (exists E, ginv2 C addr (privs wa wb) (kp_pub eph) signed otk i sid E start_view (fun _ => []) (both wa1 wb) false (fun _ => []) evs) /\
  (exists r, w_sessions wa1 (addr Bob) = Some r /\ r_prev r = firstn 40 (old_states wa (addr Bob))).
Proof.
  intros addr wa wb b i sid signed otk g g1 g2 eph ratchet wa1 g' evs H HG1 HG2 HP HU (F1 & F2 & F3 & F4). destruct H.
  destruct (generated C _ _ _ HG1) as (k1 & ->). destruct (generated C _ _ _ HG2) as (k2 & ->).
  cbn [kp_pub pair_of] in *.
  eapply (start_inv2 C L addr (privs wa wb) (x_base C k1) signed otk i sid aq_i aq_sid aq_i_max wa wb b k1 k2 g g1 g2 wa1 g' evs); eauto.
  - unfold idk, privs, both. rewrite <- aq_alice. destruct (w_self wa); reflexivity.
  - split; [exact aq_old_bob|]. split; [exact HU|]. split; [exact aq_prekey|]. split; [exact aq_signed|]. unfold idk, privs, both. rewrite <- aq_bob. destruct (w_self wb); reflexivity.
  - intros _ saved. unfold idk, privs, both, other. rewrite <- aq_alice. apply aq_trust.
  - unfold idk, privs, both. rewrite <- aq_bob. exact aq_b_identity.
Qed.

Lemma any_schedule2 : forall addr wa wb b i sid signed otk g g1 g2 eph ratchet wa1 g' evs,
  acquainted C addr wa wb b i sid signed otk -> generate_key_pair C g = (Ok eph, g1) -> generate_key_pair C g1 = (Ok ratchet, g2) ->
  w_process_bundle C (addr Bob) b g wa = (Ok tt, wa1, g') -> unused_base wb (addr Alice) (kp_pub eph) -> fair C signed ratchet (genuine evs) ->
  agrees (rrun C addr (both wa1 wb) false (fun _ => []) evs) (cspec start_view (fun _ => []) (genuine evs)).
Proof.
  intros addr wa wb b i sid signed otk g g1 g2 eph ratchet wa1 g' evs H HG1 HG2 HP HU HF.
  destruct (start_of_acquainted _ _ _ _ _ _ _ _ _ _ _ _ _ _ _ _ H HG1 HG2 HP HU HF) as ((E & HI) & _). destruct H.
  eapply (simulation2 C L); [exact aq_i|exact aq_sid|exact aq_i_max|exact HI].
Qed.

Lemma agrees_plain : forall o x, agrees o x -> injections_refused o -> Forall (fun y => exists pt, snd y = Plain pt) x ->
  results o = map (fun y => match y with (p, i, Plain pt) => (p, i, Ok pt) | (p, i, _) => (p, i, Panic) end) x.
Proof.
  intros o x H. induction H; intros HJ HF.
  - reflexivity.
  - inversion HF as [|? ? [q Hq] HF']; subst. cbn [results flat_map app map]. f_equal. apply IHagrees; [|exact HF'].
    intros q' r Hr. apply (HJ q' r). right. exact Hr.
  - inversion HF as [|? ? [q Hq] HF']; subst; discriminate.
  - inversion HF as [|? ? [q Hq] HF']; subst; discriminate.
  - cbn [results flat_map app]. apply IHagrees; [|exact HF]. intros q' r Hr. apply (HJ q' r). right. exact Hr.
  - inversion HF as [|? ? [q Hq] HF']; subst. cbn [snd] in Hq. exfalso. exact (H _ Hq).
  - exfalso. destruct (HJ p r (or_introl eq_refl)) as (e & He). exact (H e He).
Qed.

(** The first message of the new session, and what both stores hold then. *)
Lemma first_contact2 : forall addr wa wb b i sid signed otk g g1 g2 eph ratchet wa1 g' pt g3,
  acquainted C addr wa wb b i sid signed otk -> generate_key_pair C g = (Ok eph, g1) -> generate_key_pair C g1 = (Ok ratchet, g2) ->
  w_process_bundle C (addr Bob) b g wa = (Ok tt, wa1, g') -> unused_base wb (addr Alice) (kp_pub eph) ->
  fair C signed ratchet [Send Alice pt; Deliver Bob 0 g3] ->
  exists ct wa2 k wb2 ra rb, w_encrypt C (addr Bob) pt wa1 = (Ok ct, wa2) /\ pack ct = Ok k /\ receive C (addr Alice) k g3 wb = (Ok pt, wb2) /\
    w_sessions wa2 (addr Bob) = Some ra /\ w_sessions wb2 (addr Alice) = Some rb /\ matching C (r_cur ra) (r_cur rb) /\
    r_prev ra = firstn 40 (old_states wa (addr Bob)) /\ r_prev rb = firstn 40 (old_states wb (addr Alice)) /\
    stored C u32_msg ra /\ s_base (r_cur ra) = Some (kp_pub eph).
Proof.
  intros addr wa wb b i sid signed otk g g1 g2 eph ratchet wa1 g' pt g3 H HG1 HG2 HP HU HF.
  destruct (start_of_acquainted _ _ _ _ _ _ _ _ _ _ _ _ _ _ _ _ H HG1 HG2 HP HU HF) as ((E & HI) & (r1 & R1a & R1b)). destruct H.
  destruct HI as [I1 I2 I3 I4 I13 I5 I6 I7 I8 I9 I10 I11 I12 I14].
  destruct (I7 Alice) as [_ HSA]. cbn [both start_view pv_epoch] in HSA. destruct (I7 Bob) as [HT (_ & HB)]. cbn [both] in *.
  set (pv := privs wa wb) in *. set (bs := kp_pub eph) in *.
  destruct (send_one C L addr pv bs i sid aq_i aq_sid E Alice (start_view Alice) wa1 pt HSA I1)
    as (ct & k & wa2 & E1 & E2 & HW & HS2 & _ & _ & _ & _ & _ & HPrev);
    [cbn; lia|apply I12; left; reflexivity|reflexivity|discriminate|]. cbn [other] in *.
  destruct HS2 as (ra & A1 & A2 & A3 & A4 & A5 & A6 & A7). cbn [other] in *.
  destruct I2 as (x & X1 & X2).
  assert (HG : exists priv' g4, generate_key_pair C g3 = (Ok (pair_of C priv'), g4) /\ new_pub C g3 = Some (x_base C priv')).
  { specialize (I6 g3 (or_introl eq_refl)). unfold new_pub in *. destruct (generate_key_pair C g3) as [[pr| |] g4] eqn:EG; cbn [fst] in *; try congruence.
    destruct (generated C _ _ _ EG) as (k' & ->). eauto. }
  destruct HG as (priv' & g4 & HG & HNP). cbn [delivery_rngs flat_map app map] in I5.
  assert (HN : NoDup (map (en_pub C) E)) by (apply nodup_app_left in I5; apply (NoDup_map_inv Some); rewrite map_map; exact I5).
  destruct (receive_first2 C L addr pv bs signed otk i sid aq_i aq_sid aq_i_max E x wb k 1%nat 0%N pt priv' g3 g4 HB HT HW eq_refl I1 HN I3 X1 X2 HG)
    as (o & w' & R1 & R2 & R3).
  unfold outcome2 in R2. change (cdeliver no_view 1 0 pt) with
    (Plain pt, {| pv_epoch := 2; pv_count := 0; pv_chains := [{| cv_epoch := 1; cv_next := 1; cv_kept := [] |}] |}) in R2, R3.
  destruct R2 as (-> & F & F1 & F2 & F3 & F4 & F5). destruct F5 as [(_ & D & _)|(ent & -> & Q1 & _)]; [discriminate|].
  assert (HNF : NoDup (map (en_pub C) (E ++ [ent]))).
  { apply (NoDup_map_inv Some). rewrite map_map, map_app. cbn [map]. replace (Some (en_pub C ent)) with (new_pub C g3); [exact I5|]. rewrite HNP. unfold en_pub. rewrite Q1. reflexivity. }
  destruct (F4 HNF) as (rb & B1 & B1f & B1s & B2 & B3 & B4 & B5). cbn [other] in *.
  destruct (R3 pt eq_refl) as (rb' & B6 & B7); [discriminate|]. rewrite B1 in B6. injection B6 as <-.
  exists ct, wa2, k, w', ra, rb. split; [exact E1|]. split; [exact E2|]. split; [exact R1|]. split; [exact A1|]. split; [exact B1|].
  split; [|split; [rewrite (HPrev r1 ra R1a A1); exact R1b|split; [exact B7|split; [exact A3|exact A5]]]].
  destruct A4 as (_ & T1 & T2 & _ & _ & (y & Hy & T3 & T4) & _). destruct B2 as (_ & U1 & U2 & _ & _ & (z & Hz & U3 & U4) & U5 & _).
  split; [rewrite T1, U2; reflexivity|]. split; [rewrite T2, U1; reflexivity|]. split; [rewrite B3; exact A5|].
  cbn [pv_epoch pv_count pv_chains start_view] in *.
  inversion U5 as [|rc cv l l' HRC HNil EQ1 EQ2]; subst cv l'. inversion HNil; subst l.
  destruct HRC as (y' & Hy' & HC1 & HC2 & _). cbn [cv_epoch cv_next] in *.
  assert (Hyy : nth_error (E ++ [ent]) 1 = Some y) by (apply nth_mono; exact Hy). rewrite Hyy in Hy'. injection Hy' as <-.
  eexists. eexists. exists (en_root y), (en_root z), rc. split; [exact T4|]. split; [exact T3|]. split; [exact U4|]. split; [exact U3|].
  cbn [ch_pair kp_pub pair_of ch_key]. split.
  - unfold receiver_chain. rewrite <- EQ1. cbn [find]. assert (EC : chain_is (x_base C (en_priv y)) rc = true) by (apply chain_is_eq; rewrite HC1; reflexivity).
    rewrite EC. reflexivity.
  - split; [rewrite HC2; reflexivity|]. destruct (create_chain_agree C L (en_root y) (en_priv y) (en_priv z)) as (kk & K1 & K2 & _).
    rewrite K1, <- K2. exact (proj1 F1 _ _ _ Hyy Hz).
Qed.

(** * Crossed first messages *)

Lemma bundle_frame : forall a b g w w1 g', w_process_bundle C a b g w = (Ok tt, w1, g') ->
  w_self w1 = w_self w /\ w_prekeys w1 = w_prekeys w /\ w_signed w1 = w_signed w /\ w_policy w1 = w_policy w /\ w_reg w1 = w_reg w.
Proof.
  intros a b g w w1 g' H. unfold w_process_bundle in H. destruct (process_bundle C (view_of w a) b g) as [[[o r1] es] g3] eqn:E.
  destruct (process_bundle_cases C _ _ _ _ _ _ _ E) as [(HF & -> & _)|(sgn & ob & rt & derived & sending & g4 & _ & _ & _ & _ & _ & _ & _ & P8 & P9 & P10)].
  { cbn [commit seal] in H. injection H as -> _ _. exfalso. exact (HF tt eq_refl). }
  rewrite P10 in H. cbn [commit apply_effect] in H. destruct (persist r1) as [r2| |]; cbn [commit apply_effect seal] in H; [|discriminate|discriminate].
  injection H as _ <- _. repeat split.
Qed.

Lemma encrypt_frame : forall a pt w ct w1, w_encrypt C a pt w = (Ok ct, w1) ->
  w_self w1 = w_self w /\ w_prekeys w1 = w_prekeys w /\ w_signed w1 = w_signed w /\ w_policy w1 = w_policy w /\ w_reg w1 = w_reg w.
Proof.
  intros a pt w ct w1 H. unfold w_encrypt in H. destruct (encrypt C (view_of w a) pt) as [[o r1] es] eqn:E.
  destruct (commit a es w) as [w2 ok] eqn:EC. destruct ok; cbn [seal] in H; [|discriminate]. injection H as -> <-.
  unfold encrypt in E. destruct (s_sender (r_cur (v_load (view_of w a)))) as [sc|]; [|discriminate].
  destruct (encrypt_cbc C _ _ pt) as [body| |]; try discriminate.
  destruct (s_local_id _) as [lid|]; [|discriminate]. destruct (s_remote_id _) as [rid|]; [|discriminate].
  destruct (new_signal_message C _ _ _ _ _ _ _ _) as [sm| |]; try discriminate.
  match type of E with match ?x with _ => _ end = _ => destruct x as [ct'| |]; try discriminate end.
  injection E as _ _ <-. cbn [commit apply_effect] in EC.
  match type of EC with context [persist ?r] => destruct (persist r) as [r2| |]; cbn [commit apply_effect] in EC end; [|discriminate|discriminate].
  injection EC as <-. repeat split.
Qed.

Lemma in_old_states : forall w a n s, In s (firstn n (old_states w a)) -> exists r, w_sessions w a = Some r /\ In s (states r).
Proof.
  intros w a n s H. assert (HI : In s (old_states w a)) by (rewrite <- (firstn_skipn n (old_states w a)); apply in_or_app; left; exact H).
  unfold old_states in HI. destruct (w_sessions w a) as [r|]; [|destruct HI]. exists r. split; [reflexivity|]. destruct (r_fresh r); [destruct HI|exact HI].
Qed.

Definition swap {A} (f : party -> A) (p : party) : A := f (other p).

(** Starting a session and sending in it keeps a party a good peer for a session started by the other one. *)
Lemma still_acquainted : forall addr wa wb b i sid signed otk ba i' sid' signed' otk' g g1 g2 eph ratchet wa1 g' pt ct wa2 other_eph,
  acquainted C addr wa wb b i sid signed otk -> acquainted C (swap addr) wb wa ba i' sid' signed' otk' ->
  generate_key_pair C g = (Ok eph, g1) -> generate_key_pair C g1 = (Ok ratchet, g2) ->
  w_process_bundle C (addr Bob) b g wa = (Ok tt, wa1, g') -> unused_base wb (addr Alice) (kp_pub eph) ->
  fair C signed ratchet [Send Alice pt] -> w_encrypt C (addr Bob) pt wa1 = (Ok ct, wa2) ->
  unused_base wa (addr Bob) other_eph -> kp_pub eph <> other_eph ->
  acquainted C (swap addr) wb wa2 ba i' sid' signed' otk' /\ unused_base wa2 (addr Bob) other_eph.
Proof.
  intros addr wa wb b i sid signed otk ba i' sid' signed' otk' g g1 g2 eph ratchet wa1 g' pt ct wa2 oe H H' HG1 HG2 HP HU HF HEn HUO HNE.
  destruct (start_of_acquainted _ _ _ _ _ _ _ _ _ _ _ _ _ _ _ _ H HG1 HG2 HP HU HF) as ((E & HI) & (r1 & R1a & R1b)).
  destruct HI as [I1 I2 I3 I4 I13 I5 I6 I7 I8 I9 I10 I11 I12 I14].
  destruct (I7 Alice) as [_ HSA]. cbn [both start_view pv_epoch] in HSA.
  destruct (send_one C L addr _ _ i sid (aq_i _ _ _ _ _ _ _ _ _ H) (aq_sid _ _ _ _ _ _ _ _ _ H) E Alice (start_view Alice) wa1 pt HSA I1)
    as (ct2 & k & wa3 & E1 & _ & _ & HS2 & _ & _ & _ & _ & _ & HPrev);
    [cbn; lia|apply I12; left; reflexivity|reflexivity|discriminate|]. cbn [other] in *.
  rewrite HEn in E1. injection E1 as <- <-. destruct HS2 as (ra & A1 & A2 & A3 & A4 & A5 & A6 & A7). cbn [other] in *.
  destruct (bundle_frame _ _ _ _ _ _ HP) as (B1 & B2 & B3 & B4 & B5). destruct (encrypt_frame _ _ _ _ _ HEn) as (D1 & D2 & D3 & D4 & D5).
  split.
  - destruct H'. constructor; auto; rewrite ?D1, ?D2, ?D3, ?D4, ?B1, ?B2, ?B3, ?B4; auto.
    intros r Hr. change (swap addr Alice) with (addr Bob) in Hr. rewrite A1 in Hr. injection Hr as <-. exact A3.
  - intros r s Hr Hs. rewrite A1 in Hr. injection Hr as <-. destruct Hs as [<-|Hs]; [rewrite A5; congruence|].
    rewrite (HPrev r1 ra R1a A1), R1b in Hs. destruct (in_old_states _ _ _ _ Hs) as (r0 & K1 & K2). exact (HUO r0 s K1 K2).
Qed.

Lemma crossed_initiations : forall addr wa wb bb i sid signed otk ba i' sid' signed' otk' g g1 g2 eph ratchet wa1 gx h h1 h2 eph' ratchet' wb1 hx pt pt' g3 h3,
  acquainted C addr wa wb bb i sid signed otk -> acquainted C (swap addr) wb wa ba i' sid' signed' otk' ->
  generate_key_pair C g = (Ok eph, g1) -> generate_key_pair C g1 = (Ok ratchet, g2) ->
  generate_key_pair C h = (Ok eph', h1) -> generate_key_pair C h1 = (Ok ratchet', h2) ->
  w_process_bundle C (addr Bob) bb g wa = (Ok tt, wa1, gx) -> w_process_bundle C (addr Alice) ba h wb = (Ok tt, wb1, hx) ->
  unused_base wa (addr Bob) (kp_pub eph) -> unused_base wb (addr Alice) (kp_pub eph) ->
  unused_base wa (addr Bob) (kp_pub eph') -> unused_base wb (addr Alice) (kp_pub eph') -> kp_pub eph <> kp_pub eph' ->
  fair C signed ratchet [Send Alice pt; Deliver Bob 0 g3] -> fair C signed' ratchet' [Send Alice pt'; Deliver Bob 0 h3] ->
  exists ct k wa2 ct' k' wb2 wa3 wb3,
    w_encrypt C (addr Bob) pt wa1 = (Ok ct, wa2) /\ pack ct = Ok k /\
    w_encrypt C (addr Alice) pt' wb1 = (Ok ct', wb2) /\ pack ct' = Ok k' /\
    receive C (addr Alice) k g3 wb2 = (Ok pt, wb3) /\ receive C (addr Bob) k' h3 wa2 = (Ok pt', wa3).
Proof.
  intros addr wa wb bb i sid signed otk ba i' sid' signed' otk' g g1 g2 eph ratchet wa1 gx h h1 h2 eph' ratchet' wb1 hx pt pt' g3 h3
    H H' G1 G2 H1 H2 HPA HPB UA UB UA' UB' HNE HF HF'.
  assert (FS : forall sg rt x g0, fair C sg rt [Send Alice x; Deliver Bob 0 g0] -> fair C sg rt [Send Alice x]).
  { intros sg rt x g0 (K1 & K2 & K3 & K4). split; [|split; [intros q []|split; assumption]]. cbn in K1 |- *. 
    inversion K1 as [|? ? Q1 Q2]; subst. inversion Q2 as [|? ? Q3 Q4]; subst. constructor; [intros [Q|[]]; apply Q1; left; exact Q|]. constructor; [intros []|constructor]. }
  destruct (first_contact2 addr wa wb bb i sid signed otk g g1 g2 eph ratchet wa1 gx pt g3 H G1 G2 HPA UB HF) as (ct & wa2 & k & _ & _ & _ & EA & PA & _).
  destruct (first_contact2 (swap addr) wb wa ba i' sid' signed' otk' h h1 h2 eph' ratchet' wb1 hx pt' h3 H' H1 H2 HPB UA' HF') as (ct' & wb2 & k' & _ & _ & _ & EB & PB & _).
  change (swap addr Bob) with (addr Alice) in EB.
  destruct (still_acquainted addr wa wb bb i sid signed otk ba i' sid' signed' otk' g g1 g2 eph ratchet wa1 gx pt ct wa2 (kp_pub eph')
    H H' G1 G2 HPA UB (FS _ _ _ _ HF) EA UA' HNE) as [QA QU].
  assert (H0 : acquainted C (swap (swap addr)) wa wb bb i sid signed otk) by (destruct H; constructor; assumption).
  destruct (still_acquainted (swap addr) wb wa ba i' sid' signed' otk' bb i sid signed otk h h1 h2 eph' ratchet' wb1 hx pt' ct' wb2 (kp_pub eph)
    H' H0 H1 H2 HPB UA' (FS _ _ _ _ HF') EB UB (fun e => HNE (eq_sym e))) as [QB QV].
  assert (QB' : acquainted C addr wa wb2 bb i sid signed otk) by (destruct QB; constructor; assumption).
  destruct (first_contact2 addr wa wb2 bb i sid signed otk g g1 g2 eph ratchet wa1 gx pt g3 QB' G1 G2 HPA QV HF) as (ct1 & wa2' & k1 & wb3 & _ & _ & EA1 & PA1 & RA1 & _).
  destruct (first_contact2 (swap addr) wb wa2 ba i' sid' signed' otk' h h1 h2 eph' ratchet' wb1 hx pt' h3 QA H1 H2 HPB QU HF') as (ct2 & wb2' & k2 & wa3 & _ & _ & EB1 & PB1 & RB1 & _).
  change (swap addr Bob) with (addr Alice) in EB1, RB1. change (swap addr Alice) with (addr Bob) in RB1.
  rewrite EA in EA1. injection EA1 as <- <-. rewrite PA in PA1. injection PA1 as <-.
  rewrite EB in EB1. injection EB1 as <- <-. rewrite PB in PB1. injection PB1 as <-.
  exists ct, k, wa2, ct', k', wb2, wa3, wb3. repeat (split; [assumption|]). assumption.
Qed.
End Reopen4.
