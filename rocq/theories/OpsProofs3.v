(** OpsProofs3.v: at-most-once acceptance over histories of a record (C07), world-level lemmas (C08, C45, C49). *)
From Verif Require Import Base Labels Crypto Bytehelper Ecc Cbc Keys X3dh Messages SessionState SessionRecord
  SessionBuilder SessionCipher Address World Toy WireProofs CodecProofs CodecProofs2 CryptoProofs SessionProofs SerialProofs SessionSpec
  HistoryProofs InvariantProofs ReplayProofs OpsProofs OpsProofs2.
From Coq Require Import ZifyBool ZifyN ZifyNat.

Section O.
Context (C : crypto).

Lemma stored_facts : forall r, stored C no_wrap r -> Forall wf_state (states r) /\ (length (r_prev r) <= 40)%nat /\ (r_fresh r = true -> r = new_record).
Proof. intros r H. exact (stored_states C no_wrap wf_state (wf_inv C) (wf_init C) r H). Qed.

Lemma process_wf : forall v m op rp ef, stored C no_wrap (v_load v) -> process C v (v_load v) m = (op, rp, ef) -> Forall wf_state (states rp).
Proof.
  intros v m op rp ef HS H. destruct (stored_facts _ HS) as (HW & _ & HN). unfold process in H.
  destruct (negb (v_trusted v (pm_identity m))); [injection H as _ <- _; exact HW|].
  destruct (process_v3 C v (v_load v) m) as [o3 r3] eqn:E3.
  assert (HR3 : Forall wf_state (states r3)).
  { apply process_v3_cases in E3. destruct E3 as [[-> _]|[[_ ->]|(signed & otk & keys & _ & _ & _ & HK & _ & ->)]].
    - exact HW.
    - apply prep_states; [apply (inv_new _ _ _ (wf_inv C))|exact HW].
    - apply set_cur_states; [|apply prep_states; [apply (inv_new _ _ _ (wf_inv C))|exact HW]].
      assert (EN : r_cur (prep_record (v_load v)) = new_state) by
        (unfold prep_record; destruct (r_fresh (v_load v)) eqn:EF; [rewrite (HN eq_refl)|]; reflexivity).
      rewrite EN. eapply (proj1 (wf_init C)). exact HK. }
  destruct o3; injection H as _ <- _; exact HR3.
Qed.

(** The state that accepted is the new current one; what the store then holds. *)
Lemma accepted_now_spec : forall v m r3, stored C no_wrap (v_load v) -> no_wrap m -> accepted_now C v m r3 ->
  stored C no_wrap r3 /\ wf_state (r_cur r3) /\ used (r_cur r3) (sm_ratchet m) (sg_counter (sm_struct m)) /\ r_fresh r3 = false.
Proof.
  intros v m r3 HS Hu (g & x & r' & es & g' & HP & HI & HA).
  assert (HOp : session_op C no_wrap v r' es).
  { destruct HA as [HA|(p & <- & HA)]; [eapply Op_decrypt; eassumption|eapply Op_decrypt_message; eassumption]. }
  assert (HS3 : stored C no_wrap r3) by (eapply Stored_write; eassumption).
  split; [exact HS3|]. destruct (stored_facts _ HS3) as (HW3 & _). inversion HW3 as [|? ? HW4 _]; subst.
  split; [exact HW4|]. apply persist_iff in HP. destruct HP as (_ & _ & ->). split; [|reflexivity]. cbn [unfresh r_cur].
  destruct HA as [HA|(p & <- & HA)].
  - unfold decrypt_and_get_key in HA. destruct (negb (v_contains v)); [discriminate|].
    destruct (decrypt_with_record C (v_load v) m g) as [[[y|e|] r1] g1] eqn:ED; try discriminate.
    destruct (s_remote_id (r_cur r1)); [|discriminate]. injection HA as <- <- _ _.
    destruct (dwr_ok_some_state _ _ _ _ _ _ _ ED) as (s & h1 & h2 & Hin & HD). destruct y as [pt mk].
    destruct (stored_facts _ HS) as (HW & _). rewrite Forall_forall in HW.
    eapply accept_uses; [exact Hu|apply HW; exact Hin|exact HD].
  - unfold decrypt_message in HA. destruct (process C v (v_load v) p) as [[[id|e|] rp] ef] eqn:EP; [|discriminate|discriminate].
    destruct (decrypt_with_record C rp (pm_message p) g) as [[[y|e|] r1] g1] eqn:ED; [|discriminate|discriminate].
    destruct id; [|discriminate]. injection HA as <- <- _ _.
    destruct (dwr_ok_some_state _ _ _ _ _ _ _ ED) as (s & h1 & h2 & Hin & HD). destruct y as [pt mk].
    assert (HW := process_wf _ _ _ _ _ HS EP). rewrite Forall_forall in HW.
    eapply accept_uses; [exact Hu|apply HW; exact Hin|exact HD].
Qed.

Lemma dwr_no_archive : forall r m g x r' g', decrypt_with_record C r m g = (Ok x, r', g') -> r_prev r' = [] ->
  r_prev r = [] /\ exists g1, decrypt_with_state C (r_cur r) m g = (Ok x, r_cur r', g1).
Proof.
  intros r m g x r' g' H HE. unfold decrypt_with_record in H.
  destruct (decrypt_with_state C (r_cur r) m g) as [[[y|e|] s'] g1] eqn:E.
  - injection H as <- <- <-. split; [exact HE|]. exists g1. reflexivity.
  - destruct (try_prev C (r_prev r) m g1) as [[[[i y]|e'|] l] g2] eqn:E2; [|discriminate|discriminate].
    destruct (nth_error l i) as [st|]; [|discriminate]. injection H as <- <- <-. exfalso.
    unfold promote_state in HE. cbn [r_prev r_cur set_prev set_cur r_fresh] in HE.
    destruct (archived_max <? _)%nat eqn:EA; [|discriminate].
    destruct (go_delete_shared i l) as [|t l']; [cbn in EA; discriminate|discriminate].
  - discriminate.
Qed.

Lemma prep_nonempty : forall r, r_fresh r = false -> r_prev (prep_record r) <> [].
Proof.
  intros r H. unfold prep_record. rewrite H. unfold archive_current, promote_state. cbn [r_prev].
  destruct (archived_max <? _)%nat eqn:EA; [|discriminate]. destruct (r_prev r); [cbn in EA; discriminate|discriminate].
Qed.

(** The two ways of accepting, when nothing gets archived: the current state accepts. *)
Lemma accept_current : forall v m g x r' es g', r_fresh (v_load v) = false -> r_prev r' = [] ->
  (decrypt_and_get_key C v m g = (Ok x, r', es, g') \/ exists p, pm_message p = m /\ decrypt_message C v p g = (Ok x, r', es, g')) ->
  exists g1, decrypt_with_state C (r_cur (v_load v)) m g = (Ok x, r_cur r', g1).
Proof.
  intros v m g x r' es g' HFr HE [HA|(p & <- & HA)].
  - unfold decrypt_and_get_key in HA. destruct (negb (v_contains v)); [discriminate|].
    destruct (decrypt_with_record C (v_load v) m g) as [[[y|e|] r1] g1] eqn:ED; try discriminate.
    destruct (s_remote_id (r_cur r1)); [|discriminate]. injection HA as <- <- _ _.
    exact (proj2 (dwr_no_archive _ _ _ _ _ _ ED HE)).
  - unfold decrypt_message in HA. destruct (process C v (v_load v) p) as [[[id|e|] rp] ef] eqn:EP; [|discriminate|discriminate].
    destruct (decrypt_with_record C rp (pm_message p) g) as [[[y|e|] r1] g1] eqn:ED; [|discriminate|discriminate].
    destruct id; [|discriminate]. injection HA as <- <- _ _.
    destruct (dwr_no_archive _ _ _ _ _ _ ED HE) as (HE2 & HX).
    unfold process in EP. destruct (negb (v_trusted v (pm_identity p))); [discriminate|].
    destruct (process_v3 C v (v_load v) p) as [o3 r3] eqn:E3.
    assert (rp = r3) by (destruct o3; injection EP as _ <- _; reflexivity). subst rp.
    apply process_v3_cases in E3. destruct E3 as [[-> _]|[[_ ->]|(signed & otk & keys & _ & _ & _ & HK & _ & ->)]].
    + exact HX.
    + exfalso. exact (prep_nonempty _ HFr HE2).
    + exfalso. exact (prep_nonempty _ HFr HE2).
Qed.

(** Every stored change during which nothing gets archived is one step of the current state. *)
Lemma single_is_step : forall v r' es r'' r3, session_op C no_wrap v r' es -> In (StoreSession r'') es -> persist r'' = Ok r3 ->
  r_fresh (v_load v) = false -> r_prev r3 = [] -> state_step C (r_cur (v_load v)) (r_cur r3) /\ r_fresh r3 = false.
Proof.
  intros v r' es r'' r3 H HI HP HFr HE. apply persist_iff in HP. destruct HP as (_ & _ & ->). cbn [unfresh r_cur r_prev] in *.
  split; [|reflexivity].
  inversion H as [pt o r1 es1 E|m g o r1 es1 g' Hu E|p g o r1 es1 g' Hu E|b g o r1 es1 g' E]; subst.
  - assert (EO := E). apply encrypt_cases in E. destruct E as [(_ & -> & ->)|(sc & body & lid & rid & sm & ct & E)]; [destruct HI|].
    cbv zeta in E. destruct E as (E1 & _ & _ & _ & _ & _ & -> & _ & ->).
    destruct HI as [HI|[HI|[]]]; [discriminate|]. injection HI as <-. eapply Step_encrypt. exact EO.
  - destruct o as [x|e|].
    + destruct (decrypt_success_writes _ _ _ _ _ _ _ _ E) as (rid & _ & ->).
      destruct HI as [HI|[HI|[]]]; [discriminate|]. injection HI as <-.
      destruct (accept_current v m g x r' _ g' HFr HE (or_introl E)) as (g1 & HD). eapply Step_decrypt; [exact Hu|exact HD].
    + rewrite (decrypt_failure_writes_nothing _ _ _ _ _ _ _ _ E) in HI; [destruct HI|intros x; discriminate].
    + rewrite (decrypt_failure_writes_nothing _ _ _ _ _ _ _ _ E) in HI; [destruct HI|intros x; discriminate].
  - unfold decrypt_message in E. destruct (process C v (v_load v) p) as [[op rp] ef] eqn:EP.
    pose proof (process_effects _ _ _ _ _ _ _ EP) as HEf.
    assert (HNo : forall r, ~ In (StoreSession r) ef).
    { intros r X. destruct HEf as [[-> _]|(_ & -> & _)]; [destruct X|]. destruct X as [X|[]]; discriminate. }
    destruct op as [id|e|]; [|injection E as _ _ <- _; destruct (HNo _ HI)|injection E as _ _ <- _; destruct (HNo _ HI)].
    destruct (decrypt_with_record C rp (pm_message p) g) as [[[y|e|] r1] g1] eqn:ED;
      [|injection E as _ _ <- _; destruct (HNo _ HI)|injection E as _ _ <- _; destruct (HNo _ HI)].
    assert (HR1 : r'' = r1).
    { destruct id as [oo|]; injection E as _ _ <- _; apply in_app_iff in HI; (destruct HI as [HI|HI]; [destruct (HNo _ HI)|]);
        (destruct HI as [HI|HI]; [congruence|]); [destruct (ou_empty oo); [destruct HI|destruct HI as [HI|[]]; discriminate]|destruct HI]. }
    subst r1. destruct (dwr_no_archive _ _ _ _ _ _ ED HE) as (HE2 & g2 & HX).
    unfold process in EP. destruct (negb (v_trusted v (pm_identity p))); [discriminate|].
    destruct (process_v3 C v (v_load v) p) as [o3 r3] eqn:E3.
    assert (rp = r3) by (destruct o3; injection EP as _ <- _; reflexivity). subst rp.
    apply process_v3_cases in E3. destruct E3 as [[-> _]|[[_ ->]|(signed & otk & keys & _ & _ & _ & HK & _ & ->)]].
    + eapply Step_decrypt; [exact Hu|exact HX].
    + exfalso. exact (prep_nonempty _ HFr HE2).
    + exfalso. exact (prep_nonempty _ HFr HE2).
  - exfalso. apply process_bundle_cases in E.
    destruct E as [(_ & -> & _)|(signed & ob & ra & de & se & g1 & _ & _ & _ & HG1 & HG2 & HD & HS & _ & Er & ->)]; [destruct HI|].
    destruct HI as [HI|[HI|[]]]; [|discriminate]. injection HI as <-. rewrite Er in HE. exact (prep_nonempty _ HFr HE).
Qed.

Lemma single_keeps : forall k n r r4, single_history C k r r4 -> r_fresh r = false -> wf_state (r_cur r) -> used (r_cur r) k n ->
  r_fresh r4 = false /\ wf_state (r_cur r4) /\ used (r_cur r4) k n.
Proof.
  intros k n r r4 H. induction H as [r|v r' es r'' r3 r4 Ho Hi Hp HE HK HR IH]; intros HF HW HU; [auto|].
  destruct (single_is_step _ _ _ _ _ Ho Hi Hp HF HE) as (HSt & HF3).
  apply IH; [exact HF3|eapply wf_step; eassumption|]. eapply used_step; eassumption.
Qed.

Theorem record_at_most_once : forall v1 m1 r3 v2 m2 r5,
  stored C no_wrap (v_load v1) -> no_wrap m1 -> accepted_now C v1 m1 r3 ->
  single_history C (sm_ratchet m1) r3 (v_load v2) ->
  sm_ratchet m2 = sm_ratchet m1 -> sg_counter (sm_struct m2) = sg_counter (sm_struct m1) ->
  accepted_now C v2 m2 r5 -> r_prev r5 <> [].
Proof.
  intros v1 m1 r3 v2 m2 r5 HS Hu HA HH Ek En HA2 HE.
  destruct (accepted_now_spec _ _ _ HS Hu HA) as (_ & HW & HU & HF).
  destruct (single_keeps _ _ _ _ HH HF HW HU) as (HF2 & HW2 & HU2).
  destruct HA2 as (g & x & r' & es & g' & HP & _ & HA2). apply persist_iff in HP. destruct HP as (_ & _ & ->). cbn [unfresh r_prev] in HE.
  destruct (accept_current _ _ _ _ _ _ _ HF2 HE HA2) as (g1 & HD).
  assert (Hu2 : no_wrap m2) by (unfold no_wrap in *; rewrite En; exact Hu). rewrite <- Ek, <- En in HU2.
  destruct (used_rejected _ _ _ _ _ _ _ Hu2 HU2 HD) as [X _]. exact (X _ eq_refl).
Qed.

(** * World level *)

Lemma commit_sessions : forall a es w w' ok, commit a es w = (w', ok) ->
  (forall b, b <> a -> w_sessions w' b = w_sessions w b /\ w_saved w' b = w_saved w b) /\
  w_signed w' = w_signed w /\ w_self w' = w_self w /\ w_reg w' = w_reg w /\ w_policy w' = w_policy w.
Proof.
  intros a es. induction es as [|e es IH]; intros w w' ok H; cbn [commit] in H.
  - injection H as <- _. repeat split; auto.
  - destruct (apply_effect a e w) as [w1|] eqn:E; [|injection H as <- _; repeat split; auto].
    destruct (IH _ _ _ H) as (A & B & D & F & G).
    assert (HX : (forall b, b <> a -> w_sessions w1 b = w_sessions w b /\ w_saved w1 b = w_saved w b) /\
      w_signed w1 = w_signed w /\ w_self w1 = w_self w /\ w_reg w1 = w_reg w /\ w_policy w1 = w_policy w).
    { destruct e as [r|k|i]; cbn [apply_effect] in E.
      - destruct (persist r) as [r1| |]; try discriminate. injection E as <-. cbn. repeat split; auto.
        unfold upd_addr. destruct (address_eqb a b) eqn:EE; [|reflexivity]. apply address_eqb_eq in EE. congruence.
      - injection E as <-. cbn. repeat split; auto.
        unfold upd_addr. destruct (address_eqb a b) eqn:EE; [|reflexivity]. apply address_eqb_eq in EE. congruence.
      - injection E as <-. cbn. repeat split; auto. }
    destruct HX as (A1 & B1 & D1 & F1 & G1). repeat split; try congruence.
    + rewrite (proj1 (A _ H0)). apply A1. exact H0.
    + rewrite (proj2 (A _ H0)). apply A1. exact H0.
Qed.

Lemma w_decrypt_err : forall a m g w e w' g', w_decrypt C a m g w = (Err e, w', g') -> w' = w.
Proof.
  intros a m g w e w' g' H. unfold w_decrypt in H.
  destruct (decrypt_and_get_key C (view_of w a) m g) as [[[o r'] es] g1] eqn:E.
  destruct (commit a es w) as [w1 ok] eqn:EC. injection H as HO <- _. unfold seal in HO. destruct ok; [|discriminate]. subst o.
  rewrite (decrypt_failure_writes_nothing _ _ _ _ _ _ _ _ E) in EC; [|intros x; discriminate]. cbn in EC. congruence.
Qed.

Lemma w_decrypt_message_err : forall a m g w e w' g', w_decrypt_message C a m g w = (Err e, w', g') ->
  w' = w \/ (w_policy w (w_saved w) a (pm_identity m) = true /\
    w' = {| w_sessions := w_sessions w; w_saved := upd_addr (w_saved w) a (Some (pm_identity m));
            w_prekeys := w_prekeys w; w_signed := w_signed w; w_self := w_self w; w_reg := w_reg w; w_policy := w_policy w |}).
Proof.
  intros a m g w e w' g' H. unfold w_decrypt_message in H.
  destruct (decrypt_message C (view_of w a) m g) as [[[o r'] es] g1] eqn:E.
  destruct (commit a es w) as [w1 ok] eqn:EC. injection H as HO <- _. unfold seal in HO. destruct ok; [|discriminate]. subst o.
  destruct (decrypt_message_error_writes _ _ _ _ _ _ _ _ E) as [->|[HT ->]]; cbn in EC; [left; congruence|right].
  split; [exact HT|congruence].
Qed.

(** * Crash points *)

Lemma commit_app : forall a es1 es2 w, commit a (es1 ++ es2) w =
  match commit a es1 w with (w1, true) => commit a es2 w1 | (w1, false) => (w1, false) end.
Proof.
  intros a es1. induction es1 as [|e es1 IH]; intros es2 w; cbn [commit app]; [reflexivity|].
  destruct (apply_effect a e w); [apply IH|reflexivity].
Qed.

(** Every effect list of an operation: writes of one record, prekey removal only after it. *)
Definition ordered (r' : record) (es : list effect) : Prop :=
  (forall r'', In (StoreSession r'') es -> r'' = r') /\
  (forall pre i post, es = pre ++ RemovePreKey i :: post -> In (StoreSession r') pre).

Lemma op_ordered : forall Q v r' es, session_op C Q v r' es -> ordered r' es.
Proof.
  intros Q v r' es H. inversion H as [pt o r1 es1 E|m g o r1 es1 g' Hu E|p g o r1 es1 g' Hu E|b g o r1 es1 g' E]; subst.
  - apply encrypt_cases in E. destruct E as [(_ & -> & ->)|(sc & body & lid & rid & sm & ct & E)].
    + split; [intros r'' []|intros [|? ?] i post X; discriminate].
    + cbv zeta in E. destruct E as (E1 & _ & _ & _ & _ & _ & _ & _ & ->). split.
      * intros r'' [X|[X|[]]]; congruence.
      * intros [|? [|? [|? ?]]] i post X; discriminate.
  - destruct o as [x|e|].
    + destruct (decrypt_success_writes _ _ _ _ _ _ _ _ E) as (rid & _ & ->). split.
      * intros r'' [X|[X|[]]]; congruence.
      * intros [|? [|? [|? ?]]] i post X; discriminate.
    + rewrite (decrypt_failure_writes_nothing _ _ _ _ _ _ _ _ E) by (intros x; discriminate).
      split; [intros r'' []|intros [|? ?] i post X; discriminate].
    + rewrite (decrypt_failure_writes_nothing _ _ _ _ _ _ _ _ E) by (intros x; discriminate).
      split; [intros r'' []|intros [|? ?] i post X; discriminate].
  - unfold decrypt_message in E. destruct (process C v (v_load v) p) as [[op rp] ef] eqn:EP.
    pose proof (process_effects _ _ _ _ _ _ _ EP) as HEf.
    assert (HB : ordered r' ef).
    { destruct HEf as [[-> _]|(_ & -> & _)]; split; try (intros r'' X; cbn in X; intuition discriminate);
        [intros [|? ?] i post X; discriminate|intros [|? [|? ?]] i post X; discriminate]. }
    destruct op as [id|e|]; [|injection E as _ <- <- _; exact HB|injection E as _ <- <- _; exact HB].
    destruct (decrypt_with_record C rp (pm_message p) g) as [[[y|e|] r1] g1] eqn:ED;
      [|injection E as _ <- <- _; exact HB|injection E as _ <- <- _; exact HB].
    destruct HEf as [[_ HF]|(_ & -> & _)]; [exfalso; exact (HF _ eq_refl)|].
    destruct id as [oo|]; injection E as _ <- <- _; cbn [app]; split.
    + intros r'' [X|[X|X]]; try congruence. destruct (ou_empty oo); [destruct X|destruct X as [X|[]]; discriminate].
    + intros [|e0 [|e1 pre]] i post X; try discriminate. injection X as <- <- _. right. left. reflexivity.
    + intros r'' [X|[X|[]]]; congruence.
    + intros [|e0 [|e1 pre]] i post X; try discriminate. injection X as <- <- _. right. left. reflexivity.
  - apply process_bundle_cases in E.
    destruct E as [(_ & -> & _)|(signed & ob & ra & de & se & g1 & _ & _ & _ & HG1 & HG2 & HD & HS & _ & Er & ->)].
    + split; [intros r'' []|intros [|? ?] i post X; discriminate].
    + split; [intros r'' [X|[X|[]]]; congruence|intros [|? [|? [|? ?]]] i post X; discriminate].
Qed.

Lemma commit_crash : forall a r3 es w w1 ok, (forall r'', In (StoreSession r'') es -> exists r2, persist r'' = Ok r2 -> r2 = r3) ->
  commit a es w = (w1, ok) -> (forall r'' r2, In (StoreSession r'') es -> persist r'' = Ok r2 -> r2 = r3) ->
  w_sessions w1 a = w_sessions w a \/ w_sessions w1 a = Some r3.
Proof.
  intros a r3 es. induction es as [|e es IH]; intros w w1 ok _ H HR; cbn [commit] in H.
  - injection H as <- _. auto.
  - destruct (apply_effect a e w) as [w2|] eqn:E; [|injection H as <- _; auto].
    assert (HI : w_sessions w1 a = w_sessions w2 a \/ w_sessions w1 a = Some r3).
    { eapply IH; [|exact H|]; [intros r'' X; exists r3; reflexivity|]. intros r'' r2 X. apply HR. right. exact X. }
    destruct e as [r|k|i]; cbn [apply_effect] in E.
    + destruct (persist r) as [r2| |] eqn:EP; try discriminate. injection E as <-. cbn in HI. unfold upd_addr in HI.
      replace (address_eqb a a) with true in HI by (symmetry; apply address_eqb_eq; reflexivity).
      assert (r2 = r3) by (eapply HR; [left; reflexivity|exact EP]). subst. destruct HI as [->| ->]; auto.
    + injection E as <-. exact HI.
    + injection E as <-. exact HI.
Qed.

Lemma commit_prekeys : forall a r' r3 es w w1 ok, persist r' = Ok r3 -> (forall r'', In (StoreSession r'') es -> r'' = r') ->
  (forall pre i post, es = pre ++ RemovePreKey i :: post -> In (StoreSession r') pre \/ w_sessions w a = Some r3) ->
  commit a es w = (w1, ok) ->
  (forall i, w_prekeys w1 i = w_prekeys w i) \/ w_sessions w1 a = Some r3.
Proof.
  intros a r' r3 es. induction es as [|e es IH]; intros w w1 ok HP H1 H2 H; cbn [commit] in H.
  - injection H as <- _. auto.
  - destruct (apply_effect a e w) as [w2|] eqn:E; [|injection H as <- _; auto].
    assert (HI : w_sessions w2 a = Some r3 -> w_sessions w1 a = Some r3).
    { intros X. destruct (commit_crash a r3 es w2 w1 ok) as [Y|Y]; try assumption.
      - intros r'' Z. exists r3. reflexivity.
      - intros r'' r2 Z Z2. rewrite (H1 r'') in Z2 by (right; exact Z). congruence.
      - congruence. }
    destruct e as [r|k|i]; cbn [apply_effect] in E.
    + assert (r = r') by (apply H1; left; reflexivity). subst r. rewrite HP in E. injection E as <-. right. apply HI.
      cbn. unfold upd_addr. replace (address_eqb a a) with true by (symmetry; apply address_eqb_eq; reflexivity). reflexivity.
    + injection E as <-. apply IH in H; [destruct H as [X|X]; auto|exact HP|intros r'' X; apply H1; right; exact X|].
      intros pre i post X. destruct (H2 (SaveIdentity k :: pre) i post) as [[Y|Y]|Y];
          [rewrite X; reflexivity|discriminate|left; exact Y|right; exact Y].
    + injection E as <-. destruct (H2 [] i es eq_refl) as [[]|X]. right. apply HI. exact X.
Qed.

Lemma firstn_split : forall A n (l : list A), exists t, l = firstn n l ++ t.
Proof. intros A n l. exists (skipn n l). symmetry. apply firstn_skipn. Qed.

(** After a crash between any two writes of an operation. *)
Lemma crash_points : forall Q w a r' es r3 n w1 ok, session_op C Q (view_of w a) r' es -> persist r' = Ok r3 ->
  commit a (firstn n es) w = (w1, ok) ->
  (w_sessions w1 a = w_sessions w a \/ w_sessions w1 a = Some r3) /\
  ((forall i, w_prekeys w1 i = w_prekeys w i) \/ w_sessions w1 a = Some r3).
Proof.
  intros Q w a r' es r3 n w1 ok HO HP H. destruct (op_ordered _ _ _ _ HO) as [O1 O2].
  destruct (firstn_split _ n es) as [t Ht].
  assert (O1' : forall r'', In (StoreSession r'') (firstn n es) -> r'' = r').
  { intros r'' X. apply O1. rewrite Ht. apply in_app_iff. left. exact X. }
  split.
  - eapply commit_crash; [|exact H|].
    + intros r'' X. exists r3. reflexivity.
    + intros r'' r2 X Y. rewrite (O1' _ X) in Y. congruence.
  - eapply commit_prekeys; [exact HP|exact O1'| |exact H]. intros pre i post X. left.
    apply (O2 pre i (post ++ t)). rewrite Ht, X, <- app_assoc. reflexivity.
Qed.

(** * A set-up session is recognised again *)

Definition matches (v : Z) (base : arr32) (s : state) : Prop := s_version s = v /\ s_base s = Some base.

Lemma dws_matches : forall v base s m g o s' g', u32_msg m -> matches v base s -> decrypt_with_state C s m g = (o, s', g') -> matches v base s'.
Proof.
  intros v base s m g o s' g' Hu [H1 H2] H. apply dws_cases in H; [|exact Hu].
  destruct H as [(_ & ->)|(s1 & c & HP & _ & _ & HC)]; [split; assumption|].
  destruct (prepared_ids _ _ _ _ _ _ _ HP) as (_ & _ & I1 & I2 & _).
  destruct HC as [(_ & -> & _)|(mk & c' & HR & [(_ & ->)|(pt & rid & lid & _ & -> & _)])]; split; cbn; congruence.
Qed.

Lemma matches_has : forall v base r s, In s (states r) -> matches v base s -> has_session_state v (ser_pub base) r = true.
Proof.
  intros v base r s HI [H1 H2]. assert (HM : state_matches v (ser_pub base) s = true).
  { unfold state_matches, base_bytes. rewrite H1, H2, Z.eqb_refl, bytes_eqb_refl. reflexivity. }
  unfold has_session_state. destruct HI as [->|HI]; [rewrite HM; reflexivity|].
  apply orb_true_iff. right. apply existsb_exists. exists s. auto.
Qed.

Lemma dwr_matches : forall v base r m g x r' g', u32_msg m -> matches v base (r_cur r) ->
  decrypt_with_record C r m g = (Ok x, r', g') -> has_session_state v (ser_pub base) r' = true.
Proof.
  intros v base r m g x r' g' Hu HM H. assert (H0 := H). unfold decrypt_with_record in H.
  destruct (decrypt_with_state C (r_cur r) m g) as [[[y|e|] s'] g1] eqn:E.
  - injection H as <- <- <-. eapply matches_has; [left; reflexivity|]. cbn [r_cur set_cur]. eapply dws_matches; eassumption.
  - destruct (try_prev C (r_prev r) m g1) as [[[[i y]|e'|] l] g2] eqn:E2; [|discriminate|discriminate].
    destruct (nth_error l i) as [st|]; [|discriminate]. injection H as <- <- <-.
    apply (matches_has _ _ _ s'); [|eapply dws_matches; eassumption]. right.
    unfold promote_state. cbn [r_prev r_cur set_prev set_cur r_fresh].
    destruct (archived_max <? _)%nat eqn:EA; [|left; reflexivity].
    destruct (go_delete_shared i l) as [|t l']; [cbn in EA; discriminate|left; reflexivity].
  - discriminate.
Qed.

Lemma setup_recognised : forall v m g x r' es g' r3, u32_msg (pm_message m) -> pk_version (pm_struct m) = 3%Z ->
  decrypt_message C v m g = (Ok x, r', es, g') ->
  has_session_state 3 (ser_pub (pm_base m)) (v_load v) = false ->
  persist r' = Ok r3 -> has_session_state 3 (ser_pub (pm_base m)) r3 = true.
Proof.
  intros v m g x r' es g' r3 Hu Hv H HN HP. unfold decrypt_message in H.
  destruct (process C v (v_load v) m) as [[[id|e|] rp] ef] eqn:EP; [|discriminate|discriminate].
  destruct (decrypt_with_record C rp (pm_message m) g) as [[[y|e|] r1] g1] eqn:ED; [|discriminate|discriminate].
  assert (r1 = r') by (destruct id; [injection H as _ -> _ _; reflexivity|discriminate]). subst r1.
  unfold process in EP. destruct (negb (v_trusted v (pm_identity m))); [discriminate|].
  destruct (process_v3 C v (v_load v) m) as [o3 r4] eqn:E3.
  assert (rp = r4) by (destruct o3; injection EP as _ <- _; reflexivity). subst r4.
  assert (HO3 : o3 = Ok id) by (destruct o3; [injection EP as ->; reflexivity|discriminate|discriminate]). subst o3.
  apply process_v3_cases in E3. rewrite Hv in E3.
  destruct E3 as [[-> [HF|[_ HH]]]|[[HF _]|(signed & otk & keys & _ & _ & _ & HK & _ & ->)]];
    [exfalso; exact (HF _ eq_refl)|congruence|exfalso; exact (HF _ eq_refl)|].
  apply persist_iff in HP. destruct HP as (_ & _ & ->).
  change (has_session_state 3 (ser_pub (pm_base m)) r' = true).
  eapply dwr_matches; [exact Hu| |exact ED]. split; reflexivity.
Qed.

(** With a recognised session the prekeys do not matter and none is removed. *)
Definition with_prekeys (p : N -> option ec_pair) (v : view) : view :=
  {| v_load := v_load v; v_contains := v_contains v; v_trusted := v_trusted v; v_identity := v_identity v;
     v_reg := v_reg v; v_prekey := p; v_signed := v_signed v |}.

Lemma recognised_ignores_prekeys : forall v m g p, 
  has_session_state (pk_version (pm_struct m)) (ser_pub (pm_base m)) (v_load v) = true ->
  decrypt_message C (with_prekeys p v) m g = decrypt_message C v m g.
Proof.
  intros v m g p H. unfold decrypt_message, process. cbn [with_prekeys v_load v_trusted].
  destruct (negb (v_trusted v (pm_identity m))); [reflexivity|].
  unfold process_v3. rewrite H. reflexivity.
Qed.

Lemma recognised_removes_none : forall v m g o r' es g', 
  has_session_state (pk_version (pm_struct m)) (ser_pub (pm_base m)) (v_load v) = true ->
  decrypt_message C v m g = (o, r', es, g') -> forall i, ~ In (RemovePreKey i) es.
Proof.
  intros v m g o r' es g' HH H i HI. unfold decrypt_message, process in H.
  destruct (negb (v_trusted v (pm_identity m))); [injection H as _ _ <- _; destruct HI|].
  unfold process_v3 in H. rewrite HH in H.
  destruct (decrypt_with_record C (v_load v) (pm_message m) g) as [[[y|e|] r1] g1]; cbn in H; injection H as _ _ <- _; cbn in HI; intuition discriminate.
Qed.
End O.
