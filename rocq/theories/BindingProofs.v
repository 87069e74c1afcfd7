(** BindingProofs.v: proofs for C73 and C74. *)
From Verif Require Import Base Labels Crypto Ecc Keys X3dh Messages SessionState SessionRecord SessionBuilder SessionCipher Address World SessionSpec
  SerialProofs SessionProofs HistoryProofs OpsProofs BindingSpec.
From Coq Require Import ZArith NArith List Lia.
Import ListNotations.

Section Proofs.
Context (C : crypto).

Definition same_meta (s s' : state) : Prop :=
  s_remote_id s' = s_remote_id s /\ s_local_id s' = s_local_id s /\ s_version s' = s_version s /\ s_base s' = s_base s /\
  s_local_reg s' = s_local_reg s /\ s_remote_reg s' = s_remote_reg s /\ (s_pending s' = s_pending s \/ s_pending s' = None).
Lemma dws_meta : forall s m g o s' g', u32_msg m -> decrypt_with_state C s m g = (o, s', g') -> same_meta s s'.
Proof.
  intros s m g o s' g' Hu H. apply dws_cases in H; [|exact Hu]. destruct H as [(_ & ->)|(s1 & c & HP & _ & _ & HC)]; [repeat split; left; reflexivity|].
  destruct (prepared_ids _ _ _ _ _ _ _ HP) as (I1 & I2 & I3 & I4 & I5 & I6 & I7 & _).
  destruct HC as [(_ & -> & _)|(mk & c' & HR & [(_ & ->)|(pt & rid & lid & _ & -> & _)])]; repeat split; cbn; try congruence; [left|left|right]; congruence.
Qed.

(** The invariant. *)
Definition pend_ok (H : list setup) (s : state) : Prop := forall p, s_pending s = Some p ->
  exists v b, In (Started v b) H /\ pp_id p = b_prekey_id b /\ pp_signed p = b_signed_id b.
Definition inv (H : list setup) (s : state) : Prop := (blank s \/ exists x, In x H /\ bound_to C x s) /\ pend_ok H s.
Lemma inv_meta : forall H s s', same_meta s s' -> inv H s -> inv H s'.
Proof.
  intros H s s' (M1 & M2 & M3 & M4 & M5 & M6 & M7) (I & P). split.
  - destruct I as [(B1 & B2 & B3 & B4 & B5 & B6)|(x & X & B)]; [left; repeat split; congruence|]. right. exists x. split; [exact X|].
    destruct x as [v b|v m]; unfold bound_to in *; rewrite M1, M2, M3, M5, M6, ?M4; exact B.
  - intros p E. destruct M7 as [M7|M7]; rewrite M7 in E; [exact (P p E)|discriminate E].
Qed.
Lemma inv_new : forall H, inv H new_state.
Proof. intros H. split; [left; repeat split|]. intros p E. discriminate E. Qed.
Lemma inv_more : forall H x s, inv H s -> inv (x :: H) s.
Proof.
  intros H x s (I & P). split.
  - destruct I as [B|(y & Y & B)]; [left; exact B|right; exists y; split; [right; exact Y|exact B]].
  - intros p E. destruct (P p E) as (v & b & I' & A). exists v, b. split; [right; exact I'|exact A].
Qed.
Lemma all_more : forall H x r, Forall (inv H) (states r) -> Forall (inv (x :: H)) (states r).
Proof. intros H x r F. eapply Forall_impl; [|exact F]. intros s. apply inv_more. Qed.

Lemma init_recv_inv : forall H v m signed keys s, v_trusted v (pm_identity m) = true -> inv H s -> inv (Answered v m :: H) (init_recv v m signed keys s).
Proof.
  intros H v m signed keys s T (_ & P). split.
  - right. exists (Answered v m). split; [left; reflexivity|]. split; [exact T|]. repeat split.
  - intros p E. destruct (P p E) as (v' & b & I' & A). exists v', b. split; [right; exact I'|exact A].
Qed.
Lemma init_send_inv : forall H v b signed ob ra de se s, v_trusted v (b_identity b) = true -> b_signed b = Some signed ->
  verify_signature C (b_identity b) (ser_pub signed) (b_sig b) = true -> inv (Started v b :: H) (init_send v b signed ob ra de se s).
Proof.
  intros H v b signed ob ra de se s T S V. split.
  - right. exists (Started v b). split; [left; reflexivity|]. split; [exact T|]. split; [exists signed; split; assumption|]. repeat split.
  - intros p E. unfold init_send in E. cbn in E. injection E as <-. exists v, b. split; [left; reflexivity|]. split; reflexivity.
Qed.
Lemma prep_inv : forall H r, Forall (inv H) (states r) -> Forall (inv H) (states (prep_record r)).
Proof. intros H r F. apply prep_states; [apply inv_new|exact F]. Qed.

Theorem history_inv : forall H r, history C H r -> Forall (inv H) (states r).
Proof.
  intros H r HH. induction HH as [|H v pt o r' es _ IH E|H v m g o r' es g' _ IH U E|H v m g o r' es g' _ IH U E|H v b g o r' es g' _ IH E|H r r' _ IH E].
  - constructor; [apply inv_new|constructor].
  - apply encrypt_cases in E. destruct E as [(_ & -> & _)|(sc & body & lid & rid & sm & ct & E)]; [exact IH|]. cbv zeta in E. destruct E as (E1 & _ & _ & _ & _ & _ & _ & -> & _).
    apply set_cur_states; [|exact IH]. inversion IH as [|? ? I1 I2]; subst. eapply inv_meta; [|exact I1]. unfold set_sender_chain_key. rewrite E1. repeat split. left. reflexivity.
  - unfold decrypt_and_get_key in E. destruct (negb (v_contains v)); [injection E as _ <- _ _; exact IH|].
    destruct (decrypt_with_record C (v_load v) m g) as [[o1 r1] g1] eqn:ER.
    destruct (dwr_states C u32_msg (inv H) m (fun s g o s' g' P D => inv_meta H s s' (dws_meta s m g o s' g' U D) P) _ _ _ _ _ IH ER) as (A & _).
    destruct o1 as [x|e|]; [destruct (s_remote_id (r_cur r1))|..]; injection E as _ <- _ _; exact A.
  - unfold decrypt_message in E.
    assert (HPR : forall op rp ef, process C v (v_load v) m = (op, rp, ef) -> Forall (inv (Answered v m :: H)) (states rp)).
    { intros op rp ef EP. unfold process in EP. destruct (v_trusted v (pm_identity m)) eqn:T; cbn [negb] in EP; [|injection EP as _ <- _; apply all_more; exact IH].
      destruct (process_v3 C v (v_load v) m) as [o3 r3] eqn:E3.
      assert (HR3 : Forall (inv (Answered v m :: H)) (states r3)).
      { apply process_v3_cases in E3. destruct E3 as [[-> _]|[[_ ->]|(signed & otk & keys & _ & _ & _ & HK & _ & ->)]].
        - apply all_more; exact IH.
        - apply all_more, prep_inv; exact IH.
        - apply set_cur_states; [|apply all_more, prep_inv; exact IH]. apply init_recv_inv; [exact T|]. pose proof (prep_inv _ _ IH) as X. inversion X. assumption. }
      destruct o3; injection EP as _ <- _; exact HR3. }
    destruct (process C v (v_load v) m) as [[op rp] ef] eqn:EP. pose proof (HPR _ _ _ eq_refl) as HR.
    destruct op as [id|e|]; [|injection E as _ <- _ _; exact HR..].
    destruct (decrypt_with_record C rp (pm_message m) g) as [[o1 r1] g1] eqn:ER.
    destruct (dwr_states C u32_msg (inv (Answered v m :: H)) (pm_message m) (fun s g o s' g' P D => inv_meta _ s s' (dws_meta s (pm_message m) g o s' g' U D) P) _ _ _ _ _ HR ER) as (A & _).
    destruct o1 as [x|e|]; [destruct id as [oo|]|..]; injection E as _ <- _ _; exact A.
  - apply process_bundle_cases in E. destruct E as [(_ & _ & [-> | ->])|(signed & ob & ra & de & se & g1 & T & S & V & _ & _ & _ & _ & _ & -> & _)].
    + apply all_more; exact IH.
    + apply all_more, prep_inv; exact IH.
    + apply set_cur_states; [apply init_send_inv; assumption|]. apply all_more, prep_inv; exact IH.
  - apply persist_iff in E. destruct E as (_ & _ & ->). exact IH.
Qed.

(** What was accepted was authenticated with the keys of the set-up. *)
Lemma accepted : forall H r m g x r' g', Forall (inv H) (states r) -> u32_msg m -> decrypt_with_record C r m g = (Ok x, r', g') ->
  exists y rid lid, In y H /\ bound_to C y (r_cur r') /\ s_remote_id (r_cur r') = Some rid /\ s_local_id (r_cur r') = Some lid /\
    verify_mac C m (sg_version (sm_struct m)) rid lid (mk_mac (snd x)) = Ok tt.
Proof.
  intros H r m g x r' g' F U D. destruct (dwr_ok_some_state C _ _ _ _ _ _ D) as (s & g1 & g2 & I & E). rewrite Forall_forall in F. specialize (F s I).
  pose proof (dws_meta _ _ _ _ _ _ U E) as M. pose proof (inv_meta _ _ _ M F) as F'. destruct M as (M1 & M2 & _).
  apply dws_cases in E; [|exact U]. destruct E as [(X & _)|(s1 & c & _ & _ & _ & E)]; [exfalso; exact (X x eq_refl)|].
  destruct E as [(X & _)|(mk & c' & _ & [(X & _)|(pt & rid & lid & E & _ & R & L & V & _)])]; [exfalso; exact (X x eq_refl)|exfalso; exact (X x eq_refl)|].
  assert (EX : x = (pt, mk)) by (injection E as ->; reflexivity). destruct F' as ([B|(y & Y & B)] & _).
  - exfalso. destruct B as (B & _). rewrite M1, R in B. discriminate B.
  - exists y, rid, lid. split; [exact Y|]. split; [exact B|]. split; [rewrite M1; exact R|]. split; [rewrite M2; exact L|]. rewrite EX. exact V.
Qed.

(** New sessions. *)
Lemma bundle_counter : forall v b g r' es g', (r_fresh (v_load v) = true -> s_prev_counter (r_cur (v_load v)) = 0%N) ->
  process_bundle C v b g = (Ok tt, r', es, g') -> s_prev_counter (r_cur r') = 0%N.
Proof.
  intros v b g r' es g' F E. apply process_bundle_cases in E. destruct E as [(X & _)|(signed & ob & ra & de & se & g1 & _ & _ & _ & _ & _ & _ & _ & _ & -> & _)]; [exfalso; exact (X tt eq_refl)|].
  unfold prep_record. destruct (r_fresh (v_load v)) eqn:R; cbn; [exact (F eq_refl)|reflexivity].
Qed.
Lemma answer_counter : forall v m id r' ef, (r_fresh (v_load v) = true -> s_prev_counter (r_cur (v_load v)) = 0%N) ->
  has_session_state (pk_version (pm_struct m)) (ser_pub (pm_base m)) (v_load v) = false ->
  process C v (v_load v) m = (Ok id, r', ef) -> s_prev_counter (r_cur r') = 0%N.
Proof.
  intros v m id r' ef F N E. unfold process in E. destruct (negb (v_trusted v (pm_identity m))); [discriminate E|]. destruct (process_v3 C v (v_load v) m) as [o3 r3] eqn:E3.
  destruct o3 as [i|e|]; [|discriminate E|discriminate E]. assert (r3 = r') as -> by (injection E as _ -> _; reflexivity). clear E. apply process_v3_cases in E3.
  destruct E3 as [[_ [X|[_ X]]]|[[X _]|(signed & otk & keys & _ & _ & _ & _ & _ & ->)]]; [exfalso; exact (X _ eq_refl)|congruence|exfalso; exact (X _ eq_refl)|].
  unfold prep_record. destruct (r_fresh (v_load v)) eqn:R; cbn; [exact (F eq_refl)|reflexivity].
Qed.

(** * Trust on first use *)
Lemma failed_first_message : forall a f g w id r1 ef w' g' o, process C (view_of w a) (v_load (view_of w a)) f = (Ok id, r1, ef) ->
  w_decrypt_message C a f g w = (o, w', g') -> failed o -> o <> Panic -> exists e, o = Err e /\
  w' = {| w_sessions := w_sessions w; w_saved := upd_addr (w_saved w) a (Some (pm_identity f)); w_prekeys := w_prekeys w; w_signed := w_signed w;
          w_self := w_self w; w_reg := w_reg w; w_policy := w_policy w |}.
Proof.
  intros a f g w id r1 ef w' g' o P H F NP. assert (EF : ef = [SaveIdentity (pm_identity f)]).
  { unfold process in P. destruct (negb _); [discriminate P|]. destruct (process_v3 C (view_of w a) _ f) as [[i|e|] r3]; [|discriminate P|discriminate P]. injection P as _ _ <-. reflexivity. }
  subst ef. unfold w_decrypt_message, decrypt_message in H. rewrite P in H. destruct (decrypt_with_record C r1 (pm_message f) g) as [[[x|e|] r2] g1].
  - destruct id as [oo|].
    + cbn [app commit apply_effect] in H. destruct (persist r2) as [r3|e|].
      * destruct (ou_empty oo); cbn [commit apply_effect seal] in H; injection H as <- _ _; exfalso; exact (F _ eq_refl).
      * injection H as <- _ _. exfalso. apply NP. reflexivity.
      * injection H as <- _ _. exfalso. apply NP. reflexivity.
    + cbn [app commit apply_effect] in H. destruct (persist r2) as [r3|e|]; cbn [commit seal] in H; injection H as <- _ _; exfalso; apply NP; reflexivity.
  - cbn [commit apply_effect seal] in H. injection H as <- <- _. exists e. split; reflexivity.
  - cbn [commit apply_effect seal] in H. injection H as <- _ _. exfalso. apply NP. reflexivity.
Qed.
Lemma other_key_refused : forall a w k m g, first_use w -> w_saved w a = Some k -> pm_identity m <> k -> w_decrypt_message C a m g w = (Err EUntrusted, w, g).
Proof.
  intros a w k m g T S N. unfold w_decrypt_message, decrypt_message, process. cbn [view_of v_trusted].
  destruct (w_policy w (w_saved w) a (pm_identity m)) eqn:E; [|reflexivity]. exfalso. apply T in E. destruct E as [E|E]; rewrite S in E; [discriminate E|].
  apply N. exact (eq_sym (f_equal (fun o => match o with Some x => x | None => k end) E)).
Qed.
Lemma other_bundle_refused : forall a w k b g, first_use w -> w_saved w a = Some k -> b_identity b <> k -> w_process_bundle C a b g w = (Err EUntrusted, w, g).
Proof.
  intros a w k m g T S N. unfold w_process_bundle, process_bundle. cbn [view_of v_trusted].
  destruct (w_policy w (w_saved w) a (b_identity m)) eqn:E; [|reflexivity]. exfalso. apply T in E. destruct E as [E|E]; rewrite S in E; [discriminate E|].
  apply N. exact (eq_sym (f_equal (fun o => match o with Some x => x | None => k end) E)).
Qed.
End Proofs.
