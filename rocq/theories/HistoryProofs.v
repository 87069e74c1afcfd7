(** HistoryProofs.v: invariants of session states and records over histories. *)
From Verif Require Import Base Labels Crypto Bytehelper Ecc Cbc Keys X3dh Messages SessionState SessionRecord
  SessionBuilder SessionCipher Address World Toy CodecProofs CodecProofs2 CryptoProofs SessionProofs SerialProofs SessionSpec.
From Coq Require Import ZifyBool ZifyN ZifyNat.

Section H.
Context (C : crypto) (Q : sig_msg -> Prop).

(** * Shapes of the operations *)

(** What processV3 writes into the current state. *)
Definition init_recv (v : view) (m : pk_msg) (signed : ec_pair) (keys : session_keys) (s : state) : state :=
  set_base (pm_base m)
   (set_remote_reg (pk_reg (pm_struct m))
   (set_local_reg (v_reg v)
   (set_root (sk_root keys)
   (set_sender_chain signed (sk_chain keys)
   (set_local_id (ip_pub (v_identity v))
   (set_remote_id (pm_identity m)
   (set_version current_version s))))))).

(** What ProcessBundle writes into the current state. *)
Definition init_send (v : view) (b : bundle) (signed : arr32) (our_base ratchet : ec_pair) (derived sending : session_keys)
    (s : state) : state :=
  set_base (kp_pub our_base)
   (set_remote_reg (b_reg b)
   (set_local_reg (v_reg v)
   (set_pending (Some {| pp_id := b_prekey_id b; pp_signed := b_signed_id b; pp_base := kp_pub our_base |})
   (set_root (sk_root sending)
   (set_sender_chain ratchet (sk_chain sending)
   (add_receiver_chain signed (sk_chain derived)
   (set_local_id (ip_pub (v_identity v))
   (set_remote_id (b_identity b)
   (set_version current_version s))))))))).

Definition prep_record (r : record) : record := if r_fresh r then r else archive_current r.

Lemma process_v3_cases : forall v r m o r', process_v3 C v r m = (o, r') ->
  (r' = r /\ (failed o \/ (o = Ok (Some ou_none) /\
     has_session_state (pk_version (pm_struct m)) (ser_pub (pm_base m)) r = true))) \/
  (failed o /\ r' = prep_record r) \/
  exists signed otk keys, v_signed v (pk_signed_id (pm_struct m)) = Some signed /\
    has_session_state (pk_version (pm_struct m)) (ser_pub (pm_base m)) r = false /\
    match pk_prekey_id (pm_struct m) with
    | None => otk = None
    | Some o => exists kp, v_prekey v (ou_value o) = Some kp /\ otk = Some kp
    end /\
    calculate_receiver_session C
      {| rp_our_identity := v_identity v; rp_our_signed := signed; rp_our_one_time := otk;
         rp_our_ratchet := signed; rp_their_base := pm_base m; rp_their_identity := pm_identity m |} = Ok keys /\
    o = Ok (match pk_prekey_id (pm_struct m) with
            | Some o => if (ou_value o =? medium_max)%N then None else Some o
            | None => None
            end) /\
    r' = set_cur (init_recv v m signed keys (r_cur (prep_record r))) (prep_record r).
Proof.
  intros v r m o r' H. unfold process_v3 in H.
  destruct (has_session_state (pk_version (pm_struct m)) (ser_pub (pm_base m)) r) eqn:EH.
  { injection H as <- <-. left. split; [reflexivity|]. right. auto. }
  destruct (v_signed v (pk_signed_id (pm_struct m))) as [signed|] eqn:ES;
    [|injection H as <- <-; left; split; [reflexivity|left; intros x; discriminate]].
  destruct (match pk_prekey_id (pm_struct m) with
               | None => Ok None
               | Some o => match v_prekey v (ou_value o) with
                           | None => Err ENilOneTimePreKey
                           | Some kp => Ok (Some kp)
                           end
               end) as [otk| |] eqn:EO;
    [|injection H as <- <-; left; split; [reflexivity|left; intros x; discriminate]
     |injection H as <- <-; left; split; [reflexivity|left; intros x; discriminate]].
  fold (prep_record r) in H.
  match type of H with match ?e with _ => _ end = _ => destruct e as [keys| |] eqn:EK end;
    [|injection H as <- <-; right; left; split; [intros x; discriminate|reflexivity]
     |injection H as <- <-; right; left; split; [intros x; discriminate|reflexivity]].
  right. right. exists signed, otk, keys. injection H as <- <-. split; [reflexivity|]. split; [reflexivity|].
  split; [|split; [exact EK|split; reflexivity]].
  destruct (pk_prekey_id (pm_struct m)) as [oo|]; [|congruence].
  destruct (v_prekey v (ou_value oo)) as [kp|]; [|discriminate]. exists kp. split; congruence.
Qed.

Lemma process_bundle_cases : forall v b g o r' es g', process_bundle C v b g = (o, r', es, g') ->
  (failed o /\ es = [] /\ (r' = v_load v \/ r' = prep_record (v_load v))) \/
  exists signed our_base ratchet derived sending g1,
    v_trusted v (b_identity b) = true /\ b_signed b = Some signed /\
    verify_signature C (b_identity b) (ser_pub signed) (b_sig b) = true /\
    generate_key_pair C g = (Ok our_base, g1) /\ generate_key_pair C g1 = (Ok ratchet, g') /\
    calculate_sender_session C
      {| sp_our_identity := v_identity v; sp_our_base := our_base;
         sp_their_identity := b_identity b; sp_their_signed := signed;
         sp_their_ratchet := signed; sp_their_one_time := b_prekey b |} = Ok derived /\
    create_chain C (sk_root derived) signed ratchet = Ok sending /\
    o = Ok tt /\
    r' = set_cur (init_send v b signed our_base ratchet derived sending (r_cur (prep_record (v_load v)))) (prep_record (v_load v)) /\
    es = [StoreSession r'; SaveIdentity (b_identity b)].
Proof.
  intros v b g o r' es g' H. unfold process_bundle in H.
  destruct (v_trusted v (b_identity b)) eqn:ET; cbn [negb] in H;
    [|injection H as <- <- <- _; left; repeat split; auto; intros x; discriminate].
  destruct (b_signed b) as [signed|] eqn:ES;
    [|injection H as <- <- <- _; left; repeat split; auto; intros x; discriminate].
  destruct (verify_signature C (b_identity b) (ser_pub signed) (b_sig b)) eqn:EV; cbn [negb] in H;
    [|injection H as <- <- <- _; left; repeat split; auto; intros x; discriminate].
  destruct (generate_key_pair C g) as [[our_base| |] g1] eqn:EG;
    [|injection H as <- <- <- _; left; repeat split; auto; intros x; discriminate
     |injection H as <- <- <- _; left; repeat split; auto; intros x; discriminate].
  fold (prep_record (v_load v)) in H.
  match type of H with match ?e with _ => _ end = _ => destruct e as [derived| |] eqn:ED end;
    [|injection H as <- <- <- _; left; repeat split; auto; intros x; discriminate
     |injection H as <- <- <- _; left; repeat split; auto; intros x; discriminate].
  destruct (generate_key_pair C g1) as [[ratchet| |] g2] eqn:EG2;
    [|injection H as <- <- <- _; left; repeat split; auto; intros x; discriminate
     |injection H as <- <- <- _; left; repeat split; auto; intros x; discriminate].
  destruct (create_chain C (sk_root derived) signed ratchet) as [sending| |] eqn:EC;
    [|injection H as <- <- <- _; left; repeat split; auto; intros x; discriminate
     |injection H as <- <- <- _; left; repeat split; auto; intros x; discriminate].
  injection H as <- <- <- <-. right. exists signed, our_base, ratchet, derived, sending, g1.
  repeat split; assumption.
Qed.

Lemma encrypt_cases : forall v pt o r' es, encrypt C v pt = (o, r', es) ->
  (failed o /\ r' = v_load v /\ es = []) \/
  exists sc body lid rid sm ct,
    let s := r_cur (v_load v) in let mk := message_keys C (ch_key sc) in
    s_sender s = Some sc /\ encrypt_cbc C (mk_iv mk) (mk_cipher mk) pt = Ok body /\
    s_local_id s = Some lid /\ s_remote_id s = Some rid /\
    new_signal_message C (s_version s) (ck_index (ch_key sc)) (s_prev_counter s) (mk_mac mk)
      (kp_pub (ch_pair sc)) body lid rid = Ok sm /\
    match s_pending s with
    | None => ct = CSignal sm
    | Some p => exists pm, new_prekey_message (s_version s) (s_local_reg s) (pp_id p) (pp_signed p) (pp_base p) lid sm = Ok pm
                           /\ ct = CPreKey pm
    end /\
    o = Ok ct /\ r' = set_cur (set_sender_chain_key (next_key C (ch_key sc)) s) (v_load v) /\
    es = [SaveIdentity rid; StoreSession r'].
Proof.
  intros v pt o r' es H. unfold encrypt in H. cbv zeta in H.
  destruct (s_sender (r_cur (v_load v))) as [sc|] eqn:E1;
    [|injection H as <- <- <-; left; repeat split; intros x; discriminate].
  destruct (encrypt_cbc C (mk_iv (message_keys C (ch_key sc))) (mk_cipher (message_keys C (ch_key sc))) pt) as [body| |] eqn:E2;
    [|injection H as <- <- <-; left; repeat split; intros x; discriminate
     |injection H as <- <- <-; left; repeat split; intros x; discriminate].
  destruct (s_local_id (r_cur (v_load v))) as [lid|] eqn:E3;
    [|injection H as <- <- <-; left; repeat split; intros x; discriminate].
  destruct (s_remote_id (r_cur (v_load v))) as [rid|] eqn:E4;
    [|injection H as <- <- <-; left; repeat split; intros x; discriminate].
  match type of H with match ?e with _ => _ end = _ => destruct e as [sm| |] eqn:E5 end;
    [|injection H as <- <- <-; left; repeat split; intros x; discriminate
     |injection H as <- <- <-; left; repeat split; intros x; discriminate].
  match type of H with match ?e with _ => _ end = _ => destruct e as [ct| |] eqn:E6 end;
    [|injection H as <- <- <-; left; repeat split; intros x; discriminate
     |injection H as <- <- <-; left; repeat split; intros x; discriminate].
  injection H as <- <- <-. right. exists sc, body, lid, rid, sm, ct.
  cbv zeta. repeat split; auto.
  destruct (s_pending (r_cur (v_load v))) as [p|]; [|congruence].
  match type of E6 with bind ?e _ = _ => destruct e as [pm| |] eqn:E7 end; cbn [bind] in E6; try discriminate.
  exists pm. split; congruence.
Qed.

(** The states after trying the archived ones. *)
Lemma try_prev_states : forall (P : state -> Prop) m,
  (forall s g o s' g', P s -> decrypt_with_state C s m g = (o, s', g') -> P s') ->
  forall l g o l' g', Forall P l -> try_prev C l m g = (o, l', g') -> Forall P l' /\ length l' = length l /\
    forall i x, o = Ok (i, x) -> (i < length l)%nat.
Proof.
  intros P m HP l. induction l as [|s l IH]; intros g o l' g' HF H; cbn [try_prev] in H.
  - injection H as <- <- _. repeat split; auto. intros i x E. discriminate.
  - inversion HF as [|? ? Hs Hl]. subst.
    destruct (decrypt_with_state C s m g) as [[[x|e|] s'] g1] eqn:E.
    + injection H as <- <- _. repeat split; [constructor; [eapply HP; eassumption|assumption]|].
      intros i y Ei. injection Ei as <- _. cbn. lia.
    + destruct (try_prev C l m g1) as [[[[i x]|e'|] l2] g2] eqn:E2; injection H as <- <- _;
        destruct (IH _ _ _ _ Hl E2) as (HA & HB & HC);
        (repeat split; [constructor; [eapply HP; eassumption|assumption]|cbn; lia|]); intros j y Ej; try discriminate.
      injection Ej as <- _. specialize (HC i x eq_refl). cbn. lia.
    + injection H as <- <- _. repeat split; [constructor; [eapply HP; eassumption|assumption]|].
      intros i y Ei. discriminate.
Qed.

Lemma go_delete_shared_incl : forall i l x, In x (go_delete_shared i l) -> In x l.
Proof.
  intros i l x H. unfold go_delete_shared in H. rewrite !in_app_iff in H. destruct H as [H|[H|H]].
  - rewrite <- (firstn_skipn i l). apply in_app_iff. auto.
  - rewrite <- (firstn_skipn (S i) l). apply in_app_iff. auto.
  - destruct (rev l) as [|y r] eqn:E; [destruct H|]. destruct H as [<-|[]]. apply in_rev. rewrite E. left. reflexivity.
Qed.

Lemma go_delete_shared_length : forall i l, (i < length l)%nat -> length (go_delete_shared i l) = length l.
Proof.
  intros i l H. unfold go_delete_shared. rewrite !app_length, firstn_length, skipn_length.
  destruct (rev l) eqn:E; [|cbn [length]; lia]. apply (f_equal (@length state)) in E. rewrite rev_length in E. cbn in E. lia.
Qed.

Lemma in_removelast : forall A (l : list A) x, In x (removelast l) -> In x l.
Proof.
  intros A l x. induction l as [|a l IH]; [auto|]. cbn [removelast]. destruct l as [|b l]; [intros []|].
  intros [->|H]; [left; reflexivity|right; auto].
Qed.

Lemma promote_states : forall (P : state -> Prop) s r, P s -> Forall P (states r) -> Forall P (states (promote_state s r)).
Proof.
  intros P s r Hs H. unfold promote_state, states in *. cbn [r_cur r_prev]. constructor; [exact Hs|].
  destruct (archived_max <? length (r_cur r :: r_prev r))%nat; [|exact H].
  apply Forall_forall. intros x Hx. rewrite Forall_forall in H. apply H.
  apply in_removelast. exact Hx.
Qed.

Lemma promote_length : forall s r, (length (r_prev r) <= archived_max)%nat ->
  (length (r_prev (promote_state s r)) <= archived_max)%nat.
Proof.
  intros s r H. unfold promote_state. cbn [r_prev].
  destruct (archived_max <? length (r_cur r :: r_prev r))%nat eqn:E; cbn [length] in *; [|lia].
  pose proof (removelast_firstn_len (r_cur r :: r_prev r)) as HR. rewrite HR, firstn_length. cbn [length]. lia.
Qed.

Lemma dwr_states : forall (P : state -> Prop) m,
  (forall s g o s' g', P s -> decrypt_with_state C s m g = (o, s', g') -> P s') ->
  forall r g o r' g', Forall P (states r) -> decrypt_with_record C r m g = (o, r', g') ->
    Forall P (states r') /\ ((length (r_prev r) <= archived_max)%nat -> (length (r_prev r') <= archived_max)%nat) /\
    r_fresh r' = r_fresh r.
Proof.
  intros P m HP r g o r' g' HF H. unfold decrypt_with_record in H. inversion HF as [|? ? Hc Hp]. subst.
  destruct (decrypt_with_state C (r_cur r) m g) as [[[x|e|] s'] g1] eqn:E.
  - injection H as <- <- _. repeat split; auto. constructor; [eapply HP; eassumption|assumption].
  - destruct (try_prev C (r_prev r) m g1) as [[[[i x]|e'|] l] g2] eqn:E2;
      destruct (try_prev_states P m HP _ _ _ _ _ Hp E2) as (HA & HB & HC).
    + destruct (nth_error l i) as [st|] eqn:EN.
      * injection H as <- <- _.
        assert (HD : Forall P (states (set_prev (go_delete_shared i l) (set_cur s' r)))).
        { unfold states. cbn [r_cur r_prev set_prev set_cur]. constructor; [eapply HP; eassumption|].
          apply Forall_forall. intros y Hy. apply go_delete_shared_incl in Hy. rewrite Forall_forall in HA. auto. }
        repeat split.
        -- apply promote_states; [|exact HD]. rewrite Forall_forall in HA. apply HA. eapply nth_error_In. exact EN.
        -- intros HL. apply promote_length. cbn [r_prev set_prev].
           rewrite go_delete_shared_length; [rewrite HB; exact HL|]. specialize (HC i x eq_refl). lia.
      * injection H as <- <- _. repeat split; [|cbn [r_prev set_prev]; rewrite HB; auto].
        unfold states. cbn [r_cur r_prev set_prev set_cur]. constructor; [eapply HP; eassumption|exact HA].
    + injection H as <- <- _. repeat split; [|cbn [r_prev set_prev]; rewrite HB; auto].
      unfold states. cbn [r_cur r_prev set_prev set_cur]. constructor; [eapply HP; eassumption|exact HA].
    + injection H as <- <- _. repeat split; [|cbn [r_prev set_prev]; rewrite HB; auto].
      unfold states. cbn [r_cur r_prev set_prev set_cur]. constructor; [eapply HP; eassumption|exact HA].
  - injection H as <- <- _. repeat split; auto. constructor; [eapply HP; eassumption|assumption].
Qed.

Lemma prep_states : forall (P : state -> Prop) r, P new_state -> Forall P (states r) -> Forall P (states (prep_record r)).
Proof. intros P r Hn H. unfold prep_record. destruct (r_fresh r); [exact H|]. apply promote_states; assumption. Qed.

Lemma prep_length : forall r, (length (r_prev r) <= archived_max)%nat -> (length (r_prev (prep_record r)) <= archived_max)%nat.
Proof. intros r H. unfold prep_record. destruct (r_fresh r); [exact H|]. apply promote_length. exact H. Qed.

Lemma set_cur_states : forall (P : state -> Prop) s r, P s -> Forall P (states r) -> Forall P (states (set_cur s r)).
Proof. intros P s r Hs H. inversion H. subst. constructor; assumption. Qed.

(** An invariant of states that the three kinds of change keep. *)
Record state_inv (P : state -> Prop) : Prop := {
  inv_new : P new_state;
  inv_decrypt : forall s m g o s' g', Q m -> P s -> decrypt_with_state C s m g = (o, s', g') -> P s';
  inv_encrypt : forall s sc, P s -> s_sender s = Some sc -> P (set_sender_chain_key (next_key C (ch_key sc)) s);
}.

Definition good_init (P : state -> Prop) (s : state) : Prop :=
  (forall v m signed otk keys, calculate_receiver_session C
      {| rp_our_identity := v_identity v; rp_our_signed := signed; rp_our_one_time := otk;
         rp_our_ratchet := signed; rp_their_base := pm_base m; rp_their_identity := pm_identity m |} = Ok keys ->
     P (init_recv v m signed keys s)) /\
  (forall v b signed our_base ratchet derived sending g g1 g2,
     calculate_sender_session C
      {| sp_our_identity := v_identity v; sp_our_base := our_base;
         sp_their_identity := b_identity b; sp_their_signed := signed;
         sp_their_ratchet := signed; sp_their_one_time := b_prekey b |} = Ok derived ->
     generate_key_pair C g = (Ok our_base, g1) -> generate_key_pair C g1 = (Ok ratchet, g2) ->
     create_chain C (sk_root derived) signed ratchet = Ok sending ->
     P (init_send v b signed our_base ratchet derived sending s)).

(** One operation keeps the invariant, if initialising the prepared current state does. *)
Lemma op_keeps : forall (P : state -> Prop), state_inv P ->
  forall v r' es, session_op C Q v r' es ->
  good_init P (r_cur (prep_record (v_load v))) ->
  Forall P (states (v_load v)) ->
  Forall P (states r') /\ (forall r'', In (StoreSession r'') es -> r'' = r') /\
  ((length (r_prev (v_load v)) <= archived_max)%nat -> (length (r_prev r') <= archived_max)%nat).
Proof.
  intros P [Hn Hd He] v r' es H [GI1 GI2] HP. inversion H as [pt o r1 es1 E|m g o r1 es1 g' Hu E|m g o r1 es1 g' Hu E|b g o r1 es1 g' E]; subst.
  - apply encrypt_cases in E. destruct E as [(_ & -> & ->)|(sc & body & lid & rid & sm & ct & E)].
    + repeat split; auto. intros r'' [].
    + cbv zeta in E. destruct E as (E1 & _ & _ & _ & _ & _ & _ & -> & ->). repeat split; auto.
      * apply set_cur_states; [|exact HP]. inversion HP. apply He; assumption.
      * intros r'' [X|[X|[]]]; [discriminate|congruence].
  - unfold decrypt_and_get_key in E. destruct (negb (v_contains v)).
    { injection E as _ <- <- _. repeat split; auto. intros r'' []. }
    destruct (decrypt_with_record C (v_load v) m g) as [[o1 r1] g1] eqn:ER.
    destruct (dwr_states P m (fun s g o s' g' HPs => Hd s m g o s' g' Hu HPs) _ _ _ _ _ HP ER) as (HA & HB & _).
    destruct o1 as [x|e|].
    + destruct (s_remote_id (r_cur r1)) as [rid|].
      * injection E as _ <- <- _. repeat split; auto. intros r'' [X|[X|[]]]; [discriminate|congruence].
      * injection E as _ <- <- _. repeat split; auto. intros r'' [].
    + injection E as _ <- <- _. repeat split; auto. intros r'' [].
    + injection E as _ <- <- _. repeat split; auto. intros r'' [].
  - unfold decrypt_message in E.
    assert (HPR : forall op rp ef, process C v (v_load v) m = (op, rp, ef) ->
      Forall P (states rp) /\ (forall r'', ~ In (StoreSession r'') ef) /\
      ((length (r_prev (v_load v)) <= archived_max)%nat -> (length (r_prev rp) <= archived_max)%nat)).
    { intros op rp ef EP. unfold process in EP. destruct (negb (v_trusted v (pm_identity m))).
      { injection EP as _ <- <-. repeat split; auto. }
      destruct (process_v3 C v (v_load v) m) as [o3 r3] eqn:E3.
      assert (HR3 : Forall P (states r3) /\ ((length (r_prev (v_load v)) <= archived_max)%nat -> (length (r_prev r3) <= archived_max)%nat)).
      { apply process_v3_cases in E3. destruct E3 as [[-> _]|[[_ ->]|(signed & otk & keys & _ & _ & _ & HK & _ & ->)]].
        - auto.
        - split; [apply prep_states; auto|apply prep_length].
        - split; [|cbn [r_prev set_cur]; apply prep_length].
          apply set_cur_states; [eapply GI1; exact HK|]. apply prep_states; auto. }
      destruct HR3 as [HR3 HL3].
      destruct o3; injection EP as _ <- <-; (repeat split; auto); intros r'' X; destruct X as [X|[]]; discriminate. }
    destruct (process C v (v_load v) m) as [[op rp] ef] eqn:EP. destruct (HPR _ _ _ eq_refl) as (HR & HS & HL).
    destruct op as [id|e|]; [|injection E as _ <- <- _; repeat split; auto; intros r'' X; destruct (HS _ X)
                              |injection E as _ <- <- _; repeat split; auto; intros r'' X; destruct (HS _ X)].
    destruct (decrypt_with_record C rp (pm_message m) g) as [[o1 r1] g1] eqn:ER.
    destruct (dwr_states P (pm_message m) (fun s g o s' g' HPs => Hd s (pm_message m) g o s' g' Hu HPs) _ _ _ _ _ HR ER) as (HA & HB & _).
    destruct o1 as [x|e|]; [|injection E as _ <- <- _; repeat split; auto; intros r'' X; destruct (HS _ X)
                              |injection E as _ <- <- _; repeat split; auto; intros r'' X; destruct (HS _ X)].
    destruct id as [oo|].
    + injection E as _ <- <- _. repeat split; auto. intros r'' X. apply in_app_iff in X.
      destruct X as [X|X]; [destruct (HS _ X)|]. destruct X as [X|X]; [congruence|].
      destruct (ou_empty oo); [destruct X|]. destruct X as [X|[]]. discriminate.
    + injection E as _ <- <- _. repeat split; auto. intros r'' X. apply in_app_iff in X.
      destruct X as [X|X]; [destruct (HS _ X)|]. destruct X as [X|[]]; congruence.
  - apply process_bundle_cases in E.
    destruct E as [(_ & -> & [-> | ->])|(signed & ob & ra & de & se & g1 & _ & _ & _ & HG1 & HG2 & HD & HS & _ & Er & ->)].
    + repeat split; auto. intros r'' [].
    + split; [apply prep_states; auto|]. split; [intros r'' []|apply prep_length].
    + split; [|split].
      * rewrite Er. apply set_cur_states; [eapply GI2; eassumption|]. apply prep_states; auto.
      * intros r'' [X|[X|[]]]; [congruence|discriminate].
      * rewrite Er. cbn [r_prev set_cur]. apply prep_length.
Qed.

Lemma prep_cur : forall (P : state -> Prop) r, P new_state -> P (r_cur r) -> P (r_cur (prep_record r)).
Proof. intros P r Hn Hc. unfold prep_record. destruct (r_fresh r); [exact Hc|exact Hn]. Qed.

(** Invariants of every reachable record. *)
Theorem reachable_states : forall P, state_inv P -> (forall s, P s -> good_init P s) ->
  forall r, reachable C Q r -> Forall P (states r) /\ (length (r_prev r) <= archived_max)%nat.
Proof.
  intros P HI HG r H. induction H as [|v r' es Hr IH Ho|v r' es r'' Hr IH Ho Hi|r r' Hr IH Hp].
  - split; [repeat constructor; apply (inv_new _ HI)|cbn; unfold archived_max; lia].
  - destruct IH as [HF HL]. destruct (op_keeps P HI v r' es Ho) as (A & B & D); auto.
    apply HG. inversion HF. apply prep_cur; auto. apply (inv_new _ HI).
  - destruct IH as [HF HL]. destruct (op_keeps P HI v r' es Ho) as (A & B & D); auto.
    + apply HG. inversion HF. apply prep_cur; auto. apply (inv_new _ HI).
    + rewrite (B _ Hi). auto.
  - apply persist_iff in Hp. destruct Hp as (_ & _ & ->). exact IH.
Qed.

(** Invariants of every record in a serializing store: only a new state is ever initialised. *)
Theorem stored_states : forall P, state_inv P -> good_init P new_state ->
  forall r, stored C Q r -> Forall P (states r) /\ (length (r_prev r) <= archived_max)%nat /\
    (r_fresh r = true -> r = new_record).
Proof.
  intros P HI HG r H. induction H as [|v r' es r'' r3 Hr IH Ho Hi Hp].
  - split; [repeat constructor; apply (inv_new _ HI)|]. split; [cbn; unfold archived_max; lia|reflexivity].
  - destruct IH as (HF & HL & HN).
    destruct (op_keeps P HI v r' es Ho) as (A & B & D); auto.
    { unfold prep_record. destruct (r_fresh (v_load v)) eqn:EF; [rewrite (HN eq_refl); exact HG|exact HG]. }
    apply persist_iff in Hp. destruct Hp as (_ & _ & ->). rewrite (B _ Hi).
    split; [exact A|]. split; [apply D; exact HL|]. cbn. discriminate.
Qed.
End H.
