(** AttackProofs.v: conversations with injected packets (C83). *)
From Verif Require Import Base Labels Crypto Bytehelper Ecc Cbc Wire Itoa Keys X3dh Messages SessionState SessionRecord
  SessionBuilder SessionCipher Address World CryptoProofs SessionProofs SerialProofs SessionSpec
  OpsProofs GroupSpec GroupProofs ConvSpec ConvProofs ConvProofs2 ConvProofs3 ThreadSpec CutSpec CutProofs WireGrammarSpec SessionCallSpec AttackSpec.
From Coq Require Import Lia ZifyBool ZifyN ZifyNat.

Section Writes.
Context (C : crypto).

(** A packet for which no session is stored gives no plaintext and at most saves an identity key. *)
Lemma not_taken : forall a k g w o w', receive C a k g w = (o, w') -> takes C a k g w = false -> only_saved w w' /\ forall q, o <> Ok q.
Proof.
  intros a k g w o w' H HT. unfold takes, run_call in HT. unfold receive in H. destruct k as [b|b].
  - destruct (sig_from_bytes b) as [m|e|]; [|injection H as <- <-; split; [apply only_saved_refl|discriminate]|injection H as <- <-; split; [apply only_saved_refl|discriminate]].
    unfold w_decrypt in H. destruct (decrypt_and_get_key C (view_of w a) m g) as [[[o1 r1] es] g1] eqn:E. cbn [snd] in HT.
    destruct (commit a es w) as [w1 ok] eqn:EC. injection H as <- <-.
    unfold decrypt_and_get_key in E. destruct (negb _).
    { injection E as <- _ <- _. cbn [commit] in EC. injection EC as <- <-. cbn. split; [apply only_saved_refl|discriminate]. }
    destruct (decrypt_with_record C (v_load (view_of w a)) m g) as [[[x|e|] r'] g2].
    + destruct (s_remote_id (r_cur r')) as [rid|]; [injection E as _ _ <- _; discriminate HT|].
      injection E as <- _ <- _. cbn [commit] in EC. injection EC as <- <-. cbn. split; [apply only_saved_refl|discriminate].
    + injection E as <- _ <- _. cbn [commit] in EC. injection EC as <- <-. cbn. split; [apply only_saved_refl|discriminate].
    + injection E as <- _ <- _. cbn [commit] in EC. injection EC as <- <-. cbn. split; [apply only_saved_refl|discriminate].
  - destruct (pk_from_bytes b) as [m|e|]; [|injection H as <- <-; split; [apply only_saved_refl|discriminate]|injection H as <- <-; split; [apply only_saved_refl|discriminate]].
    unfold w_decrypt_message in H. destruct (decrypt_message C (view_of w a) m g) as [[[o1 r1] es] g1] eqn:E. cbn [snd] in HT.
    destruct (commit a es w) as [w1 ok] eqn:EC. injection H as <- <-.
    unfold decrypt_message in E. destruct (process C (view_of w a) (v_load (view_of w a)) m) as [[op rp] ef] eqn:EP.
    assert (HEF : ef = [] \/ exists id, ef = [SaveIdentity id]).
    { unfold process in EP. destruct (negb _); [injection EP as _ _ <-; left; reflexivity|].
      destruct (process_v3 C (view_of w a) (v_load (view_of w a)) m) as [[id|e|] r']; injection EP as _ _ <-; [right; eexists; reflexivity|left; reflexivity|left; reflexivity]. }
    assert (KEEP : es = ef -> only_saved w w1 /\ ok = true).
    { intros ->. destruct HEF as [->|(id & ->)]; cbn [commit apply_effect] in EC.
      - injection EC as <- <-. split; [apply only_saved_refl|reflexivity].
      - assert (A : w1 = fst (commit a [SaveIdentity id] w)) by (cbn [commit apply_effect]; injection EC as <- _; reflexivity). rewrite A.
        split; [apply saved_only|]. injection EC as _ <-. reflexivity. }
    assert (STORE : forall r rest, es = ef ++ StoreSession r :: rest -> False).
    { intros r rest ->. rewrite existsb_app in HT. cbn [existsb is_store] in HT. rewrite Bool.orb_true_r in HT. discriminate HT. }
    destruct op as [oid|e|].
    + destruct (decrypt_with_record C rp (pm_message m) g) as [[[x|e|] r2] g2].
      * destruct oid as [o2|]; [exfalso|exfalso].
        -- injection E as _ _ E _. refine (STORE r2 _ _). rewrite <- E. cbn [app]. reflexivity.
        -- injection E as _ _ E _. refine (STORE r2 _ _). rewrite <- E. cbn [app]. reflexivity.
      * injection E as <- _ E _. destruct (KEEP (eq_sym E)) as [K ->]. split; [exact K|discriminate].
      * injection E as <- _ E _. destruct (KEEP (eq_sym E)) as [K ->]. split; [exact K|discriminate].
    + injection E as <- _ E _. destruct (KEEP (eq_sym E)) as [K ->]. split; [exact K|discriminate].
    + injection E as <- _ E _. destruct (KEEP (eq_sym E)) as [K ->]. split; [exact K|discriminate].
Qed.

(** [arun] without injections is [xrun]. *)
Lemma arun_real_xrun : forall addr w wire x rest,
  match arun_real C addr w wire x with
  | Some (w', wire', out) => xrun C addr w wire (x :: rest) = out ++ xrun C addr w' wire' rest
  | None => exists p, xrun C addr w wire (x :: rest) = [(p, O, Returned Panic)]
  end.
Proof.
  intros addr w wire x rest. destruct x as [[p pt|p j g]|[p pt|p j g] n]; cbn [arun_real xrun].
  - destruct (has_session _ _); [|reflexivity]. destruct (w_encrypt _ _ _ _) as [[ct|e|] w']; [|eexists; reflexivity|eexists; reflexivity].
    destruct (pack ct); [reflexivity|eexists; reflexivity|eexists; reflexivity].
  - destruct (nth_error _ _); [|reflexivity]. destruct (receive _ _ _ _ _). reflexivity.
  - destruct (has_session _ _); reflexivity.
  - destruct (nth_error _ _); reflexivity.
Qed.
End Writes.

Section Sim.
Context (C : crypto) (L : crypto_laws C).
Context (addr : party -> address) (priv : party -> arr32) (base signed otk : arr32) (i sid : N).
Context (Hi : (i < 2 ^ 32)%N) (Hsid : (sid < 2 ^ 32)%N) (Him : i <> medium_max).
Notation inv := (ginv C addr priv base signed otk i sid).

Lemma genuine_app : forall l1 l2, genuine (map Genuine l1 ++ l2) = l1 ++ genuine l2.
Proof. induction l1 as [|y l1 IH]; intros l2; [reflexivity|]. cbn. unfold genuine in IH. rewrite IH. reflexivity. Qed.
Lemma none_taken_app : forall l1 l2, none_taken (map Genuine l1 ++ l2) -> none_taken l2.
Proof. intros l1 l2 H. unfold none_taken in *. apply Forall_app in H. exact (proj2 H). Qed.

Theorem attack_simulation : forall evs E v sent w wire, inv E v sent w wire (map event_of (reals evs)) ->
  none_taken (arun C addr w wire evs) -> xconforms (genuine (arun C addr w wire evs)) (xspec v sent (reals evs)).
Proof.
  induction evs as [|ev evs IH]; intros E v sent w wire HI HT; [constructor|]. destruct ev as [x|p k g].
  2:{ cbn [arun reals flat_map real_of app] in *. destruct (receive C (addr (other p)) k g (w p)) as [o w'] eqn:ER. inversion HT as [|y l T1 T2]; subst.
      destruct (not_taken C _ _ _ _ _ _ ER T1) as [HO _]. unfold genuine. cbn [flat_map app]. apply (IH E); [apply inv_saved; assumption|exact T2]. }
  change (reals (Real x :: evs)) with (x :: reals evs) in *. cbn [map event_of] in HI. cbn [arun] in *.
  destruct x as [[p pt|p j g]|[p pt|p j g] n]; cbn [event_of] in HI; cbn [arun_real xspec] in *.
  - destruct (pv_epoch (v p)) as [|z] eqn:EV.
    + destruct (send_nothing C addr priv base signed otk i sid Hi Hsid Him _ _ _ _ _ _ _ _ HI EV) as [EH HI']. rewrite EH in *. exact (IH _ _ _ _ _ HI' HT).
    + destruct (send_step C L addr priv base signed otk i sid Hi Hsid Him _ _ _ _ _ _ _ _ _ HI EV) as (ct & k & w' & E1 & E2 & E3 & _ & _ & HI').
      rewrite E1, E2, E3 in *. rewrite EV in HI'. exact (IH _ _ _ _ _ HI' HT).
  - assert (HND : inv E v sent w wire (map event_of (reals evs))) by (eapply deliver_nothing; eassumption).
    pose proof (nth_rel _ _ _ _ _ j (g_wire _ _ _ _ _ _ _ _ _ _ _ _ _ _ HI (other p))) as HJ.
    destruct (nth_error (wire (other p)) j) as [k|] eqn:EK; destruct (nth_error (sent (other p)) j) as [[[e c] pt]|] eqn:ES; [|destruct HJ|destruct HJ|].
    2:{ exact (IH _ _ _ _ _ HND HT). }
    destruct (deliver_step C L addr priv base signed otk i sid Hi Hsid Him _ _ _ _ _ _ _ _ _ _ _ _ _ HI EK ES) as (o & w' & E1 & _ & HO). rewrite E1 in *.
    rewrite genuine_app. apply none_taken_app in HT. cbn [app]. destruct (cdeliver (v p) e c pt) as [[q| |] v'].
    + destruct HO as (-> & _ & F & _ & HI'). apply XC_plain. exact (IH _ _ _ _ _ HI' HT).
    + destruct HO as ((er & ->) & _ & HI'). apply XC_refused. exact (IH _ _ _ _ _ HI' HT).
    + destruct HO as [(q & ->)|((er & ->) & _ & HI')]; [apply XC_collision|]. apply XC_forgotten. exact (IH _ _ _ _ _ HI' HT).
  - destruct (pv_epoch (v p)) as [|z] eqn:EV.
    + destruct (send_nothing C addr priv base signed otk i sid Hi Hsid Him _ _ _ _ _ _ _ _ HI EV) as [EH HI']. rewrite EH in *. exact (IH _ _ _ _ _ HI' HT).
    + destruct (send_step C L addr priv base signed otk i sid Hi Hsid Him _ _ _ _ _ _ _ _ _ HI EV) as (ct & k & w' & E1 & HE & _ & _ & _ & HI').
      rewrite E1 in *. pose proof (cut_send C _ _ _ _ _ n HE) as HC. destruct n as [|[|n]].
      * apply (IH E); [|exact HT]. apply inv_saved; [eapply inv_unsent; [exact Hi|exact Hsid|exact Him|exact HI]|exact HC].
      * apply (IH E); [|exact HT]. apply inv_saved; [eapply inv_unsent; [exact Hi|exact Hsid|exact Him|exact HI]|exact HC].
      * rewrite HC in *. rewrite EV in HI'. apply (IH E); [|exact HT]. eapply inv_lost; [exact HI'|]. exact (g_wire _ _ _ _ _ _ _ _ _ _ _ _ _ _ HI p).
  - assert (HND : inv E v sent w wire (map event_of (reals evs))) by (eapply deliver_nothing; eassumption).
    pose proof (nth_rel _ _ _ _ _ j (g_wire _ _ _ _ _ _ _ _ _ _ _ _ _ _ HI (other p))) as HJ.
    destruct (nth_error (wire (other p)) j) as [k|] eqn:EK; destruct (nth_error (sent (other p)) j) as [[[e c] pt]|] eqn:ES; [|destruct HJ|destruct HJ|].
    2:{ exact (IH _ _ _ _ _ HND HT). }
    rewrite genuine_app. apply none_taken_app in HT. cbn [app].
    destruct (deliver_step C L addr priv base signed otk i sid Hi Hsid Him _ _ _ _ _ _ _ _ _ _ _ _ _ HI EK ES) as (o & w' & HR & _ & HO).
    destruct (cdeliver (v p) e c pt) as [[q| |] v'] eqn:ECD.
    + destruct HO as (-> & _ & F & _ & HI'). pose proof (cut_ok C _ _ _ _ _ _ n HR) as HC. destruct n as [|[|n]]; destruct HC as [HB HC]; rewrite HB in *.
      * apply XC_nothing. apply (IH E); [|exact HT]. apply inv_saved; assumption.
      * apply XC_nothing. apply (IH E); [|exact HT]. apply inv_saved; assumption.
      * apply XC_gone. apply (IH (E ++ F)); [|exact HT]. eapply inv_swap; [exact HI'|exact HC|]. rewrite upd_same. eapply plain_view. exact ECD.
    + destruct HO as ((er & ->) & _ & HI'). destruct (cut_err C _ _ _ _ _ _ n HR) as [HB HC]. rewrite HB in *.
      destruct n as [|[|n]]; apply XC_nothing; (apply (IH E); [|exact HT]); apply inv_saved; assumption.
    + destruct HO as [(q & ->)|((er & ->) & _ & HI')].
      * pose proof (cut_ok C _ _ _ _ _ _ n HR) as HC. destruct n as [|[|n]]; destruct HC as [HB HC]; rewrite HB in *.
        -- apply XC_nothing. apply (IH E); [|exact HT]. apply inv_saved; assumption.
        -- apply XC_nothing. apply (IH E); [|exact HT]. apply inv_saved; assumption.
        -- apply XC_collision_unseen.
      * destruct (cut_err C _ _ _ _ _ _ n HR) as [HB HC]. rewrite HB in *. destruct n as [|[|n]]; [apply XC_nothing|apply XC_nothing|apply XC_strange]; (apply (IH E); [|exact HT]); apply inv_saved; assumption.
Qed.
End Sim.

Lemma none_taken_read : forall C addr evs w wire, none_taken (arun C addr w wire evs) -> none_read (arun C addr w wire evs).
Proof.
  intros C addr. induction evs as [|ev evs IH]; intros w wire H; [constructor|]. destruct ev as [x|p k g]; cbn [arun] in *.
  - destruct (arun_real C addr w wire x) as [[[w' wire'] out]|]; [|repeat constructor]. apply none_taken_app in H. unfold none_read. apply Forall_app. split; [|apply IH; exact H].
    apply Forall_forall. intros y Hy. apply in_map_iff in Hy. destruct Hy as (z & <- & _). exact I.
  - destruct (receive C (addr (other p)) k g (w p)) as [o w'] eqn:ER. inversion H as [|y l T1 T2]; subst. constructor; [|apply IH; exact T2].
    destruct o as [q|e|]; [|exact I|exact I]. exact (proj2 (not_taken C _ _ _ _ _ _ ER T1) q eq_refl).
Qed.

Lemma any_attack : forall C, crypto_laws C -> forall addr wa wb b i sid signed otk g g1 g2 eph ratchet wa1 g' evs,
  strangers C addr wa wb b i sid signed otk -> generate_key_pair C g = (Ok eph, g1) -> generate_key_pair C g1 = (Ok ratchet, g2) ->
  w_process_bundle C (addr Bob) b g wa = (Ok tt, wa1, g') -> fair C signed ratchet (map event_of (reals evs)) ->
  none_taken (arun C addr (both wa1 wb) (fun _ => []) evs) ->
  xconforms (genuine (arun C addr (both wa1 wb) (fun _ => []) evs)) (xspec start_view (fun _ => []) (reals evs)).
Proof.
  intros C L addr wa wb b i sid signed otk g g1 g2 eph ratchet wa1 g' evs H HG1 HG2 HP HF HT.
  destruct (start_of_strangers C L _ _ _ _ _ _ _ _ _ _ _ _ _ _ _ _ H HG1 HG2 HP HF) as (E & k1 & k2 & _ & _ & _ & HI). destruct H.
  eapply (attack_simulation C L); [exact st_i|exact st_sid|exact st_i_max|exact HI|exact HT].
Qed.

(** * What a taken packet carries *)

Lemma fate_authentic : forall C r m g o r' g', record_fate C r m g o r' g' -> (exists x, o = Ok x) \/ r' <> None -> exists key you me, authentic C key you me m.
Proof.
  assert (A : forall C s m g x s' g', attempt C s m g (Ok x) s' g' -> exists key you me, authentic C key you me m) by (intros C s m g x s' g' H; inversion H; subst; eauto).
  intros C r m g o r' g' H HC. destruct H; try (destruct HC as [(x0 & D)|D]; [discriminate D|exfalso; apply D; reflexivity]); eapply A; eassumption.
Qed.

Lemma packet_authentic : forall C w a g k o d, packet_fate C w a g k o d -> (exists q, o = Ok q) \/ new_session d <> None ->
  exists m key you me, carries k m /\ authentic C key you me m.
Proof.
  intros C w a g k o d H HC.
  assert (NONE : forall e : res bytes, (forall q, e <> Ok q) -> ~ ((exists q, e = Ok q) \/ new_session no_change <> None)).
  { intros e He [(q & D)|D]; [exact (He q D)|apply D; reflexivity]. }
  destruct H as [b e|b|b m o d g' Hb H|b e|b|b m o d g' Hb H].
  - exfalso. revert HC. apply NONE. discriminate.
  - exfalso. revert HC. apply NONE. discriminate.
  - exists m. destruct H as [Hs|r o g' Hs HF|r o r' you g' Hs HF Hy].
    + exfalso. revert HC. apply NONE. discriminate.
    + destruct (fate_authentic _ _ _ _ _ _ _ HF) as (key & yo & me & HA); [|exists key, yo, me; split; [exact Hb|exact HA]].
      left. destruct HC as [(q & D)|D]; [|exfalso; apply D; reflexivity]. destruct o as [x|e|]; [eauto|discriminate D|discriminate D].
    + destruct (fate_authentic _ _ _ _ _ _ _ HF) as (key & yo & me & HA); [right; discriminate|exists key, yo, me; split; [exact Hb|exact HA]].
  - exfalso. revert HC. apply NONE. discriminate.
  - exfalso. revert HC. apply NONE. discriminate.
  - exists (pm_message m). assert (HB : carries (PPreKey b) (pm_message m)) by (exists m; auto).
    assert (K : forall r o r' g', record_fate C r (pm_message m) g o r' g' -> (exists x, o = Ok x) \/ r' <> None ->
      exists key you me, carries (PPreKey b) (pm_message m) /\ authentic C key you me (pm_message m)).
    { intros r0 o0 r0' g0 HF HX. destruct (fate_authentic _ _ _ _ _ _ _ HF HX) as (key & yo & me & HA). eauto. }
    assert (PL : forall o : res (bytes * msg_keys), (exists q, plain o = Ok q) -> exists x, o = Ok x) by (intros [x|e|] (q & D); [eauto|discriminate D|discriminate D]).
    destruct H; try (exfalso; revert HC; apply NONE; discriminate); (eapply K; [eassumption|]).
    + left. apply PL. destruct HC as [HC|D]; [exact HC|exfalso; apply D; reflexivity].
    + right. discriminate.
    + left. apply PL. destruct HC as [HC|D]; [exact HC|exfalso; apply D; reflexivity].
    + right. discriminate.
    + right. discriminate.
Qed.
