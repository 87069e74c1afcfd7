(** PropertiesFs.v: forward secrecy and healing of a session, in the symbolic reading of the key derivations (C51, C54).
    The terms, the attacker and the readings are in FsSpec.v. *)
From Verif Require Import Base Labels Crypto Bytehelper Ecc Cbc Keys X3dh Messages SessionState SessionRecord SessionBuilder SessionCipher
  Address World Toy SessionProofs HistoryProofs SessionSpec ToySession ToyArchive GroupSpec FsSpec FsProofs FsRefine.
From Coq Require Import Lia List.
Import ListNotations.
Local Open Scope list_scope.

(** ** C51: after any sequence of decrypt attempts, encryptions, saves and loads of a session that was just set up, the keys it
    holds ([held y], read from the state by [reads]) together with every other message key it has used and every
    Diffie-Hellman value ([G] arbitrary) do not allow deriving a message key it has used. The derivation terms are tied to the
    bytes: [reads] and [derived_by] say which bytes each term stands for, [yrun] that they were made by the ratchet's steps.
    No derivation is used twice. *)
Theorem C51_forward_secrecy : forall C, crypto_laws C -> forall s0, just_set_up s0 ->
  exists init y0, ystart y0 /\ reads C init y0 s0 /\
  forall used s, life C s0 used s ->
  exists attempted ts y, yrun y0 attempted y /\ reads C init y s /\ derived_by C init ts used /\ incl ts attempted /\ NoDup ts /\
    forall t others G, In t ts -> incl others attempted -> ~ In t others -> ~ derivable G (held y ++ others) t.
Proof.
  intros C LC s0 HS. destruct (start_reading C s0 HS) as (init & y0 & Y0 & R0). exists init, y0. split; [exact Y0|]. split; [exact R0|].
  intros used s HL. destruct (life_refines C LC init s0 used s y0 HL R0 (ystart_small y0 Y0)) as (u & ts & y & H1 & H2 & _ & H3 & H4 & H5).
  exists u, ts, y. split; [exact H1|]. split; [exact H2|]. split; [exact H3|]. split; [exact H4|]. split; [apply H5; eapply used_once; eassumption|].
  intros t others G Ht HO HN. eapply forward_secrecy; [exact Y0|exact H1|apply H4; exact Ht|exact HO|exact HN].
Qed.

(** Sessions set up by ProcessBundle or by an incoming pre-key message are such starting points, when the record is new or was
    loaded from a serializing store. *)
Theorem C51_sessions_start_so : forall C v,
  (v_load v = new_record \/ r_fresh (v_load v) = false) ->
  (forall b g r' es g', process_bundle C v b g = (Ok tt, r', es, g') -> just_set_up (r_cur r')) /\
  (forall m o r' es, process C v (v_load v) m = (Ok o, r', es) ->
     has_session_state (pk_version (pm_struct m)) (ser_pub (pm_base m)) (v_load v) = false -> just_set_up (r_cur r')).
Proof.
  intros C v HV. assert (HP : r_cur (prep_record (v_load v)) = new_state).
  { unfold prep_record. destruct HV as [-> | ->]; reflexivity. }
  split.
  - intros b g r' es g' H. apply process_bundle_cases in H. destruct H as [(F & _)|(signed & ob & ra & de & se & g1 & _ & _ & _ & _ & _ & _ & _ & _ & -> & _)]; [exfalso; exact (F tt eq_refl)|].
    cbn [r_cur set_cur]. rewrite HP. unfold init_send. constructor; cbn; [discriminate|eexists; split; reflexivity|repeat constructor|lia].
  - intros m o r' es H HN. unfold process in H. destruct (v_trusted v (pm_identity m)); [|discriminate]. cbn [negb] in H.
    destruct (process_v3 C v (v_load v) m) as [o' r''] eqn:E. apply process_v3_cases in E. destruct E as [(-> & [F|(-> & E)])|[(F & ->)|(signed & otk & keys & _ & _ & _ & _ & -> & ->)]].
    + destruct o' as [x| |]; [exfalso; exact (F x eq_refl)|discriminate|discriminate].
    + congruence.
    + destruct o' as [x| |]; [exfalso; exact (F x eq_refl)|discriminate|discriminate].
    + injection H as _ <- _. cbn [r_cur set_cur]. rewrite HP. unfold init_recv. constructor; cbn; [discriminate|eexists; split; reflexivity|constructor|lia].
Qed.

(** For computed witnesses: only the result is normalised, not the stores. *)
Lemma run_ok : forall A W G (f : A * W * G) x, fst (fst f) = x -> f = (x, snd (fst f), snd f).
Proof. intros A W G [[a w] g] x <-. reflexivity. Qed.
Ltac run := eapply run_ok; vm_compute; reflexivity.
Definition no_keys : msg_keys := {| mk_cipher := []; mk_mac := []; mk_iv := []; mk_index := 0 |}.
Definition pair_of {W G} (x : res (bytes * msg_keys) * W * G) : bytes * msg_keys := match fst (fst x) with Ok p => p | _ => ([], no_keys) end.
Definition fs_rec : record := Eval vm_compute in rec_of bx4 alice_addr.
Definition fs_chain0 : chain := fresh_chain (zero_arr 32) {| ck_key := []; ck_index := 0 |}.

(** A record as a whole does not have the property: it can hold a message key it has used, because promoting an archived session
    leaves a copy of that session's old keys in the archive. *)
Theorem C51_record_refuted : exists C, crypto_laws C /\ exists w a late g0 x0 w0 g0' m g1 pt mk w1 g1',
  w_decrypt_message C a late g0 w = (Ok x0, w0, g0') /\ w_decrypt_message C a m g1 w0 = (Ok (pt, mk), w1, g1') /\
  exists r s c, w_sessions w1 a = Some r /\ In s (r_prev r) /\ In c (s_recv s) /\ message_keys C (ch_key c) = mk.
Proof.
  exists toy. split; [exact toy_laws|]. exists bx2, alice_addr, m2, [tseed x43; tseed x43; tseed x43; tseed x43], (pair_of (recv m2 x43 bx2)).
  do 2 eexists. exists m3, [tseed x45; tseed x45; tseed x45; tseed x45], (fst (pair_of (recv m3 x45 bx3))), (snd (pair_of (recv m3 x45 bx3))). do 2 eexists.
  split; [run|]. split; [run|].
  exists fs_rec, (nth 1 (r_prev fs_rec) new_state), (nth 0 (s_recv (nth 1 (r_prev fs_rec) new_state)) fs_chain0).
  split; [vm_compute; reflexivity|]. split; [right; left; reflexivity|]. split; [left; reflexivity|]. vm_compute. reflexivity.
Qed.

(** Bob's session in the toy conversation: set up by Alice's first message, then a decrypted message, a reply and a second
    decrypted message; three keys used. *)
Definition fs_start : record := Eval vm_compute in snd (fst (process toy (view_of bob0 alice_addr) new_record msg1)).
Definition fs_d1 := Eval vm_compute in decrypt_with_state toy (r_cur fs_start) (pm_message msg1) [tseed x21].
Definition fs_s1 : state := Eval vm_compute in snd (fst fs_d1).
Definition fs_view (s : state) : view := with_record (view_of bob0 alice_addr) (set_cur s new_record).
Definition fs_e := Eval vm_compute in let '(o, r, _) := encrypt toy (fs_view fs_s1) [x68; x69] in (o, r).
Definition fs_s2 : state := Eval vm_compute in r_cur (snd fs_e).
Definition fs_t2 : res state_struct := Eval vm_compute in state_structure fs_s2.
Definition fs_d3 := Eval vm_compute in decrypt_with_state toy fs_s2 msg3 [tseed x22].
Definition fs_s3 : state := Eval vm_compute in snd (fst fs_d3).
Definition fs_sc1 : chain := Eval vm_compute in match s_sender fs_s1 with Some c => c | None => fs_chain0 end.
Definition used_of (o : res (bytes * msg_keys)) : list msg_keys := match o with Ok (_, mk) => [mk] | _ => [] end.

Lemma fs_enc : exists es, encrypt toy (fs_view fs_s1) [x68; x69] = (fst fs_e, snd fs_e, es).
Proof. eexists. vm_compute. reflexivity. Qed.
Lemma fs_life1 : life toy fs_s1 [message_keys toy (ch_key fs_sc1)] fs_s2.
Proof.
  destruct fs_enc as (es & E). destruct (fst fs_e) as [ct| |] eqn:EF; [|vm_compute in EF; discriminate|vm_compute in EF; discriminate].
  change fs_s2 with (r_cur (snd fs_e)). change [message_keys toy (ch_key fs_sc1)] with ([] ++ [message_keys toy (ch_key fs_sc1)]).
  eapply (L_encrypt toy fs_s1 [] (fs_view fs_s1) [x68; x69] ct (snd fs_e) es fs_sc1); [apply L_start|vm_compute; reflexivity|exact E].
Qed.
Lemma life_trans : forall C s0 u s v s', life C s0 u s -> life C s v s' -> life C s0 (u ++ v) s'.
Proof.
  intros C s0 u s v s' H H'. induction H' as [|used s1 m g o s2 g' H' IH Hm HD|used v0 pt ct r' es sc H' IH HS HE|used s1 t s2 H' IH H1 H2].
  - rewrite app_nil_r. exact H.
  - rewrite app_assoc. eapply L_decrypt; eassumption.
  - rewrite app_assoc. eapply L_encrypt; eassumption.
  - eapply L_save; eassumption.
Qed.

Example C51_example : just_set_up (r_cur fs_start) /\ exists used, life toy (r_cur fs_start) used fs_s3 /\ length used = 3%nat.
Proof.
  split; [constructor; vm_compute; [discriminate|eexists; split; reflexivity|constructor|lia]|].
  exists (used_of (fst (fst fs_d1)) ++ [message_keys toy (ch_key fs_sc1)] ++ used_of (fst (fst fs_d3))). split; [|vm_compute; reflexivity].
  eapply life_trans; [|eapply life_trans; [exact fs_life1|]].
  - apply (L_decrypt toy (r_cur fs_start) [] (r_cur fs_start) (pm_message msg1) [tseed x21] (fst (fst fs_d1)) fs_s1 (snd fs_d1)); [apply L_start|vm_compute; reflexivity|vm_compute; reflexivity].
  - assert (S1 : life toy fs_s2 [] fs_s2).
    { destruct fs_t2 as [t| |] eqn:ET; [|vm_compute in ET; discriminate|vm_compute in ET; discriminate]. eapply L_save; [apply L_start|exact ET|]. apply SerialProofs.state_roundtrip. exact ET. }
    apply (L_decrypt toy fs_s2 [] fs_s2 msg3 [tseed x22] (fst (fst fs_d3)) fs_s3 (snd fs_d3)); [exact S1|vm_compute; reflexivity|vm_compute; reflexivity].
Qed.

(** ** C54: healing. At state [s] an attacker learns every key the session holds and every message key it ever used. Then a message
    with a new ratchet key makes the session generate a key pair. As long as the attacker does not learn the Diffie-Hellman
    value of that new pair with the message's ratchet key (every other one may be known, [G]), the root key and the sending
    chain key stay out of reach from then on, and so does every later message key except those of receiving chains the session had at that
    moment: the older ones and the one made from the message's key with the old, leaked pair. *)
Theorem C54_healing : forall C, crypto_laws C -> forall s0, just_set_up s0 ->
  exists init y0, ystart y0 /\ reads C init y0 s0 /\
  forall used s m g o s1 g1 ours used2 s2,
  life C s0 used s ->
  u32_msg m -> decrypt_with_state C s m g = (o, s1, g1) -> receiver_chain (sm_ratchet m) s = None -> s1 <> s ->
  fst (generate_key_pair C g) = Ok ours -> life C s1 used2 s2 ->
  exists u y dh1 priv, let y1 := y_ratcheted y (sm_ratchet m) dh1 (abytes (shared_secret C (sm_ratchet m) priv)) in
  kp_priv ours = Some priv /\ yrun y0 u y /\ reads C init y s /\
  exists w ts ts2 y2, yrun y1 w y2 /\ reads C init y2 s2 /\ derived_by C init ts2 used2 /\ incl ts2 w /\
    derived_by C init ts (match o with Ok (_, mk) => [mk] | _ => [] end) /\ incl ts w /\
  forall G, ~ G (abytes (shared_secret C (sm_ratchet m) priv)) ->
    let known := derivable G (held y ++ u) in
    ~ known (y_root y2) /\ ~ known (y_send y2) /\
    (forall c, In c (y_recv y2) -> known (yc_key c) -> exists c0 n, In c0 (y_recv y1) /\ yc_key c = steps n (yc_key c0)) /\
    (forall t, In t w -> known t -> of_chains y1 t).
Proof.
  intros C LC s0 HS. destruct (start_reading C s0 HS) as (init & y0 & Y0 & R0). exists init, y0. split; [exact Y0|]. split; [exact R0|].
  intros used s m g o s1 g1 ours used2 s2 HL Hm HD HN HX HG HL2.
  destruct (life_refines C LC init s0 used s y0 HL R0 (ystart_small y0 Y0)) as (u & ts0 & y & H1 & H2 & H3 & _).
  destruct (ratchet_attempt C LC init y s m g o s1 g1 ours H2 H3 Hm HD HN HX HG) as (dh1 & priv & w1 & ts & ya & K1 & K2 & K3 & K4 & K5 & K6).
  destruct (life_refines C LC init s1 used2 s2 ya HL2 K3 K4) as (w2 & ts2 & y2 & J1 & J2 & _ & J3 & J4 & _).
  exists u, y, dh1, priv. split; [exact K1|]. split; [exact H1|]. split; [exact H2|]. exists (w1 ++ w2), ts, ts2, y2.
  assert (W : yrun (y_ratcheted y (sm_ratchet m) dh1 (abytes (shared_secret C (sm_ratchet m) priv))) (w1 ++ w2) y2) by (eapply yrun_app; eassumption).
  split; [exact W|]. split; [exact J2|]. split; [exact J3|]. split; [apply incl_appr; exact J4|]. split; [exact K5|]. split; [apply incl_appl; exact K6|].
  intros G NG. exact (healing y0 u y _ dh1 _ _ y2 G Y0 H1 W NG).
Qed.

(** The hypotheses are met by Bob's first decryption: it is a ratchet step, and he goes on to send. *)
Example C54_example : exists o g1 ours, u32_msg (pm_message msg1) /\ decrypt_with_state toy (r_cur fs_start) (pm_message msg1) [tseed x21] = (o, fs_s1, g1) /\
  receiver_chain (sm_ratchet (pm_message msg1)) (r_cur fs_start) = None /\ fs_s1 <> r_cur fs_start /\ fst (generate_key_pair toy [tseed x21]) = Ok ours /\
  exists used2, life toy fs_s1 used2 fs_s2 /\ length used2 = 1%nat.
Proof.
  exists (fst (fst fs_d1)), (snd fs_d1). eexists. split; [vm_compute; reflexivity|]. split; [vm_compute; reflexivity|]. split; [vm_compute; reflexivity|].
  split; [intros E; apply (f_equal (fun s => length (s_recv s))) in E; vm_compute in E; discriminate|]. split; [vm_compute; reflexivity|].
  eexists. split; [exact fs_life1|reflexivity].
Qed.

Print Assumptions C51_forward_secrecy.
Print Assumptions C51_sessions_start_so.
Print Assumptions C51_record_refuted.
Print Assumptions C54_healing.
