(** SessionCallProofs2.v: proofs for C80, the calls against the stores. *)
From Verif Require Import Base Labels Crypto Bytehelper Ecc Cbc Wire Itoa Keys X3dh Messages SessionState SessionRecord SessionBuilder SessionCipher Address World
  WireFormatSpec WireGrammarSpec BodySpec GroupSpec ConvSpec CrashSpec SessionCallSpec
  CryptoProofs WireProofs CodecProofs CodecProofs2 SessionProofs SerialProofs SessionSpec HistoryProofs InvariantProofs ReplayProofs OpsProofs KdfProofs GroupProofs GroupWireProofs
  BodyProofs WireGrammarProofs WireFateProofs ConvProofs ReopenSpec ReopenProofs ThreadProofs CrashProofs SessionCallProofs.
From Coq Require Import NArith ZArith List Lia ZifyBool ZifyN ZifyNat.
Import ListNotations.

Section P.
Context (C : crypto) (L : crypto_laws C).
Let HL := law_hmac_len C L.

(** * The stores after a history *)
Definition sound_world (w : world) : Prop := forall a r, w_sessions w a = Some r -> fine r /\ r_fresh r = false.

Lemma lived_sound : forall w, lived C w -> sound_world w.
Proof.
  intros w H a r E. pose proof (lived_owned C w H) as HO. pose proof (owned_ready C L w a r HO E) as HR. destruct HO as [_ HO]. destruct (HO a r E) as [HS HF].
  split; [|exact HF]. pose proof (reachable_bounded C r (stored_reachable C r HS)) as [B1 B2]. split; [|exact B2].
  apply Forall_forall. intros s Hs. rewrite Forall_forall in HR, B1. split; [exact (HR s Hs)|exact (B1 s Hs)].
Qed.
Lemma lived_private : forall w, lived C w -> private_halves w.
Proof. intros w H. exact (proj1 (lived_owned C w H)). Qed.

Lemma fine_ready : forall r, fine r -> Forall ready (states r).
Proof. intros r [H _]. eapply Forall_impl; [|exact H]. intros s Hs. exact (proj1 Hs). Qed.
Lemma fine_persist : forall r, fine r -> persist r = Ok (unfresh r).
Proof. intros r H. apply ready_persist. apply fine_ready. exact H. Qed.
Lemma unfresh_fine : forall r, fine (unfresh r) -> fine r.
Proof. intros r H. exact H. Qed.

(** * Writes *)
Lemma upd_same : forall A (f : address -> option A) a x, upd_addr f a x a = x.
Proof. intros A f a x. unfold upd_addr. rewrite address_eqb_refl. reflexivity. Qed.
Lemma upd_other : forall A (f : address -> option A) a x b, b <> a -> upd_addr f a x b = f b.
Proof. intros A f a x b H. unfold upd_addr. rewrite address_eqb_neq; [reflexivity|]. intros E. exact (H (eq_sym E)). Qed.

Lemma applied_none : forall w a, applied w a no_change w.
Proof.
  intros w a. unfold applied. cbn [no_change new_session new_identity used_prekey]. split; [reflexivity|]. split; [reflexivity|]. split; [intros b _; split; reflexivity|].
  split; [intros i H; discriminate H|]. split; [reflexivity|]. repeat split.
Qed.
Lemma commit_id_session : forall w a k r, fine r -> exists w', commit a [SaveIdentity k; StoreSession r] w = (w', true) /\
  applied w a {| new_session := Some (unfresh r); new_identity := Some k; used_prekey := None |} w'.
Proof.
  intros w a k r HF. cbn [commit apply_effect]. rewrite (fine_persist r HF). eexists. split; [reflexivity|]. unfold applied. cbn [new_session new_identity used_prekey w_sessions w_saved w_prekeys w_signed w_self w_reg w_policy].
  rewrite !upd_same. split; [reflexivity|]. split; [reflexivity|]. split; [intros b Hb; rewrite !upd_other by exact Hb; split; reflexivity|].
  split; [intros i H; discriminate H|]. split; [reflexivity|]. repeat split.
Qed.
Lemma commit_session_id : forall w a k r, fine r -> exists w', commit a [StoreSession r; SaveIdentity k] w = (w', true) /\
  applied w a {| new_session := Some (unfresh r); new_identity := Some k; used_prekey := None |} w'.
Proof.
  intros w a k r HF. cbn [commit apply_effect]. rewrite (fine_persist r HF). eexists. split; [reflexivity|]. unfold applied. cbn [new_session new_identity used_prekey w_sessions w_saved w_prekeys w_signed w_self w_reg w_policy].
  rewrite !upd_same. split; [reflexivity|]. split; [reflexivity|]. split; [intros b Hb; rewrite !upd_other by exact Hb; split; reflexivity|].
  split; [intros i H; discriminate H|]. split; [reflexivity|]. repeat split.
Qed.
Lemma commit_id : forall w a k, exists w', commit a [SaveIdentity k] w = (w', true) /\ applied w a {| new_session := None; new_identity := Some k; used_prekey := None |} w'.
Proof.
  intros w a k. cbn [commit apply_effect]. eexists. split; [reflexivity|]. unfold applied. cbn [new_session new_identity used_prekey w_sessions w_saved w_prekeys w_signed w_self w_reg w_policy].
  rewrite !upd_same. split; [reflexivity|]. split; [reflexivity|]. split; [intros b Hb; rewrite !upd_other by exact Hb; split; reflexivity|].
  split; [intros i H; discriminate H|]. split; [reflexivity|]. repeat split.
Qed.
Lemma commit_removing : forall w a k r i, fine r -> exists w', commit a [SaveIdentity k; StoreSession r; RemovePreKey i] w = (w', true) /\
  applied w a {| new_session := Some (unfresh r); new_identity := Some k; used_prekey := Some i |} w'.
Proof.
  intros w a k r i HF. cbn [commit apply_effect]. rewrite (fine_persist r HF). eexists. split; [reflexivity|]. unfold applied. cbn [new_session new_identity used_prekey w_sessions w_saved w_prekeys w_signed w_self w_reg w_policy].
  rewrite !upd_same. split; [reflexivity|]. split; [reflexivity|]. split; [intros b Hb; rewrite !upd_other by exact Hb; split; reflexivity|].
  split; [intros j H; injection H as ->; unfold upd_id; rewrite N.eqb_refl; reflexivity|]. split; [|repeat split].
  intros j H. unfold upd_id. destruct (N.eqb_spec i j) as [->|E]; [destruct (H eq_refl)|reflexivity].
Qed.

(** * Decrypt *)
Lemma decrypt_sound : forall w a m g o d g', sound_world w -> message_object m -> decrypt_fate C w a m g o d g' ->
  exists w', w_decrypt C a m g w = (o, w', g') /\ applied w a d w'.
Proof.
  intros w a m g o d g' HW HO H. destruct H as [E|r o g' E F|r o r' you g' E F Y].
  - unfold w_decrypt, decrypt_and_get_key. cbn [view_of v_contains]. rewrite E. cbn [negb commit seal]. exists w. split; [reflexivity|apply applied_none].
  - destruct (HW a r E) as [HF _]. destruct (record_sound C L r m g o None g' HF HO F) as (r1 & E1 & E2). unfold w_decrypt, decrypt_and_get_key. cbn [view_of v_contains v_load]. rewrite E. cbn [negb]. rewrite E1.
    destruct o as [x|e|]; [discriminate E2| |]; cbn [commit seal]; exists w; (split; [reflexivity|apply applied_none]).
  - destruct (HW a r E) as [HF _]. destruct (record_sound C L r m g o (Some r') g' HF HO F) as (r1 & E1 & E2). pose proof (fine_fate C L r m g o r' g' HF HO F) as [HF' _].
    unfold w_decrypt, decrypt_and_get_key. cbn [view_of v_contains v_load]. rewrite E. cbn [negb]. rewrite E1.
    destruct o as [x|e|]; [|discriminate E2|discriminate E2]. cbn [kept] in E2. injection E2 as ->. cbn [unfresh r_cur] in Y. rewrite Y.
    destruct (commit_id_session w a you r1 (unfresh_fine r1 HF')) as (w' & EC & HA). rewrite EC. cbn [seal]. exists w'. split; [reflexivity|exact HA].
Qed.
Lemma decrypt_exists : forall w a m g, sound_world w -> message_object m -> exists o d g', decrypt_fate C w a m g o d g'.
Proof.
  intros w a m g HW HO. destruct (w_sessions w a) as [r|] eqn:E; [|do 3 eexists; apply decrypt_no_session; exact E].
  destruct (HW a r E) as [HF _]. destruct (record_exists C L r m g HF HO) as (o & [r'|] & g' & F).
  - destruct (fine_fate C L r m g o r' g' HF HO F) as [[HF' _] _]. inversion HF' as [|? ? HC _]; subst. destruct (ready_remote (r_cur r') (proj1 HC)) as (you & Y). do 3 eexists. exact (decrypt_reads C w a m g r o r' you g' E F Y).
  - do 3 eexists. exact (decrypt_fails C w a m g r o g' E F).
Qed.

(** * Encrypt *)
Lemma sender_index : forall s sc, able s -> s_sender s = Some sc -> (ck_index (ch_key sc) < u32_modulus)%N.
Proof.
  intros s sc [(_ & _ & _ & _ & lid & rid & root' & base & sc' & priv' & _ & _ & _ & _ & _ & E & _ & (_ & Z & _)) _] H. rewrite H in E. injection E as <-. exact Z.
Qed.
Lemma able_prev : forall s, able s -> (s_prev_counter s < 2 ^ 32)%N.
Proof. intros s [(_ & H & _) _]. exact H. Qed.
Lemma proto_of_same : forall m m' l, sg_ratchet (sm_struct m) = sg_ratchet (sm_struct m') -> sg_ct (sm_struct m) = sg_ct (sm_struct m') -> sg_counter (sm_struct m) = sg_counter (sm_struct m') ->
  sg_prev (sm_struct m) = sg_prev (sm_struct m') -> proto_of m l -> proto_of m' l.
Proof. intros m m' l E1 E2 E3 E4 H. unfold proto_of in *. rewrite <- E1, <- E2, <- E3, <- E4. exact H. Qed.
Lemma signal_wire_det : forall mac_key me you k n p body w w', signal_wire C mac_key me you k n p body w -> signal_wire C mac_key me you k n p body w' -> w = w'.
Proof.
  intros mac_key me you k n p body w w' (l & (vc & vp & vl & A1 & A2 & A3 & ->) & ->) (l' & (vc' & vp' & vl' & B1 & B2 & B3 & ->) & ->).
  rewrite (varint_det _ _ A1 _ B1), (varint_det _ _ A2 _ B2), (varint_det _ _ A3 _ B3). reflexivity.
Qed.
Lemma encrypt_det : forall w a pt o d o' d', encrypt_fate C w a pt o d -> encrypt_fate C w a pt o' d' -> o = o' /\ d = d'.
Proof.
  intros w a pt o d o' d' H H'.
  destruct H as [E|r sc me you mk body m wire mac ct E A1 A2 A3 A4 A5 A6 A7 A8 A9 A10]; destruct H' as [E'|r' sc' me' you' mk' body' m' wire' mac' ct' E' B1 B2 B3 B4 B5 B6 B7 B8 B9 B10].
  - split; reflexivity.
  - rewrite E in E'. discriminate E'.
  - rewrite E in E'. discriminate E'.
  - rewrite E in E'. injection E' as <-. rewrite A1 in B1. injection B1 as <-. rewrite A2 in B2. injection B2 as <-. rewrite A3 in B3. injection B3 as <-.
    split; [|reflexivity]. pose proof (key_number_det C _ _ _ _ B4 A4) as ->. clear B4.
    assert (Z : length (mk_iv mk) = 16%nat) by exact (proj1 (proj2 (proj2 (proj2 A4)))). pose proof (cbc_det _ _ _ _ _ _ Z B5 A5) as ->. clear B5.
    pose proof (signal_wire_det _ _ _ _ _ _ _ _ _ B6 A6) as ->. clear B6.
    assert (EM : m = m').
    { destruct A8 as (l & P1 & P2). destruct B8 as (l' & Q1 & Q2). assert (P1' : proto_of m' l) by (apply (proto_of_same m m' l); [rewrite A9, B9; reflexivity..|exact P1]).
      rewrite (proto_det m' l' l Q1 P1') in Q2. rewrite A9 in P2. rewrite B9 in Q2. cbn [sg_mac] in P2, Q2. rewrite <- P2 in Q2. injection Q2 as ->.
      destruct m as [st k], m' as [st' k']. cbn [sm_struct sm_ratchet] in *. subst. reflexivity. }
    subst m'. f_equal. unfold sent_as in A10, B10. destruct (s_pending (r_cur r)) as [p|]; [|congruence].
    destruct A10 as (pm & -> & C1 & C2 & C3 & C4). destruct B10 as (pm' & -> & D1 & D2 & D3 & D4). f_equal. destruct pm as [p1 p2 p3 p4], pm' as [q1 q2 q3 q4]. cbn [pm_struct pm_base pm_identity pm_message] in *. subst. reflexivity.
Qed.
Lemma encrypt_found : forall w a pt, sound_world w -> (N.of_nat (length pt) + 16 < 2 ^ 63)%N ->
  exists o d w', encrypt_fate C w a pt o d /\ w_encrypt C a pt w = (o, w') /\ applied w a d w'.
Proof.
  intros w a pt HW Hpt. change (2 ^ 63)%N with 9223372036854775808%N in Hpt. destruct (w_sessions w a) as [r|] eqn:E.
  2:{ exists Panic, no_change, w. split; [apply encrypt_no_session; exact E|]. split; [|apply applied_none]. unfold w_encrypt, encrypt. cbn [view_of v_load]. rewrite E. reflexivity. }
  destruct (HW a r E) as [HF HFr]. assert (HF' := HF). destruct HF' as [HA HB]. inversion HA as [|? ? HC HP]; subst. set (s := r_cur r) in *.
  destruct (able_sender s HC) as (sc & ES). destruct (able_ids s HC) as (me & you & EL & ER). pose proof (able_version s HC) as HV.
  pose proof (sender_index s sc HC ES) as HI. pose proof (able_prev s HC) as HPC.
  assert (HN : key_number C (ch_key sc) 0 (message_keys C (ch_key sc))).
  { pose proof (key_number_ok C L (ch_key sc) 0) as K. cbn [ck_iter N.of_nat] in K. apply K. rewrite N.add_0_r. exact HI. }
  destruct (message_keys_sized C L (ch_key sc)) as (S1 & S2 & S3). set (mk := message_keys C (ch_key sc)) in *.
  assert (HK : aes_key_ok (mk_cipher mk) = true) by (unfold aes_key_ok; rewrite S1; reflexivity).
  destruct (cbc_roundtrip_given C L (mk_iv mk) (mk_cipher mk) pt HK S3) as (body & EB & _ & HM & HLn).
  pose proof (cbc_spec C HL (law_aes_enc_len C L) _ _ _ _ HK S3 EB) as HCB. assert (HFB : fits body) by (unfold fits; lia).
  destruct (new_signal_message_ok C (ck_index (ch_key sc)) (s_prev_counter s) (mk_mac mk) (kp_pub (ch_pair sc)) body me you HL) as (mac & Hm & Hmac & EN).
  pose proof (signal_wire_spec C _ _ _ _ _ _ _ _ HL HI HPC HFB EN) as HWire. pose proof (new_signal_message_roundtrip C _ _ _ _ _ _ _ _ HL HI HPC HFB EN) as HRT.
  set (m := {| sm_struct := {| sg_ratchet := Some (ser_pub (kp_pub (ch_pair sc))); sg_counter := ck_index (ch_key sc); sg_prev := s_prev_counter s; sg_ct := Some body; sg_version := 3; sg_mac := Some mac |};
               sm_ratchet := kp_pub (ch_pair sc) |}) in *.
  assert (HObj : message_object m).
  { exists (ser_pub (kp_pub (ch_pair sc))), body. cbn [m sm_struct sm_ratchet sg_ratchet sg_ct sg_version sg_counter sg_prev]. split; [reflexivity|]. split; [apply key_fate_spec; apply decode_ser_pub|]. split; [reflexivity|].
    split; [lia|]. split; [exact HI|]. split; [exact HPC|]. split; [rewrite ser_pub_length; reflexivity|]. unfold fits in HFB. change (2 ^ 63)%N with 9223372036854775808%N. lia. }
  assert (HAuth : authentic C (mk_mac mk) me you m).
  { exists (sig_serialize (strip_struct (sm_struct m))). split; [apply proto_ok; exact HObj|]. cbn [m sm_struct sg_mac]. f_equal. rewrite Hmac. change (itoa 3) with [x33]. unfold mac_input. change (3 >=? 3)%Z with true. cbv iota.
    unfold ser_pub at 1 2. change djb_type with x05. rewrite <- app_assoc. cbn [app]. reflexivity. }
  assert (EO : exists ct, sent_as s me (sig_msg_bytes m) m ct /\
     (match s_pending s with None => Ok (CSignal m) | Some p => pm <- new_prekey_message (s_version s) (s_local_reg s) (pp_id p) (pp_signed p) (pp_base p) me m ;; Ok (CPreKey pm) end) = Ok ct).
  { unfold sent_as. destruct (s_pending s) as [p|]; [|eexists; split; reflexivity]. unfold new_prekey_message, pk_from_struct. cbn [pk_version pk_base pk_identity pk_message]. rewrite HV.
    change (3 <=? unsupported_version)%Z with false. change (3 >? current_version)%Z with false. cbv iota. rewrite !decode_ser_pub. cbn [bind]. rewrite HRT. cbn [bind].
    eexists. split; [|reflexivity]. eexists. split; [reflexivity|]. cbn [pm_base pm_identity pm_message pm_struct]. do 3 (split; [reflexivity|]). reflexivity. }
  destruct EO as (ct & HSent & HCt).
  assert (EI : next_key C (ch_key sc) = {| ck_key := chain_after C 1 (ck_key (ch_key sc)); ck_index := ((ck_index (ch_key sc) + 1) mod 2 ^ 32)%N |}) by reflexivity.
  pose proof (encrypt_sent C w a pt r sc me you mk body m (sig_msg_bytes m) mac ct E ES EL ER HN HCB HWire eq_refl HAuth eq_refl HSent) as HFate. cbv zeta in HFate.
  eexists. eexists. assert (HRun : encrypt C (view_of w a) pt = (Ok ct, set_cur (set_sender_chain_key (next_key C (ch_key sc)) s) r, [SaveIdentity you; StoreSession (set_cur (set_sender_chain_key (next_key C (ch_key sc)) s) r)])).
  { unfold encrypt. cbn [view_of v_load]. rewrite E. cbv zeta. fold s. rewrite ES. fold mk. rewrite EB, EL, ER, HV, EN. rewrite HV in HCt. rewrite HCt. reflexivity. }
  set (r1 := set_cur (set_sender_chain_key (next_key C (ch_key sc)) s) r) in *.
  assert (HF1 : fine r1).
  { split; [|exact HB]. constructor; [|exact HP]. unfold r1. cbn [set_cur r_cur]. unfold set_sender_chain_key. rewrite ES. destruct HC as [HR HBd]. split; [|exact HBd].
    destruct HR as (R1 & R2 & R3 & R4 & lid & rid & root & base & sc' & priv & R5 & R6 & R7 & R8 & R9 & R10 & R11 & (Z1 & Z2 & Z3)). rewrite ES in R10. injection R10 as <-.
    split; [exact R1|]. split; [exact R2|]. split; [exact R3|]. split; [exact R4|]. exists lid, rid, root, base. eexists. exists priv. cbn [set_sender s_local_id s_remote_id s_root s_base s_sender].
    split; [exact R5|]. split; [exact R6|]. split; [exact R7|]. split; [exact R8|]. split; [exact R9|]. split; [reflexivity|]. split; [exact R11|].
    split; [apply (next_key_size C L)|]. split; [apply u32_lt|exact Z3]. }
  destruct (commit_id_session w a you r1 HF1) as (w' & EC & HApp). exists w'. split; [exact HFate|]. split; [unfold w_encrypt; rewrite HRun, EC; reflexivity|].
  assert (EU : unfresh r1 = {| r_cur := moved s (s_recv s) (Some {| ch_pair := ch_pair sc; ch_key := {| ck_key := chain_after C 1 (ck_key (ch_key sc)); ck_index := ((ck_index (ch_key sc) + 1) mod 2 ^ 32)%N |};
                                           ch_msgs := ch_msgs sc |}) (s_root s) (s_prev_counter s) (s_pending s); r_prev := r_prev r; r_fresh := false |}).
  { unfold r1, unfresh, set_sender_chain_key. cbn [set_cur r_cur r_prev]. rewrite ES, EI. reflexivity. }
  rewrite EU in HApp. exact HApp.
Qed.

(** * ProcessBundle *)
Lemma prep_archive : forall w a, sound_world w -> r_cur (prep_record (v_load (view_of w a))) = new_state /\ r_prev (prep_record (v_load (view_of w a))) = archive_now w a /\
  Forall able (archive_now w a) /\ (length (archive_now w a) <= 40)%nat.
Proof.
  intros w a HW. unfold archive_now. cbn [view_of v_load]. destruct (w_sessions w a) as [r|] eqn:E.
  - destruct (HW a r E) as [[HF HB] HFr]. unfold prep_record. rewrite HFr. unfold archive_current, promote_state. cbn [r_cur r_prev]. split; [reflexivity|].
    rewrite forty by (cbn [length]; lia). split; [reflexivity|]. split; [|rewrite firstn_length; apply Nat.le_min_l].
    apply Forall_forall. intros s Hs. rewrite Forall_forall in HF. apply HF. unfold states. rewrite <- (firstn_skipn 40 (r_cur r :: r_prev r)). apply in_or_app. left. exact Hs.
  - split; [reflexivity|]. split; [reflexivity|]. split; [constructor|]. cbn [length]. lia.
Qed.
Lemma derive_step : forall ms, exists x, derive_session C ms = Ok x /\ x3dh_output C ms (sk_root x) (ck_key (sk_chain x)) /\ ck_index (sk_chain x) = 0%N.
Proof.
  intros ms. assert (E : exists x, derive_session C ms = Ok x) by (unfold derive_session; rewrite derive_secrets_64; eexists; reflexivity).
  destruct E as (x & E). exists x. split; [exact E|]. exact (derive_session_spec C HL ms x E).
Qed.
Lemma new_chain_sized : forall p x, length (ck_key (sk_chain x)) = 32%nat -> ck_index (sk_chain x) = 0%N -> sized_chain {| ch_pair := p; ch_key := sk_chain x; ch_msgs := [] |}.
Proof. intros p x H1 H2. split; [exact H1|]. split; [cbn [ch_key]; rewrite H2; reflexivity|constructor]. Qed.
Lemma chain_key_of : forall x, ck_index (sk_chain x) = 0%N -> sk_chain x = {| ck_key := ck_key (sk_chain x); ck_index := 0 |}.
Proof. intros x H. destruct (sk_chain x) as [k i]. cbn [ck_key ck_index] in *. subst. reflexivity. Qed.
Lemma sender_derive : forall w b k base, calculate_sender_session C {| sp_our_identity := w_self w; sp_our_base := pair_of C base; sp_their_identity := b_identity b; sp_their_signed := k; sp_their_ratchet := k; sp_their_one_time := b_prekey b |} =
  derive_session C (x3dh_secret (x_mult C (ip_priv (w_self w)) k) (x_mult C base (b_identity b)) (x_mult C base k) (option_map (x_mult C base) (b_prekey b))).
Proof. intros w b k base. unfold calculate_sender_session. cbn [sp_our_identity sp_our_base sp_their_identity sp_their_signed sp_their_one_time priv_of pair_of kp_priv bind]. destruct (b_prekey b); reflexivity. Qed.

(** The session a bundle starts. *)
Definition bundle_session (w : world) (a : address) (b : bundle) (k seed1 seed2 : arr32) (x y : session_keys) : record :=
  {| r_cur := {| s_local_id := Some (ip_pub (w_self w)); s_local_reg := w_reg w; s_needs_refresh := false; s_pending_kx := None;
                 s_pending := Some {| pp_id := b_prekey_id b; pp_signed := b_signed_id b; pp_base := x_base C (clamp seed1) |}; s_prev_counter := 0;
                 s_recv := [new_chain {| kp_pub := k; kp_priv := None |} (ck_key (sk_chain x))]; s_remote_id := Some (b_identity b); s_remote_reg := b_reg b; s_root := Some (sk_root y);
                 s_base := Some (x_base C (clamp seed1)); s_sender := Some (new_chain {| kp_pub := x_base C (clamp seed2); kp_priv := Some (clamp seed2) |} (ck_key (sk_chain y)));
                 s_version := 3 |}; r_prev := archive_now w a; r_fresh := false |}.

Lemma bundle_sound : forall w a b g o d g', sound_world w -> bundle_fate C w a b g o d g' -> exists w', w_process_bundle C a b g w = (o, w', g') /\ applied w a d w'.
Proof.
  intros w a b g o d g' HW H. unfold w_process_bundle, process_bundle. cbn [view_of v_trusted].
  destruct H as [H1|H1 H2|k H1 H2 H3|k g' H1 H2 H3 H4|k seed1 g1 g' H1 H2 H3 H4 H5|k seed1 g1 seed2 g' root1 chain1 root2 chain2 H1 H2 H3 H4 H5 H6 H7]; rewrite H1; cbn [negb].
  - cbn [commit seal]. exists w. split; [reflexivity|apply applied_none].
  - rewrite H2. cbn [commit seal]. exists w. split; [reflexivity|apply applied_none].
  - rewrite H2. unfold ser_pub. change djb_type with x05. rewrite H3. cbn [negb commit seal]. exists w. split; [reflexivity|apply applied_none].
  - rewrite H2. unfold ser_pub. change djb_type with x05. rewrite H3. cbn [negb]. unfold generate_key_pair. rewrite H4. cbn [commit seal]. exists w. split; [reflexivity|apply applied_none].
  - rewrite H2. unfold ser_pub. change djb_type with x05. rewrite H3. cbn [negb]. unfold generate_key_pair. rewrite H4. cbn [view_of v_identity]. change {| kp_pub := x_base C (clamp seed1); kp_priv := Some (clamp seed1) |} with (pair_of C (clamp seed1)). cbv zeta. rewrite sender_derive.
    match goal with |- context [derive_session C ?ms] => destruct (derive_step ms) as (x & X1 & X2 & X3) end. rewrite X1. rewrite H5. cbn [commit seal]. exists w. split; [reflexivity|apply applied_none].
  - rewrite H2. unfold ser_pub. change djb_type with x05. rewrite H3. cbn [negb]. unfold generate_key_pair. rewrite H4. cbn [view_of v_identity]. change {| kp_pub := x_base C (clamp seed1); kp_priv := Some (clamp seed1) |} with (pair_of C (clamp seed1)). cbv zeta. rewrite sender_derive.
    match goal with |- context [derive_session C ?ms] => destruct (derive_step ms) as (x & X1 & X2 & X3) end. rewrite X1. destruct (x3dh_det C _ _ _ _ _ H6 X2) as [-> ->]. rewrite H5.
    destruct (create_chain_step C L (sk_root x) k (pair_of C (clamp seed2)) (clamp seed2) eq_refl) as (y & Y1 & Y2 & Y3). rewrite Y1. destruct (root_step_det C _ _ _ _ _ _ H7 Y2) as [-> ->].
    change (if r_fresh (v_load (view_of w a)) then v_load (view_of w a) else archive_current (v_load (view_of w a))) with (prep_record (v_load (view_of w a))).
    change (if r_fresh match w_sessions w a with Some r => r | None => new_record end then match w_sessions w a with Some r => r | None => new_record end else archive_current match w_sessions w a with Some r => r | None => new_record end)
      with (prep_record (v_load (view_of w a))).
    destruct (prep_archive w a HW) as (P1 & P2 & P3 & P4). rewrite P1.
    match goal with |- context [set_cur ?s0 (prep_record (v_load (view_of w a)))] => set (s := s0) end. set (r1 := set_cur s (prep_record (v_load (view_of w a)))).
    assert (EU : unfresh r1 = bundle_session w a b k seed1 seed2 x y).
    { unfold unfresh, r1, bundle_session. cbn [set_cur r_cur r_prev]. rewrite P2. f_equal. unfold new_chain. rewrite <- (chain_key_of x X3), <- (chain_key_of y Y3). reflexivity. }
    assert (HF : fine r1).
    { apply unfresh_fine. rewrite EU. unfold bundle_session. split; [|exact P4]. constructor; [|exact P3]. cbn [r_cur].
      assert (SX : sized_chain (new_chain {| kp_pub := k; kp_priv := None |} (ck_key (sk_chain x)))) by (unfold new_chain; rewrite <- (chain_key_of x X3); apply new_chain_sized; [exact (proj1 (proj2 X2))|exact X3]).
      assert (SY : sized_chain (new_chain {| kp_pub := x_base C (clamp seed2); kp_priv := Some (clamp seed2) |} (ck_key (sk_chain y)))) by (unfold new_chain; rewrite <- (chain_key_of y Y3); apply new_chain_sized; [exact (proj1 (proj2 Y2))|exact Y3]).
      split; [|split; [cbn [s_recv length]; lia|constructor; [cbn [bounded_chain new_chain ch_msgs length]; unfold bounded_chain; cbn [new_chain ch_msgs length]; apply Nat.le_0_l|constructor]]].
      split; [reflexivity|]. split; [reflexivity|]. split; [reflexivity|]. split; [constructor; [exact SX|constructor]|].
      exists (ip_pub (w_self w)), (b_identity b), (sk_root y), (x_base C (clamp seed1)). eexists. exists (clamp seed2). do 3 (split; [reflexivity|]). split; [exact (proj1 Y2)|]. do 3 (split; [reflexivity|]). exact SY. }
    destruct (commit_session_id w a (b_identity b) r1 HF) as (w' & EC & HA). rewrite EC. cbn [seal]. exists w'. split; [reflexivity|]. rewrite EU in HA. exact HA.
Qed.
Lemma bundle_exists : forall w a b g, exists o d g', bundle_fate C w a b g o d g'.
Proof.
  intros w a b g. destruct (w_policy w (w_saved w) a (b_identity b)) eqn:H1; [|do 3 eexists; apply bundle_untrusted; exact H1].
  destruct (b_signed b) as [k|] eqn:H2; [|do 3 eexists; apply bundle_unsigned; assumption].
  destruct (verify_signature C (b_identity b) (x05 :: abytes k) (b_sig b)) eqn:H3; [|do 3 eexists; exact (bundle_forged C w a b g k H1 H2 H3)].
  destruct (rng_read 32 g) as [[seed1|] g1] eqn:H4; [|do 3 eexists; exact (bundle_random C w a b g k g1 H1 H2 H3 H4)].
  destruct (rng_read 32 g1) as [[seed2|] g2] eqn:H5; [|do 3 eexists; exact (bundle_random_again C w a b g k seed1 g1 g2 H1 H2 H3 H4 H5)].
  destruct (derive_step (x3dh_secret (x_mult C (ip_priv (w_self w)) k) (x_mult C (clamp seed1) (b_identity b)) (x_mult C (clamp seed1) k) (option_map (x_mult C (clamp seed1)) (b_prekey b)))) as (x & X1 & X2 & X3).
  destruct (create_chain_step C L (sk_root x) k (pair_of C (clamp seed2)) (clamp seed2) eq_refl) as (y & Y1 & Y2 & Y3).
  do 3 eexists. exact (SessionCallSpec.bundle_session C w a b g k seed1 g1 seed2 g2 _ _ _ _ H1 H2 H3 H4 H5 X2 Y2).
Qed.

(** * DecryptMessage *)
Lemma matches_state : forall v k s, state_matches v (ser_pub k) s = true <-> s_version s = v /\ s_base s = Some k.
Proof.
  intros v k s. unfold state_matches, base_bytes. rewrite Bool.andb_true_iff, Z.eqb_eq. split; intros [E1 E2]; (split; [exact E1|]).
  - destruct (s_base s) as [b|]; [|discriminate E2]. apply bytes_eqb_eq in E2. apply ser_pub_inj in E2. rewrite E2. reflexivity.
  - rewrite E2. apply bytes_eqb_eq. reflexivity.
Qed.
Lemma known_has : forall w a m, session_known w a m <-> has_session_state (pk_version (pm_struct m)) (ser_pub (pm_base m)) (v_load (view_of w a)) = true.
Proof.
  intros w a m. cbn [view_of v_load]. split.
  - intros (r & s & E & HI & V & B). rewrite E. unfold has_session_state. apply Bool.orb_true_iff. assert (HM : state_matches (pk_version (pm_struct m)) (ser_pub (pm_base m)) s = true) by (apply matches_state; split; assumption).
    destruct HI as [<- | HI]; [left; exact HM|right]. apply existsb_exists. exists s. split; assumption.
  - intros H. destruct (w_sessions w a) as [r|] eqn:E; [|rewrite new_record_matches in H; discriminate H]. unfold has_session_state in H. apply Bool.orb_true_iff in H. destruct H as [H|H].
    + apply matches_state in H. exists r, (r_cur r). destruct H as [H1 H2]. split; [exact E|]. split; [left; reflexivity|]. split; assumption.
    + apply existsb_exists in H. destruct H as (s & HI & H). apply matches_state in H. destruct H as [H1 H2]. exists r, s. split; [exact E|]. split; [right; exact HI|]. split; assumption.
Qed.
Lemma unknown_has : forall w a m, session_unknown w a m <-> has_session_state (pk_version (pm_struct m)) (ser_pub (pm_base m)) (v_load (view_of w a)) = false.
Proof.
  intros w a m. unfold session_unknown. rewrite known_has. destruct (has_session_state _ _ _); split; intros H; [destruct (H eq_refl)|discriminate H|reflexivity|discriminate].
Qed.
Lemma receiver_derive : forall id signed priv otk (op : option arr32) base them, kp_priv signed = Some priv -> match otk with Some p => op = kp_priv p /\ op <> None | None => op = None end ->
  calculate_receiver_session C {| rp_our_identity := id; rp_our_signed := signed; rp_our_one_time := otk; rp_our_ratchet := signed; rp_their_base := base; rp_their_identity := them |} =
  derive_session C (x3dh_secret (x_mult C priv them) (x_mult C (ip_priv id) base) (x_mult C priv base) (option_map (fun o => x_mult C o base) op)).
Proof.
  intros id signed priv otk op base them E1 E2. unfold calculate_receiver_session. cbn [rp_our_identity rp_our_signed rp_our_one_time rp_their_base rp_their_identity]. unfold priv_of at 1. rewrite E1. cbn [bind].
  destruct otk as [p|]; [|rewrite E2; reflexivity]. destruct E2 as [-> N]. unfold priv_of. destruct (kp_priv p) as [q|]; [reflexivity|destruct (N eq_refl)].
Qed.
Lemma same_states_fate : forall r r1 m g o r' g', r_cur r1 = r_cur r -> r_prev r1 = r_prev r -> record_fate C r m g o r' g' -> record_fate C r1 m g o r' g'.
Proof.
  intros r r1 m g o r' g' E1 E2 H. destruct H as [x s' g' A|s' g' A|e cur g1 before s after before' g2 x s' g3 A EP R A2|e cur g1 before s after before' g2 s' g3 A EP R A2|e cur g1 prev g2 A R];
    rewrite <- ?E1, <- ?E2 in *.
  - apply record_current. exact A.
  - apply (record_crash C r1 m g s' g'). exact A.
  - exact (record_archived C r1 m g e cur g1 before s after before' g2 x s' g3 A EP R A2).
  - exact (record_archived_crash C r1 m g e cur g1 before s after before' g2 s' g3 A EP R A2).
  - exact (record_refused C r1 m g e cur g1 prev g2 A R).
Qed.
(** The record DecryptMessage reads in when the session is new. *)
Lemma responder_process : forall w a m r, sound_world w -> session_unknown w a m -> responder C w a m r ->
  exists r1, process_v3 C (view_of w a) (v_load (view_of w a)) m = (Ok (to_remove m), r1) /\ fine r1 /\ r_cur r1 = r_cur r /\ r_prev r1 = r_prev r.
Proof.
  intros w a m r HW HU (signed & priv & otk & root & chain & S1 & S2 & S3 & S4 & S5 & S6). apply unknown_has in HU. unfold process_v3. rewrite HU. cbn [view_of v_signed v_prekey v_identity v_reg]. rewrite S1.
  assert (EO : exists op : option ec_pair, match pk_prekey_id (pm_struct m) with None => Ok None | Some o => match w_prekeys w (ou_value o) with None => Err ENilOneTimePreKey | Some kp => Ok (Some kp) end end = Ok op /\
     match op with Some p => otk = kp_priv p /\ otk <> None | None => otk = None end).
  { destruct S3 as [H|o p q H1 H2 H3]; [rewrite H; exists None; split; reflexivity|]. rewrite H1, H2. exists (Some p). split; [reflexivity|]. rewrite H3. split; [reflexivity|discriminate]. }
  destruct EO as (op & EO & HO). rewrite EO. rewrite (receiver_derive _ _ _ _ _ _ _ S2 HO).
  match goal with |- context [derive_session C ?ms] => destruct (derive_step ms) as (x & X1 & X2 & X3) end. rewrite X1. destruct (x3dh_det C _ _ _ _ _ S4 X2) as [-> ->].
  destruct (prep_archive w a HW) as (P1 & P2 & P3 & P4). cbv zeta.
  match goal with |- context [set_cur ?s0 ?q] => change q with (prep_record (v_load (view_of w a))) in *; set (s := s0) end.
  assert (ES : s = r_cur r).
  { rewrite S5. unfold s. change (if r_fresh (v_load (view_of w a)) then v_load (view_of w a) else archive_current (v_load (view_of w a))) with (prep_record (v_load (view_of w a))). 
    change (r_cur (if r_fresh match w_sessions w a with Some r => r | None => new_record end then match w_sessions w a with Some r => r | None => new_record end else archive_current match w_sessions w a with Some r => r | None => new_record end))
      with (r_cur (prep_record (v_load (view_of w a)))). rewrite P1. unfold new_chain. rewrite <- (chain_key_of x X3). reflexivity. }
  eexists. split; [reflexivity|]. split; [|split; [exact ES|cbn [set_cur r_prev]; rewrite S6; exact P2]].
  split; [|cbn [set_cur r_prev]; rewrite P2; exact P4]. unfold states. cbn [set_cur r_cur r_prev]. rewrite P2. constructor; [|exact P3]. apply (eq_ind (r_cur r) able); [|symmetry; exact ES]. rewrite S5.
  assert (SX : sized_chain (new_chain signed (ck_key (sk_chain x)))) by (unfold new_chain; rewrite <- (chain_key_of x X3); apply new_chain_sized; [exact (proj1 (proj2 X2))|exact X3]).
  split; [|split; [cbn [s_recv length]; apply Nat.le_0_l|constructor]].
  split; [reflexivity|]. split; [reflexivity|]. split; [reflexivity|]. split; [constructor|].
  exists (ip_pub (w_self w)), (pm_identity m), (sk_root x), (pm_base m), (new_chain signed (ck_key (sk_chain x))), priv. do 3 (split; [reflexivity|]). split; [exact (proj1 X2)|]. split; [reflexivity|]. split; [reflexivity|]. split; [exact S2|]. exact SX.
Qed.

Lemma message_sound : forall w a m g o d g', sound_world w -> message_object (pm_message m) -> message_fate C w a m g o d g' ->
  exists w', w_decrypt_message C a m g w = (o, w', g') /\ applied w a d w'.
Proof.
  intros w a m g o d g' HW HO H. unfold w_decrypt_message, decrypt_message, process. cbn [view_of v_trusted].
  destruct H as [T|r o g' T K E F|r o r' g' T K E F|T U S|signed oo T U S I P|r o g' T U R F|r x r' id g' T U R F D|r x r' g' T U R F D]; rewrite T; cbn [negb].
  - cbn [commit seal]. exists w. split; [reflexivity|apply applied_none].
  - apply known_has in K. unfold process_v3. rewrite K. cbn [view_of v_load]. rewrite E. destruct (HW a r E) as [HF _]. destruct (record_sound C L _ _ _ _ _ _ HF HO F) as (r1 & E1 & E2). rewrite E1.
    destruct (commit_id w a (pm_identity m)) as (w' & EC & HA). destruct o as [x|e|]; [discriminate E2| |]; rewrite EC; cbn [seal]; exists w'; (split; [reflexivity|exact HA]).
  - apply known_has in K. unfold process_v3. rewrite K. cbn [view_of v_load]. rewrite E. destruct (HW a r E) as [HF _]. destruct (record_sound C L _ _ _ _ _ _ HF HO F) as (r1 & E1 & E2). rewrite E1.
    pose proof (fine_fate C L _ _ _ _ _ _ HF HO F) as [HF' _]. destruct o as [x|e|]; [|discriminate E2|discriminate E2]. cbn [kept] in E2. injection E2 as ->.
    destruct (commit_id_session w a (pm_identity m) r1 (unfresh_fine r1 HF')) as (w' & EC & HA). cbn [ou_none ou_empty app]. rewrite EC. cbn [seal]. exists w'. split; [reflexivity|exact HA].
  - apply unknown_has in U. unfold process_v3. rewrite U. cbn [view_of v_signed]. rewrite S. cbn [commit seal]. exists w. split; [reflexivity|apply applied_none].
  - apply unknown_has in U. unfold process_v3. rewrite U. cbn [view_of v_signed v_prekey]. rewrite S, I, P. cbn [commit seal]. exists w. split; [reflexivity|apply applied_none].
  - destruct (responder_process w a m r HW U R) as (r1 & E1 & HF & E2 & E3). apply (same_states_fate r r1) in F; [|exact E2|exact E3]. change (v_load (view_of w a)) with (v_load (view_of w a)). 
    match goal with |- context [process_v3 C ?v ?q m] => change (process_v3 C v q m) with (process_v3 C (view_of w a) (v_load (view_of w a)) m) end. rewrite E1.
    destruct (record_sound C L _ _ _ _ _ _ HF HO F) as (r2 & E4 & E5). rewrite E4.
    destruct (commit_id w a (pm_identity m)) as (w' & EC & HA). destruct o as [x|e|]; [discriminate E5| |]; rewrite EC; cbn [seal]; exists w'; (split; [reflexivity|exact HA]).
  - destruct (responder_process w a m r HW U R) as (r1 & E1 & HF & E2 & E3). apply (same_states_fate r r1) in F; [|exact E2|exact E3].
    match goal with |- context [process_v3 C ?v ?q m] => change (process_v3 C v q m) with (process_v3 C (view_of w a) (v_load (view_of w a)) m) end. rewrite E1.
    destruct (record_sound C L _ _ _ _ _ _ HF HO F) as (r2 & E4 & E5). rewrite E4. pose proof (fine_fate C L _ _ _ _ _ _ HF HO F) as [HF' _]. cbn [kept] in E5. injection E5 as ->. rewrite D. cbn [app].
    destruct (ou_empty id).
    + destruct (commit_id_session w a (pm_identity m) r2 (unfresh_fine r2 HF')) as (w' & EC & HA). rewrite EC. cbn [seal]. exists w'. split; [reflexivity|exact HA].
    + destruct (commit_removing w a (pm_identity m) r2 (ou_value id) (unfresh_fine r2 HF')) as (w' & EC & HA). rewrite EC. cbn [seal]. exists w'. split; [reflexivity|exact HA].
  - destruct (responder_process w a m r HW U R) as (r1 & E1 & HF & E2 & E3). apply (same_states_fate r r1) in F; [|exact E2|exact E3].
    match goal with |- context [process_v3 C ?v ?q m] => change (process_v3 C v q m) with (process_v3 C (view_of w a) (v_load (view_of w a)) m) end. rewrite E1.
    destruct (record_sound C L _ _ _ _ _ _ HF HO F) as (r2 & E4 & E5). rewrite E4. pose proof (fine_fate C L _ _ _ _ _ _ HF HO F) as [HF' _]. cbn [kept] in E5. injection E5 as ->. rewrite D. cbn [app].
    destruct (commit_id_session w a (pm_identity m) r2 (unfresh_fine r2 HF')) as (w' & EC & HA). rewrite EC. cbn [seal]. exists w'. split; [reflexivity|exact HA].
Qed.
Lemma responder_exists : forall w a m signed, private_halves w -> w_signed w (pk_signed_id (pm_struct m)) = Some signed ->
  (forall o, pk_prekey_id (pm_struct m) = Some o -> w_prekeys w (ou_value o) <> None) -> exists r, responder C w a m r.
Proof.
  intros w a m signed [H1 H2] S HP. pose proof (H2 _ _ S) as NP. destruct (kp_priv signed) as [priv|] eqn:EP; [|destruct (NP eq_refl)].
  assert (EO : exists otk, one_time w m otk).
  { destruct (pk_prekey_id (pm_struct m)) as [o|] eqn:EI; [|exists None; apply one_time_none; exact EI]. specialize (HP o eq_refl). destruct (w_prekeys w (ou_value o)) as [p|] eqn:EW; [|destruct (HP eq_refl)].
    pose proof (H1 _ _ EW) as NQ. destruct (kp_priv p) as [q|] eqn:EQ; [|destruct (NQ eq_refl)]. exists (Some q). exact (one_time_found w m o p q EI EW EQ). }
  destruct EO as (otk & EO).
  destruct (derive_step (x3dh_secret (x_mult C priv (pm_identity m)) (x_mult C (ip_priv (w_self w)) (pm_base m)) (x_mult C priv (pm_base m)) (option_map (fun o => x_mult C o (pm_base m)) otk))) as (x & X1 & X2 & X3).
  eexists {| r_cur := _; r_prev := _; r_fresh := false |}. exists signed, priv, otk, (sk_root x), (ck_key (sk_chain x)). cbn [r_cur r_prev]. split; [exact S|]. split; [exact EP|]. split; [exact EO|]. split; [exact X2|]. split; reflexivity.
Qed.
Lemma message_exists : forall w a m g, sound_world w -> private_halves w -> message_object (pm_message m) -> exists o d g', message_fate C w a m g o d g'.
Proof.
  intros w a m g HW HP HO. destruct (w_policy w (w_saved w) a (pm_identity m)) eqn:T; [|do 3 eexists; apply message_untrusted; exact T].
  destruct (has_session_state (pk_version (pm_struct m)) (ser_pub (pm_base m)) (v_load (view_of w a))) eqn:HK.
  - apply known_has in HK. assert (HK' := HK). destruct HK' as (r & _ & E & _). destruct (HW a r E) as [HF _]. destruct (record_exists C L r (pm_message m) g HF HO) as (o & [r'|] & g' & F).
    + do 3 eexists. exact (message_repeat C w a m g r o r' g' T HK E F).
    + do 3 eexists. exact (message_repeat_fails C w a m g r o g' T HK E F).
  - apply unknown_has in HK. destruct (w_signed w (pk_signed_id (pm_struct m))) as [signed|] eqn:S; [|do 3 eexists; apply message_unsigned; assumption].
    assert (HC : (exists o, pk_prekey_id (pm_struct m) = Some o /\ w_prekeys w (ou_value o) = None) \/ (forall o, pk_prekey_id (pm_struct m) = Some o -> w_prekeys w (ou_value o) <> None)).
    { destruct (pk_prekey_id (pm_struct m)) as [o|]; [|right; intros o H; discriminate H]. destruct (w_prekeys w (ou_value o)) as [p|] eqn:EW.
      - right. intros o' H. injection H as <-. rewrite EW. discriminate.
      - left. exists o. split; [reflexivity|exact EW]. }
    destruct HC as [(o & I & P)|HC]; [do 3 eexists; exact (message_used_up C w a m g signed o T HK S I P)|].
    destruct (responder_exists w a m signed HP S HC) as (r & R). destruct (responder_process w a m r HW HK R) as (r1 & E1 & HF & E2 & E3).
    destruct (record_exists C L r1 (pm_message m) g HF HO) as (o & ro & g' & F1). pose proof (record_sound C L _ _ _ _ _ _ HF HO F1) as (r2 & _ & EK).
    assert (F : record_fate C r (pm_message m) g o ro g') by (apply (same_states_fate r1 r); [rewrite E2; reflexivity|rewrite E3; reflexivity|exact F1]).
    destruct o as [x|e|]; cbn [kept] in EK; subst ro.
    + destruct (to_remove m) as [id|] eqn:D; do 3 eexists; [exact (message_read C w a m g r x _ id g' T HK R F D)|exact (message_read_then_crash C w a m g r x _ g' T HK R F D)].
    + do 3 eexists. exact (message_fails C w a m g r _ g' T HK R F).
    + do 3 eexists. exact (message_fails C w a m g r _ g' T HK R F).
Qed.
End P.
