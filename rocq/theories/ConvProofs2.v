(** ConvProofs2.v: sending, stores and whole runs (C05, C06). *)
From Verif Require Import Base Labels Crypto Bytehelper Ecc Cbc Wire Itoa Keys X3dh Messages SessionState SessionRecord
  SessionBuilder SessionCipher Address World WireProofs CodecProofs CodecProofs2 CryptoProofs SessionProofs SerialProofs SessionSpec
  HistoryProofs InvariantProofs OpsProofs OpsProofs3 GroupSpec MiscProofs GroupProofs ConvSpec ConvProofs.
From Coq Require Import Lia ZifyBool ZifyN ZifyNat.

(** * Sizes *)

Lemma varint_len : forall n, (length (enc_varint n) <= 10)%nat.
Proof.
  intros n. unfold enc_varint. generalize 10%nat as f. intros f. revert n. induction f as [|f IH]; intros n; cbn [enc_varint_fuel]; [cbn; lia|].
  destruct (n <? 128)%N; cbn [length]; [lia|]. specialize (IH (n / 128)%N). lia.
Qed.

Lemma sig_bytes_len : forall (k : arr32) n p ct mac, length mac = 8%nat ->
  (length (sig_serialize {| sg_ratchet := Some (ser_pub k); sg_counter := n; sg_prev := p; sg_ct := Some ct; sg_version := 3; sg_mac := Some mac |})
   <= length ct + 140)%nat.
Proof.
  intros k n p ct mac H. unfold sig_serialize. cbn [sg_version sg_mac Z.eqb]. unfold sig_fields, marshal.
  cbn [sg_ratchet sg_counter sg_prev sg_ct opt_bytes_field app flat_map enc_field].
  rewrite !app_length, H, ser_pub_length. change (length (itoa 3)) with 1%nat. cbn [length].
  repeat match goal with |- context [enc_varint ?x] => let y := fresh in pose proof (varint_len x) as y; generalize dependent (length (enc_varint x)); intros end.
  lia.
Qed.

Section Conv2.
Context (C : crypto) (L : crypto_laws C).
Notation entry := (ConvProofs.entry).

(** * Sending *)

Lemma send_rel : forall E me them v s, state_rel C E me them v s -> ladder C E -> (pv_count v < 4294967295)%N ->
  state_rel C E me them {| pv_epoch := pv_epoch v; pv_count := pv_count v + 1; pv_chains := pv_chains v |}
    (set_sender_chain_key (next_key C (match s_sender s with Some c => ch_key c | None => {| ck_key := []; ck_index := 0 |} end)) s).
Proof.
  intros E me them v s (V & HLi & HRi & HK & HPC & (x & Hx & Hroot & Hsend) & HC & HD & H5) HL Hc.
  rewrite Hsend. unfold state_rel, set_sender_chain_key. rewrite Hsend. cbn [ch_key ch_pair ch_msgs pv_epoch pv_count pv_chains].
  repeat (split; [assumption|]). split; [|auto]. exists x. split; [exact Hx|]. split; [exact Hroot|]. cbn [s_sender set_sender].
  rewrite <- ck_iter_snoc. do 2 f_equal. f_equal. lia.
Qed.

Definition pending_ok (s : state) (me : arr32) : Prop :=
  match s_pending s with
  | None => True
  | Some p => exists i, pp_id p = Some (ou_some i) /\ (i < 2 ^ 32)%N /\ (pp_signed p < 2 ^ 32)%N /\ (s_local_reg s < 2 ^ 32)%N
  end.

Definition parses_to (k : packet) (s : state) (me : arr32) (m : sig_msg) : Prop :=
  match s_pending s, k with
  | None, PSignal b => sig_from_bytes b = Ok m
  | Some p, PPreKey b => exists pm, pk_from_bytes b = Ok pm /\ pm_message pm = m /\ pm_base pm = pp_base p /\ pm_identity pm = me /\
      pk_prekey_id (pm_struct pm) = pp_id p /\ pk_signed_id (pm_struct pm) = pp_signed p /\ pk_version (pm_struct pm) = 3%Z
  | _, _ => False
  end.

Lemma encrypt_rel : forall E me them v s (vw : view) pt, state_rel C E me them v s -> ladder C E -> (pv_count v < 4294967295)%N ->
  (N.of_nat (length pt) + 200 < 9223372036854775808)%N -> pending_ok s me -> r_cur (v_load vw) = s ->
  exists ct k m s', encrypt C vw pt = (Ok ct, set_cur s' (v_load vw), [SaveIdentity them; StoreSession (set_cur s' (v_load vw))]) /\
    pack ct = Ok k /\ parses_to k s me m /\ message_rel C E me them m (pv_epoch v) (pv_count v) pt /\
    state_rel C E me them {| pv_epoch := pv_epoch v; pv_count := pv_count v + 1; pv_chains := pv_chains v |} s' /\
    s_pending s' = s_pending s /\ kept s s'.
Proof.
  intros E me them v s vw pt HS HL Hc Hpt HP HV. pose proof (send_rel E me them v s HS HL Hc) as HS'. 
  destruct HS as (V & HLi & HRi & HK & HPC & (x & Hx & Hroot & Hsend) & HC & HD & H5).
  assert (H0 : ck_index (en_ck x) = 0%N) by (apply (proj2 HL); eapply nth_error_In; exact Hx).
  set (ck := ck_iter C (N.to_nat (pv_count v)) (en_ck x)) in *.
  assert (Hck : ck_index ck = pv_count v) by (unfold ck; rewrite ck_iter_index; rewrite H0; unfold u32_modulus; lia).
  rewrite Hsend in HS'. cbn [ch_key] in HS'.
  destruct (message_keys_sizes C L ck) as (Z1 & Z2 & Z3 & Z4).
  assert (HKO : aes_key_ok (mk_cipher (message_keys C ck)) = true) by (unfold aes_key_ok; rewrite Z1; reflexivity).
  destruct (cbc_roundtrip_given C L _ _ pt HKO Z3) as (body & B1 & B2 & B3 & B4).
  destruct (new_signal_message_ok C (pv_count v) (s_prev_counter s) (mk_mac (message_keys C ck)) (en_pub C x) body me them (law_hmac_len C L))
    as (mac & M1 & M2 & M3).
  set (sm := {| sm_struct := {| sg_ratchet := Some (ser_pub (en_pub C x)); sg_counter := pv_count v; sg_prev := s_prev_counter s;
                        sg_ct := Some body; sg_version := 3; sg_mac := Some mac |}; sm_ratchet := en_pub C x |}) in *.
  assert (HFB : fits body) by (unfold fits; lia).
  assert (HRT : sig_from_bytes (sig_msg_bytes sm) = Ok sm).
  { eapply new_signal_message_roundtrip; [exact (law_hmac_len C L)| | |exact HFB|exact M3]; [change (2^32)%N with 4294967296%N; lia|exact HPC]. }
  assert (HFS : sig_from_struct (sm_struct sm) = Ok sm).
  { unfold sig_from_struct, sm. cbn [sm_struct sg_version sg_ratchet sg_ct]. change (3 <=? unsupported_version)%Z with false.
    change (3 >? current_version)%Z with false. cbv iota. rewrite decode_ser_pub. reflexivity. }
  assert (HMR : message_rel C E me them sm (pv_epoch v) (pv_count v) pt).
  { exists x. split; [exact Hx|]. split; [reflexivity|]. split; [reflexivity|]. split; [reflexivity|]. split; [exact Hc|]. split.
    { apply verify_mac_exact; [exact (law_hmac_len C L)|exact HFS|]. unfold mkey. fold ck. cbn [sm sm_struct sg_mac sg_version strip_struct].
      exact M2. }
    split; [unfold decrypt_with_key, mkey; fold ck; cbn [sm sm_struct sg_ct]; exact B2|].
    split; [exact HFS|]. exists body. split; [reflexivity|]. split; [exact B3|]. clear - B3 B4. lia. }
  unfold encrypt. rewrite HV, Hsend. cbn [ch_key ch_pair]. fold ck. rewrite B1, HLi, HRi, V, Hck. cbn [pair_of kp_pub].
  change (x_base C (en_priv x)) with (en_pub C x). rewrite M3.
  unfold pending_ok in HP. unfold parses_to. destruct (s_pending s) as [p|] eqn:EP.
  - destruct HP as (i & P1 & P2 & P3 & P4).
    assert (HFI : fits (sig_msg_bytes sm)).
    { unfold fits. pose proof (sig_bytes_len (en_pub C x) (pv_count v) (s_prev_counter s) body mac M1) as HSz.
      change (sig_msg_bytes sm) with (sig_serialize (sm_struct sm)). unfold sm. cbn [sm_struct]. lia. }
    destruct (prekey_message_roundtrip (s_local_reg s) i (pp_signed p) (pp_base p) me sm P4 P2 P3 HFI HRT) as (Q1 & bs & Q2 & Q3).
    rewrite P1, Q1. cbn [bind]. eexists. exists (PPreKey bs), sm. eexists. split; [reflexivity|]. split; [cbn [pack]; rewrite Q2; reflexivity|].
    split; [eexists; split; [exact Q3|]; repeat split|].
    split; [exact HMR|]. split; [exact HS'|]. split; [unfold set_sender_chain_key; rewrite Hsend; exact EP|].
    unfold set_sender_chain_key. rewrite Hsend. repeat split.
  - eexists. exists (PSignal (sig_msg_bytes sm)), sm. eexists. split; [reflexivity|]. split; [reflexivity|]. split; [exact HRT|].
    split; [exact HMR|]. split; [exact HS'|]. split; [unfold set_sender_chain_key; rewrite Hsend; exact EP|].
    unfold set_sender_chain_key. rewrite Hsend. repeat split.
Qed.

(** * One delivery, all cases *)

Lemma dws_deliver : forall E me them v s m e n pt priv' g g1, state_rel C E me them v s -> message_rel C E them me m e n pt -> ladder C E ->
  NoDup (map (en_pub C) E) -> (e = S (pv_epoch v) -> length E = S e) -> generate_key_pair C g = (Ok (pair_of C priv'), g1) ->
  exists o s' g', decrypt_with_state C s m g = (o, s', g') /\
  match cdeliver v e n pt with
  | (Plain q, v') => q = pt /\ exists mk F, o = Ok (q, mk) /\ s_pending s' = None /\ kept s s' /\ ladder C (E ++ F) /\
      (NoDup (map (en_pub C) (E ++ F)) -> state_rel C (E ++ F) me them v' s') /\
      ((F = [] /\ pv_epoch v' = pv_epoch v /\ pv_count v' = pv_count v /\ cfind e (pv_chains v) <> None) \/
       (exists ent, F = [ent] /\ en_priv ent = priv' /\ pv_epoch v' = S e /\ pv_count v' = 0%N /\ e = S (pv_epoch v)))
  | (Refused, v') => v' = v /\ exists er, o = Err er
  | (Forgotten, v') => v' = v /\ o <> Panic
  end.
Proof.
  intros E me them v s m e n pt priv' g g1 HS HM HL HN HE HG. unfold cdeliver.
  destruct (cfind e (pv_chains v)) as [c|] eqn:EF.
  - pose proof (dws_known C L E me them v s m e n pt c g HS HM HL HN EF) as HK. destruct (caccept c n) as [c'|].
    + destruct HK as (s' & mk & K1 & K2 & K3 & K4). exists (Ok (pt, mk)), s', g. split; [exact K1|]. split; [reflexivity|].
      exists mk, []. rewrite app_nil_r. repeat (split; [first [reflexivity|assumption]|]). split; [intros _; exact K4|]. left. repeat split. discriminate.
    + destruct HK as (er & s' & K1). exists (Err er), s', g. split; [exact K1|]. split; [reflexivity|]. eauto.
  - destruct (Nat.eqb_spec e (S (pv_epoch v))) as [EE|D].
    + pose proof (dws_next C L E me them v s m e n pt priv' g g1 HS HM HL HN EF EE (HE EE) HG) as HK.
      destruct (caccept _ n) as [c'|].
      * destruct HK as (ent & s' & mk & K1 & K2 & K3 & K4 & K5 & K6). exists (Ok (pt, mk)), s', g1. split; [exact K1|]. split; [reflexivity|].
        exists mk, [ent]. repeat (split; [first [reflexivity|assumption]|]). right. exists ent. repeat split; auto.
      * destruct HK as (er & s' & K1). exists (Err er), s', g1. split; [exact K1|]. split; [reflexivity|]. eauto.
    + destruct (decrypt_with_state C s m g) as [[o s'] g'] eqn:ED. exists o, s', g'. split; [reflexivity|]. split; [reflexivity|].
      eapply dws_forgotten; eauto.
Qed.

Lemma dwr_single : forall r m g o s' g', r_prev r = [] -> decrypt_with_state C (r_cur r) m g = (o, s', g') ->
  match o with
  | Ok x => decrypt_with_record C r m g = (Ok x, set_cur s' r, g')
  | Err _ => exists r', decrypt_with_record C r m g = (Err ENoValidSessions, r', g')
  | Panic => True
  end.
Proof.
  intros r m g o s' g' HP HD. unfold decrypt_with_record. rewrite HD, HP. destruct o as [x|e|]; auto. cbn [try_prev]. eauto.
Qed.

Lemma generated : forall g p g1, generate_key_pair C g = (Ok p, g1) -> exists k, p = pair_of C k.
Proof. intros g p g1 H. unfold generate_key_pair in H. destruct (rng_read 32 g) as [[x|] g2]; [|discriminate]. injection H as <- _. eexists. reflexivity. Qed.

(** * The parties *)

Context (addr : party -> address) (priv : party -> arr32) (base signed otk : arr32) (i sid : N).
Context (Hi : (i < 2 ^ 32)%N) (Hsid : (sid < 2 ^ 32)%N) (Him : i <> medium_max).
Definition idk (p : party) : arr32 := x_base C (priv p).

Definition pend : pending_prekey := {| pp_id := Some (ou_some i); pp_signed := sid; pp_base := base |}.
Definition pending_at (p : party) (e : nat) : option pending_prekey :=
  match p, e with Alice, 1%nat => Some pend | _, _ => None end.

Definition session_rel (E : list entry) (p : party) (v : pview) (w : world) : Prop :=
  exists s, w_sessions w (addr (other p)) = Some (record_from_state s) /\ state_rel C E (idk p) (idk (other p)) v s /\
    s_base s = Some base /\ s_pending s = pending_at p (pv_epoch v) /\ (p = Alice -> (s_local_reg s < 2 ^ 32)%N).

Definition trusting (p : party) (w : world) : Prop := p = Bob -> forall saved, w_policy w saved (addr (other p)) (idk (other p)) = true.

Definition wire_rel (E : list entry) (p : party) (k : packet) (x : nat * N * bytes) : Prop :=
  let '(e, n, pt) := x in
  exists m, message_rel C E (idk p) (idk (other p)) m e n pt /\
    match k with
    | PSignal b => sig_from_bytes b = Ok m /\ (p = Alice -> e <> 1%nat)
    | PPreKey b => p = Alice /\ exists pm, pk_from_bytes b = Ok pm /\ pm_message pm = m /\ pm_base pm = base /\ pm_identity pm = idk p /\
        pk_prekey_id (pm_struct pm) = Some (ou_some i) /\ pk_signed_id (pm_struct pm) = sid /\ pk_version (pm_struct pm) = 3%Z
    end.

Definition only_saved (w w' : world) : Prop :=
  w_sessions w' = w_sessions w /\ w_prekeys w' = w_prekeys w /\ w_signed w' = w_signed w /\ w_self w' = w_self w /\ w_policy w' = w_policy w.

Lemma upd_addr_here : forall A (f : address -> option A) a x, upd_addr f a x a = x.
Proof. intros A f a x. unfold upd_addr. assert (HE : address_eqb a a = true) by (apply address_eqb_eq; reflexivity). rewrite HE. reflexivity. Qed.

Lemma state_rel_initialised : forall E me them v s b, state_rel C E me them v s -> s_base s = Some b -> initialised s.
Proof.
  intros E me them v s b (V & HLi & HRi & HK & HPC & (x & Hx & Hroot & Hsend) & _) HB.
  unfold initialised. rewrite HLi, HRi, Hroot, HB, Hsend, HK. repeat split; discriminate.
Qed.

(** The outcome expected of a party that has a session. *)
Definition outcome (E : list entry) (p : party) (v : pview) (w : world) (e : nat) (n : N) (pt : bytes) (priv' : arr32) (o : res bytes) (w' : world) : Prop :=
  match cdeliver v e n pt with
  | (Plain q, v') => o = Ok q /\ exists F, ladder C (E ++ F) /\ w_policy w' = w_policy w /\ w_self w' = w_self w /\
      (NoDup (map (en_pub C) (E ++ F)) -> session_rel (E ++ F) p v' w') /\
      ((F = [] /\ pv_epoch v' = pv_epoch v /\ pv_count v' = pv_count v /\ cfind e (pv_chains v) <> None) \/
       (exists ent, F = [ent] /\ en_priv ent = priv' /\ pv_epoch v' = S e /\ pv_count v' = 0%N /\ e = S (pv_epoch v)))
  | (Refused, v') => v' = v /\ (exists er, o = Err er) /\ only_saved w w'
  | (Forgotten, v') => v' = v /\ ((exists q, o = Ok q) \/ ((exists er, o = Err er) /\ only_saved w w'))
  end.

Lemma only_saved_refl : forall w, only_saved w w.
Proof. repeat split. Qed.

Lemma dws_ok_init : forall E me them v s m e n pt bs g x s' g', state_rel C E me them v s -> s_base s = Some bs -> message_rel C E them me m e n pt ->
  decrypt_with_state C s m g = (Ok x, s', g') -> s_remote_id s' = Some them /\ initialised s'.
Proof.
  intros E me them v s m e n pt bs g x s' g' S2 S3 HM D1.
destruct S2 as (T1 & T2 & T3 & T4 & T5 & (y & T6 & T7 & T8) & T9).
    assert (Hu : (sg_counter (sm_struct m) < u32_modulus)%N) by (destruct HM as (? & _ & _ & M2 & _ & M4 & _); rewrite M2; unfold u32_modulus; lia).
    destruct (dws_cases C _ _ _ _ _ _ Hu D1) as [[HF _]|(s1 & c & HP & _ & _ & HX)]; [exfalso; exact (HF _ eq_refl)|].
    destruct HX as [(HF & _)|(mk & c' & HR & [(HF & _)|(q & rid & lid & HO & HS' & HI1 & HI2 & _)])]; try (exfalso; exact (HF _ eq_refl)).
    destruct (prepared_ids C _ _ _ _ _ _ HP) as (I1 & I2 & I3 & I4 & I5 & I6 & I7 & I8 & I9). subst s'.
    split; [cbn [s_remote_id set_pending upd_chain set_recv]; congruence|]. unfold initialised.
    cbn [s_remote_id s_local_id s_root s_base s_sender s_pending_kx set_pending upd_chain set_recv].
    rewrite I1, I2, I4, I8, T2, T3, S3, T4.
    assert (HRS : s_root s1 <> None /\ s_sender s1 <> None).
    { destruct HP as [(_ & -> & _)|(_ & root & sc & recv & send & ours & _ & _ & _ & _ & _ & _ & ->)]; [rewrite T7, T8; split; discriminate|].
      cbn. split; discriminate. }
    repeat split; try discriminate; tauto.
Qed.

Lemma receive_session : forall E p v w k e n pt priv' g g1, session_rel E p v w -> trusting p w -> wire_rel E (other p) k (e, n, pt) -> ladder C E ->
  NoDup (map (en_pub C) E) -> (e = S (pv_epoch v) -> length E = S e) -> generate_key_pair C g = (Ok (pair_of C priv'), g1) ->
  (p = Alice -> pv_epoch v = 1%nat -> cfind e (pv_chains v) = None) ->
  exists o w', receive C (addr (other p)) k g w = (o, w') /\ outcome E p v w e n pt priv' o w'.
Proof.
  intros E p v w k e n pt priv' g g1 (s & S1 & S2 & S3 & S4 & S5) HT HW HL HN HE HG H1.
  destruct HW as (m & HM & HK).
  assert (Hoo : other (other p) = p) by (destruct p; reflexivity). rewrite Hoo in HM.
  destruct (dws_deliver E (idk p) (idk (other p)) v s m e n pt priv' g g1 S2 HM HL HN HE HG) as (o & s' & g' & D1 & D2).
  pose proof (dwr_single (record_from_state s) m g o s' g' eq_refl D1) as DR.
  assert (HV : v_load (view_of w (addr (other p))) = record_from_state s) by (unfold view_of; rewrite S1; reflexivity).
  assert (HVC : v_contains (view_of w (addr (other p))) = true) by (unfold view_of; rewrite S1; reflexivity).
  assert (HInit : forall E' v' , state_rel C E' (idk p) (idk (other p)) v' s' -> kept s s' -> persist (set_cur s' (record_from_state s)) = Ok (record_from_state s')).
  { intros E' v' HR (K1 & _). rewrite persist_ok; [reflexivity| |constructor]. eapply state_rel_initialised; [exact HR|]. cbn [r_cur set_cur]. rewrite K1. exact S3. }
  assert (HRid : forall x, o = Ok x -> s_remote_id s' = Some (idk (other p)) /\ initialised s').
  { intros x Ho. subst o. eapply dws_ok_init; eauto. }
  assert (CORE : forall ow w0, 
     (forall x, o = Ok x -> ow = Ok (fst x) /\ w_sessions w0 (addr (other p)) = Some (record_from_state s') /\ w_policy w0 = w_policy w /\ w_self w0 = w_self w) ->
     (forall er, o = Err er -> (exists er', ow = Err er') /\ only_saved w w0) ->
     outcome E p v w e n pt priv' ow w0).
  { intros ow w0 HO HErr. unfold outcome. destruct (cdeliver v e n pt) as [x v'] eqn:EC. destruct x as [q| |].
    - destruct D2 as (-> & mk & F & -> & P1 & P2 & P3 & P4 & P5). specialize (HO _ eq_refl). destruct HO as (O1 & O2 & O3 & O4). cbn [fst] in O1.
      split; [exact O1|]. exists F. split; [exact P3|]. split; [exact O3|]. split; [exact O4|]. split; [|exact P5].
      intros HND. exists s'. split; [exact O2|]. split; [apply P4; exact HND|]. destruct P2 as (K1 & K2 & K3). split; [congruence|]. split.
      + rewrite P1. destruct P5 as [(-> & Q1 & Q2 & Q3)|(ent & _ & _ & Q1 & _ & Q2)]; rewrite Q1.
        * unfold pending_at. destruct p; [|reflexivity]. destruct (pv_epoch v) as [|[|z]] eqn:EV; try reflexivity. exfalso. apply Q3. apply H1; reflexivity.
        * unfold pending_at. destruct p; [|reflexivity]. rewrite Q2. reflexivity.
      + intros HA. rewrite K2. apply S5. exact HA.
    - destruct D2 as (-> & er & ->). split; [reflexivity|]. apply (HErr er eq_refl).
    - destruct D2 as (-> & HNP). split; [reflexivity|]. destruct o as [x|er|]; [|right; apply (HErr er eq_refl)|exfalso; apply HNP; reflexivity].
      left. destruct (HO _ eq_refl) as (-> & _). eauto. }
  destruct k as [b|b].
  - destruct HK as [HK _]. unfold receive. rewrite HK. unfold w_decrypt, decrypt_and_get_key. rewrite HVC, HV. cbn [negb].
    destruct o as [x|er|].
    + rewrite DR. destruct (HRid x eq_refl) as [HR1 HR2]. cbn [r_cur set_cur]. rewrite HR1. cbn [commit apply_effect].
      rewrite persist_ok by (auto; constructor). cbn [commit seal plain]. destruct x as [x1 x2]. eexists. eexists. split; [reflexivity|].
      apply CORE; [|discriminate]. intros y Hy. injection Hy as <-. cbn. rewrite upd_addr_here. repeat split.
    + destruct DR as (r' & ->). cbn [commit seal plain]. eexists. eexists. split; [reflexivity|]. apply CORE; [discriminate|].
      intros er' _. split; [eauto|apply only_saved_refl].
    + exfalso. destruct (cdeliver v e n pt) as [[q| |] v']; [destruct D2 as (_ & mk & F & D & _); discriminate|destruct D2 as (_ & er & D); discriminate|apply D2; reflexivity].
  - destruct HK as (HA & pm & K1 & K2 & K3 & K4 & K5 & K6 & K7). assert (p = Bob) by (destruct p; [discriminate HA|reflexivity]). subst p.
    unfold receive. rewrite K1. unfold w_decrypt_message, decrypt_message, process. rewrite HV, K4.
    change (v_trusted (view_of w (addr (other Bob))) (idk (other Bob))) with (w_policy w (w_saved w) (addr (other Bob)) (idk (other Bob))).
    rewrite (HT eq_refl). cbn [negb]. unfold process_v3. rewrite K3, K7.
    assert (HH : has_session_state 3 (ser_pub base) (record_from_state s) = true).
    { apply (matches_has _ _ _ s); [left; reflexivity|]. split; [apply S2|exact S3]. }
    rewrite HH, K2. destruct o as [x|er|].
    + rewrite DR. cbn [ou_empty ou_none app]. destruct (HRid x eq_refl) as [HR1 HR2]. cbn [commit apply_effect].
      rewrite persist_ok by (auto; constructor). cbn [commit seal plain]. destruct x as [x1 x2]. eexists. eexists. split; [reflexivity|].
      apply CORE; [|discriminate]. intros y Hy. injection Hy as <-. cbn. rewrite upd_addr_here. repeat split.
    + destruct DR as (r' & ->). cbn [commit apply_effect seal plain]. eexists. eexists. split; [reflexivity|]. apply CORE; [discriminate|].
      intros er' _. split; [eauto|]. repeat split.
    + exfalso. destruct (cdeliver v e n pt) as [[q| |] v']; [destruct D2 as (_ & mk & F & D & _); discriminate|destruct D2 as (_ & er & D); discriminate|apply D2; reflexivity].
Qed.

(** * First contact *)

Definition bob_ready (w : world) : Prop :=
  w_sessions w (addr Alice) = None /\ w_prekeys w i = Some (pair_of C otk) /\ w_signed w sid = Some (pair_of C signed) /\
  w_self w = {| ip_pub := idk Bob; ip_priv := priv Bob |}.

(** Epoch 0: the keys both sides derive from X3DH, with Bob's signed prekey as ratchet key. *)
Definition epoch0 (x : entry) : Prop :=
  en_priv x = signed /\
  calculate_receiver_session C
    {| rp_our_identity := {| ip_pub := idk Bob; ip_priv := priv Bob |}; rp_our_signed := pair_of C signed;
       rp_our_one_time := Some (pair_of C otk); rp_our_ratchet := pair_of C signed; rp_their_base := base; rp_their_identity := idk Alice |} =
  Ok {| sk_root := en_root x; sk_chain := en_ck x |}.

Definition no_view : pview := {| pv_epoch := 0; pv_count := 0; pv_chains := [] |}.

Lemma receive_first : forall E x w k e n pt priv' g g1, bob_ready w -> trusting Bob w -> wire_rel E Alice k (e, n, pt) -> e = 1%nat ->
  ladder C E -> NoDup (map (en_pub C) E) -> length E = 2%nat -> nth_error E 0 = Some x -> epoch0 x ->
  generate_key_pair C g = (Ok (pair_of C priv'), g1) ->
  exists o w', receive C (addr Alice) k g w = (o, w') /\ outcome E Bob no_view w e n pt priv' o w' /\ forall q, o = Ok q -> w_prekeys w' i = None.
Proof.
  intros E x w k e n pt priv' g g1 (B1 & B2 & B3 & B4) HT HW He HL HN HLen Hx (X1 & X2) HG.
  destruct HW as (m & HM & HK). destruct k as [b|b]; [exfalso; apply HK; auto|].
  destruct HK as (_ & pm & K1 & K2 & K3 & K4 & K5 & K6 & K7).
  assert (HV : v_load (view_of w (addr Alice)) = new_record) by (unfold view_of; rewrite B1; reflexivity).
  unfold receive. rewrite K1. unfold w_decrypt_message, decrypt_message, process. rewrite HV, K4.
  change (v_trusted (view_of w (addr Alice)) (idk Alice)) with (w_policy w (w_saved w) (addr (other Bob)) (idk (other Bob))).
  rewrite (HT eq_refl). cbn [negb]. unfold process_v3. rewrite K3, K7.
  assert (HH : has_session_state 3 (ser_pub base) new_record = false) by reflexivity.
  rewrite HH, K6, K5, K4. cbn [v_signed v_prekey view_of]. rewrite B3. cbn [ou_value ou_some]. rewrite B2. cbn [new_record r_fresh].
  cbn [v_identity view_of]. rewrite B4, X2. cbn [sk_root sk_chain r_cur].
  set (s0 := set_base base _).
  assert (HS0 : state_rel C E (idk Bob) (idk (other Bob)) no_view s0 /\ s_base s0 = Some base /\ s_pending s0 = None).
  { split; [|split; reflexivity]. unfold state_rel. split; [reflexivity|]. split; [reflexivity|]. split; [reflexivity|]. split; [reflexivity|].
    split; [reflexivity|]. split.
    - exists x. split; [exact Hx|]. split; [reflexivity|]. cbn. rewrite X1. reflexivity.
    - split; [constructor|]. split; [constructor|]. cbn. lia. }
  destruct HS0 as (S2 & S3 & S4).
  assert (HE : e = S (pv_epoch no_view) -> length E = S e) by (intros _; rewrite He; exact HLen).
  destruct (dws_deliver E (idk Bob) (idk (other Bob)) no_view s0 m e n pt priv' g g1 S2 HM HL HN HE HG) as (o & s' & g' & D1 & D2).
  rewrite K2. set (r0 := set_cur s0 _).
  pose proof (dwr_single r0 m g o s' g' eq_refl D1) as DR.
  assert (HM1 : (i =? medium_max)%N = false) by (apply N.eqb_neq; exact Him). rewrite HM1.
  unfold outcome. destruct (cdeliver no_view e n pt) as [z v'] eqn:EC. destruct z as [q| |].
  - destruct D2 as (-> & mk & F & -> & P1 & P2 & P3 & P4 & P5). rewrite DR. cbn [ou_empty ou_some ou_value app commit apply_effect].
    assert (HIn : initialised s').
    { eapply dws_ok_init; eauto. }
    rewrite persist_ok by (auto; constructor). cbn [commit seal plain]. eexists. eexists. split; [reflexivity|].
    split; [|intros q0 _; cbn [w_prekeys]; unfold upd_id; rewrite N.eqb_refl; reflexivity]. split; [reflexivity|].
    exists F. split; [exact P3|]. split; [reflexivity|]. split; [reflexivity|]. split; [|exact P5].
    intros HND. exists s'. split; [cbn [w_sessions]; apply upd_addr_here|]. split; [apply P4; exact HND|]. destruct P2 as (Q1 & _).
    split; [congruence|]. split; [rewrite P1; reflexivity|discriminate].
  - destruct D2 as (-> & er & ->). destruct DR as (r' & ->). cbn [commit apply_effect seal plain]. eexists. eexists. split; [reflexivity|].
    split; [|intros q0 Hq0; discriminate Hq0]. split; [reflexivity|]. split; [eauto|]. repeat split.
  - exfalso. unfold cdeliver in EC. rewrite He in EC. cbn [cfind find pv_chains no_view pv_epoch Nat.eqb] in EC. destruct (caccept _ n); discriminate.
Qed.

(** * Whole runs *)

Definition party_rel (E : list entry) (p : party) (v : pview) (w : world) : Prop :=
  trusting p w /\
  match p, pv_epoch v with
  | Alice, O => False
  | Bob, O => v = no_view /\ bob_ready w
  | _, _ => session_rel E p v w
  end.

Definition sends (evs : list cevent) : N := N.of_nat (length (plaintexts evs)).

Record ginv (E : list entry) (v : party -> pview) (sent : party -> list (nat * N * bytes)) (w : party -> world)
    (wire : party -> list packet) (evs : list cevent) : Prop := {
  g_ladder : ladder C E;
  g_epoch0 : exists x, nth_error E 0 = Some x /\ epoch0 x;
  g_len : length E = S (Nat.max (pv_epoch (v Alice)) (pv_epoch (v Bob)));
  g_diff : pv_epoch (v Alice) = S (pv_epoch (v Bob)) \/ pv_epoch (v Bob) = S (pv_epoch (v Alice));
  g_even : Nat.even (pv_epoch (v Bob)) = true;
  g_fresh : NoDup (map (fun x => Some (en_pub C x)) E ++ map (new_pub C) (delivery_rngs evs));
  g_rngs : forall g, In g (delivery_rngs evs) -> new_pub C g <> None;
  g_party : forall p, party_rel E p (v p) (w p);
  g_wire : forall p, Forall2 (wire_rel E p) (wire p) (sent p);
  g_sent : forall p e n pt, In (e, n, pt) (sent p) -> (1 <= e <= pv_epoch (v p))%nat /\ (p = Bob -> (2 <= e)%nat);
  g_first : pv_epoch (v Alice) = 1%nat -> map cv_epoch (pv_chains (v Alice)) = [0%nat];
  g_count : forall p, (pv_count (v p) + sends evs < 4294967295)%N;
  g_size : forall pt, In pt (plaintexts evs) -> (N.of_nat (length pt) + 200 < 9223372036854775808)%N }.

Lemma nodup_app_left : forall A (a b : list A), NoDup (a ++ b) -> NoDup a.
Proof.
  intros A a b. induction a as [|x a IH]; intros H; [constructor|]. inversion H as [|? ? H1 H2]; subst. constructor; auto.
  intros HI. apply H1. apply in_or_app. auto.
Qed.

Lemma upd_same : forall A (f : party -> A) p x, upd_party f p x p = x.
Proof. intros A f p x. destruct p; reflexivity. Qed.
Lemma upd_diff : forall A (f : party -> A) p x, upd_party f p x (other p) = f (other p).
Proof. intros A f p x. destruct p; reflexivity. Qed.
Lemma party_cases : forall p q, q = p \/ q = other p.
Proof. intros [|] [|]; auto. Qed.

Lemma session_rel_mono : forall E F p v w, session_rel E p v w -> session_rel (E ++ F) p v w.
Proof. intros E F p v w (s & S1 & S2 & S3). exists s. split; [exact S1|]. split; [apply state_rel_mono; exact S2|exact S3]. Qed.

Lemma party_rel_mono : forall E F p v w, party_rel E p v w -> party_rel (E ++ F) p v w.
Proof.
  intros E F p v w [HT H]. split; [exact HT|]. destruct p; destruct (pv_epoch v); try exact H; apply session_rel_mono; exact H.
Qed.

Lemma wire_rel_mono : forall E F p k x, wire_rel E p k x -> wire_rel (E ++ F) p k x.
Proof. intros E F p k [[e n] pt] (m & H & R). exists m. split; [apply message_rel_mono; exact H|exact R]. Qed.

Lemma wires_mono : forall E F p ks xs, Forall2 (wire_rel E p) ks xs -> Forall2 (wire_rel (E ++ F) p) ks xs.
Proof. intros E F p ks xs H. induction H; constructor; auto. apply wire_rel_mono. assumption. Qed.

Lemma only_saved_party : forall E p v w w', only_saved w w' -> party_rel E p v w -> party_rel E p v w'.
Proof.
  intros E p v w w' (O1 & O2 & O3 & O4 & O5) [HT H]. split; [unfold trusting; rewrite O5; exact HT|].
  assert (HS : session_rel E p v w -> session_rel E p v w') by (unfold session_rel; rewrite O1; auto).
  assert (HB : bob_ready w -> bob_ready w') by (unfold bob_ready; rewrite O1, O2, O3, O4; auto).
  destruct p; destruct (pv_epoch v); auto; tauto.
Qed.

Lemma nth_rel : forall A B (R : A -> B -> Prop) l l' j, Forall2 R l l' ->
  match nth_error l j, nth_error l' j with Some a, Some b => R a b /\ In b l' | None, None => True | _, _ => False end.
Proof.
  intros A B R l l' j H. revert j. induction H as [|a b l l' Hab Hl IH]; intros [|j]; cbn; auto.
  specialize (IH j). destruct (nth_error l j), (nth_error l' j); auto. destruct IH. auto.
Qed.

Lemma party_has : forall E p v w, party_rel E p v w ->
  match pv_epoch v with O => p = Bob /\ has_session (addr (other p)) w = false | S _ => has_session (addr (other p)) w = true /\ session_rel E p v w end.
Proof.
  intros E p v w [_ H]. unfold has_session. destruct p; destruct (pv_epoch v) as [|z] eqn:EV.
  - destruct H.
  - split; [|exact H]. destruct H as (s & H & _). rewrite H. reflexivity.
  - destruct H as (_ & H & _). change (other Bob) with Alice. rewrite H. auto.
  - split; [|exact H]. destruct H as (s & H & _). rewrite H. reflexivity.
Qed.

(** One event of a run. *)
Lemma send_nothing : forall E v sent w wire p pt evs, ginv E v sent w wire (Send p pt :: evs) -> pv_epoch (v p) = 0%nat ->
  has_session (addr (other p)) (w p) = false /\ ginv E v sent w wire evs.
Proof.
  intros E v sent w wire p pt evs HI EV. pose proof (party_has E p (v p) (w p) (g_party _ _ _ _ _ _ HI p)) as HH. rewrite EV in HH. destruct HH as [HP HH].
  split; [exact HH|]. destruct HI as [I1 I2 I3 I4 I13 I5 I6 I7 I8 I9 I10 I11 I12]. constructor; auto.
  - intros q. specialize (I11 q). unfold sends in *. cbn [plaintexts flat_map app length] in I11. fold (plaintexts evs) in I11. lia.
  - intros q Hq. apply I12. right. exact Hq.
Qed.

Lemma send_step : forall E v sent w wire p pt evs z, ginv E v sent w wire (Send p pt :: evs) -> pv_epoch (v p) = S z ->
  exists ct k w', has_session (addr (other p)) (w p) = true /\ w_encrypt C (addr (other p)) pt (w p) = (Ok ct, w') /\ pack ct = Ok k /\
    w_prekeys w' = w_prekeys (w p) /\ w_self w' = w_self (w p) /\
    ginv E (upd_party v p {| pv_epoch := pv_epoch (v p); pv_count := pv_count (v p) + 1; pv_chains := pv_chains (v p) |})
      (upd_party sent p (sent p ++ [(pv_epoch (v p), pv_count (v p), pt)])) (upd_party w p w') (upd_party wire p (wire p ++ [k])) evs.
Proof.
  intros E v sent w wire p pt evs z HI EV. pose proof (party_has E p (v p) (w p) (g_party _ _ _ _ _ _ HI p)) as HH. rewrite EV in HH.
    destruct HH as [HHs (s & S1 & S2 & S3 & S4 & S5)].
    destruct HI as [I1 I2 I3 I4 I13 I5 I6 I7 I8 I9 I10 I11 I12].
    assert (Hc : (pv_count (v p) + 1 + sends evs < 4294967295)%N).
    { specialize (I11 p). unfold sends in *. cbn [plaintexts flat_map app length] in I11. fold (plaintexts evs) in I11. lia. }
    assert (HV : r_cur (v_load (view_of (w p) (addr (other p)))) = s) by (unfold view_of; cbn [v_load]; rewrite S1; reflexivity).
    assert (HV' : v_load (view_of (w p) (addr (other p))) = record_from_state s) by (unfold view_of; cbn [v_load]; rewrite S1; reflexivity).
    assert (HPO : pending_ok s (idk p)).
    { unfold pending_ok. rewrite S4. unfold pending_at. destruct p; [|exact I]. destruct (pv_epoch (v Alice)) as [|[|]]; try exact I.
      exists i. repeat split; auto. }
    assert (Hlt : (pv_count (v p) < 4294967295)%N) by lia.
    destruct (encrypt_rel E (idk p) (idk (other p)) (v p) s (view_of (w p) (addr (other p))) pt S2 I1 Hlt (I12 pt (or_introl eq_refl)) HPO HV)
      as (ct & k & m & s' & E1 & E2 & E3 & E4 & E5 & E6 & E7).
    assert (HIn : initialised s') by (eapply state_rel_initialised; [exact E5|]; destruct E7 as (K1 & _); rewrite K1; exact S3).
    set (v1 := {| pv_epoch := pv_epoch (v p); pv_count := pv_count (v p) + 1; pv_chains := pv_chains (v p) |}) in *.
    exists ct, k. eexists. split; [exact HHs|].
    split; [unfold w_encrypt; rewrite E1, HV'; cbn [commit apply_effect]; rewrite persist_ok by (auto; constructor); cbn [commit seal]; reflexivity|].
    split; [exact E2|]. split; [reflexivity|]. split; [reflexivity|].
    assert (HW : wire_rel E p k (pv_epoch (v p), pv_count (v p), pt)).
    { exists m. split; [exact E4|]. unfold parses_to in E3. rewrite S4 in E3. unfold pending_at in E3.
      destruct p.
      - rewrite EV in E3 |- *. destruct z as [|z]; destruct k as [b|b]; try (destruct E3; fail).
        + split; [reflexivity|]. destruct E3 as (pm & P1 & P2 & P3 & P4 & P5 & P6 & P7). exists pm. repeat split; auto.
        + split; [exact E3|]. intros _. discriminate.
      - destruct k as [b|b]; [|destruct E3]. split; [exact E3|]. discriminate. }
    constructor; auto.
    + rewrite I3. destruct p; reflexivity.
    + destruct p; exact I4.
    + destruct p; exact I13.
    + intros q. destruct (party_cases p q) as [->| ->]; [|rewrite !upd_diff; apply I7]. rewrite !upd_same. split; [exact (proj1 (I7 p))|].
      assert (HS : session_rel E p v1 
        {| w_sessions := upd_addr (w_sessions (w p)) (addr (other p)) (Some (unfresh (set_cur s' (record_from_state s))));
           w_saved := upd_addr (w_saved (w p)) (addr (other p)) (Some (idk (other p))); w_prekeys := w_prekeys (w p); w_signed := w_signed (w p);
           w_self := w_self (w p); w_reg := w_reg (w p); w_policy := w_policy (w p) |}).
      { exists s'. split; [cbn [w_sessions]; apply upd_addr_here|]. split; [exact E5|]. destruct E7 as (K1 & K2 & _). split; [congruence|].
        split; [rewrite E6, S4; reflexivity|]. intros HA. rewrite K2. auto. }
      assert (EV1 : pv_epoch v1 = S z) by exact EV. rewrite EV1. destruct p; exact HS.
    + intros q. destruct (party_cases p q) as [->| ->]; [|rewrite !upd_diff; apply I8]. rewrite !upd_same.
      apply Forall2_app; [apply I8|]. constructor; [exact HW|constructor].
    + intros q e n x. destruct (party_cases p q) as [->| ->]; [|rewrite !upd_diff; apply I9]. rewrite !upd_same. intros HIn'. apply in_app_or in HIn'.
      destruct HIn' as [HIn'|[HIn'|[]]]; [apply I9 in HIn'; exact HIn'|]. injection HIn' as <- <- <-. cbn [v1 pv_epoch]. split; [lia|].
      intros ->. rewrite EV in I13 |- *. destruct z; [discriminate I13|lia].
    + destruct p; exact I10.
    + intros q. destruct (party_cases p q) as [->| ->]; [rewrite upd_same; exact Hc|rewrite upd_diff]. specialize (I11 (other p)). 
      unfold sends in *. cbn [plaintexts flat_map app length] in I11. fold (plaintexts evs) in I11. lia.
    + intros q Hq. apply I12. right. exact Hq.
Qed.

Lemma deliver_nothing : forall E v sent w wire p j g evs, ginv E v sent w wire (Deliver p j g :: evs) -> ginv E v sent w wire evs.
Proof.
  intros E v sent w wire p j g evs [I1 I2 I3 I4 I13 I5 I6 I7 I8 I9 I10 I11 I12]. cbn [delivery_rngs flat_map app map] in I5, I6. fold (delivery_rngs evs) in I5, I6.
  constructor; auto.
  - apply NoDup_remove_1 in I5. exact I5.
  - intros g' Hg'. apply I6. right. exact Hg'.
Qed.

Lemma deliver_step : forall E v sent w wire p j g evs k e n pt, ginv E v sent w wire (Deliver p j g :: evs) ->
  nth_error (wire (other p)) j = Some k -> nth_error (sent (other p)) j = Some (e, n, pt) ->
  exists o w', receive C (addr (other p)) k g (w p) = (o, w') /\ (pv_epoch (v p) = 0%nat -> forall q, o = Ok q -> w_prekeys w' i = None) /\
    match cdeliver (v p) e n pt with
    | (Plain q, v') => o = Ok q /\ w_self w' = w_self (w p) /\
        exists F, (forall ent, In ent F -> exists priv' g1, generate_key_pair C g = (Ok (pair_of C priv'), g1) /\ en_priv ent = priv') /\
          ginv (E ++ F) (upd_party v p v') sent (upd_party w p w') wire evs
    | (Refused, v') => (exists er, o = Err er) /\ only_saved (w p) w' /\ ginv E (upd_party v p v') sent (upd_party w p w') wire evs
    | (Forgotten, v') => (exists q, o = Ok q) \/ ((exists er, o = Err er) /\ only_saved (w p) w' /\ ginv E (upd_party v p v') sent (upd_party w p w') wire evs)
    end.
Proof.
  intros E v sent w wire p j g evs k e n pt HI EK ES. assert (HI' := HI). destruct HI' as [I1 I2 I3 I4 I13 I5 I6 I7 I8 I9 I10 I11 I12].
    cbn [delivery_rngs flat_map app map] in I5, I6. fold (delivery_rngs evs) in I5, I6.
    assert (STAY : forall w', only_saved (w p) w' -> ginv E v sent (upd_party w p w') wire evs).
    { intros w' HO. constructor; auto.
      - apply NoDup_remove_1 in I5. exact I5.
      - intros g' Hg'. apply I6. right. exact Hg'.
      - intros q. destruct (party_cases p q) as [->| ->]; [rewrite upd_same; eapply only_saved_party; [exact HO|apply I7]|rewrite upd_diff; apply I7]. }
    pose proof (nth_rel _ _ _ _ _ j (I8 (other p))) as HJ. rewrite EK, ES in HJ.
    destruct HJ as [HW HIn]. destruct (I9 _ _ _ _ HIn) as [He1 He2].
    assert (HG : exists priv' g1, generate_key_pair C g = (Ok (pair_of C priv'), g1) /\ new_pub C g = Some (x_base C priv')).
    { specialize (I6 g (or_introl eq_refl)). unfold new_pub in *. destruct (generate_key_pair C g) as [[pr| |] g1] eqn:EG; cbn [fst] in *; try congruence.
      destruct (generated _ _ _ EG) as (k' & ->). eauto. }
    destruct HG as (priv' & g1 & HG & HP).
    assert (HN : NoDup (map (en_pub C) E)).
    { apply NoDup_remove_1 in I5. apply nodup_app_left in I5. apply (NoDup_map_inv Some). rewrite map_map. exact I5. }
    assert (HEL : e = S (pv_epoch (v p)) -> length E = S e /\ pv_epoch (v (other p)) = e).
    { intros HE. rewrite I3. destruct p; cbn [other] in *; lia. }
    assert (HC1 : p = Alice -> pv_epoch (v p) = 1%nat -> cfind e (pv_chains (v p)) = None).
    { intros -> HE. specialize (I10 HE). specialize (He2 eq_refl). destruct (cfind e (pv_chains (v Alice))) as [c|] eqn:EF; [|reflexivity]. exfalso.
      unfold cfind in EF. apply find_some in EF. destruct EF as [EF1 EF2]. apply Nat.eqb_eq in EF2.
      apply (in_map cv_epoch) in EF1. rewrite I10, EF2 in EF1. destruct EF1 as [EF1|[]]. lia. }
    assert (REC : exists o w', receive C (addr (other p)) k g (w p) = (o, w') /\ outcome E p (v p) (w p) e n pt priv' o w' /\
       (pv_epoch (v p) = 0%nat -> forall q, o = Ok q -> w_prekeys w' i = None)).
    { pose proof (party_has E p (v p) (w p) (I7 p)) as HH. destruct (pv_epoch (v p)) as [|z] eqn:EV.
      - destruct HH as [-> _]. destruct (I7 Bob) as [HT HB]. rewrite EV in HB. destruct HB as [HB1 HB2]. destruct I2 as (x & X1 & X2).
        cbn [other] in *. rewrite EV in *. assert (e = 1%nat) by lia. rewrite HB1.
        destruct (receive_first E x (w Bob) k e n pt priv' g g1 HB2 HT HW H I1 HN ltac:(rewrite I3; lia) X1 X2 HG) as (o & w' & R1 & R2 & R3). exists o, w'. auto.
      - destruct HH as [_ HS]. destruct (I7 p) as [HT _]. destruct (receive_session E p (v p) (w p) k e n pt priv' g g1 HS HT HW I1 HN) as (o & w' & R1 & R2); eauto; rewrite ?EV; auto.
        { intros HE. apply HEL. exact HE. }
        exists o, w'. split; [exact R1|]. split; [exact R2|]. intros HZ. discriminate HZ. }
    destruct REC as (o & w' & HR & HO & HPK). exists o, w'. split; [exact HR|]. split; [exact HPK|]. unfold outcome in HO. destruct (cdeliver (v p) e n pt) as [x v'] eqn:EC. destruct x as [q| |].
    + destruct HO as (-> & F & F1 & F2 & F3 & F4 & F5). split; [reflexivity|]. split; [exact F3|]. exists F.
      assert (HND : NoDup (map (fun x => Some (en_pub C x)) (E ++ F) ++ map (new_pub C) (delivery_rngs evs))).
      { destruct F5 as [(-> & _)|(ent & -> & HE & _)].
        - rewrite app_nil_r. apply NoDup_remove_1 in I5. exact I5.
        - rewrite map_app. cbn [map]. rewrite <- app_assoc. cbn [app]. replace (Some (en_pub C ent)) with (new_pub C g); [exact I5|].
          rewrite HP. unfold en_pub. rewrite HE. reflexivity. }
      assert (HNF : NoDup (map (en_pub C) (E ++ F))).
      { apply nodup_app_left in HND. apply (NoDup_map_inv Some). rewrite map_map. exact HND. }
      specialize (F4 HNF).
      split; [intros ent He; exists priv', g1; destruct F5 as [(-> & _)|(ent' & -> & HE & _)]; [destruct He|]; destruct He as [<-|[]]; split; [exact HG|exact HE]|].
      assert (HEP : (F = [] /\ pv_epoch v' = pv_epoch (v p)) \/ (length F = 1%nat /\ e = S (pv_epoch (v p)) /\ pv_epoch v' = S e)).
      { destruct F5 as [(-> & Q & _)|(ent & -> & _ & Q & _ & Q2)]; [left; auto|right; auto]. }
      constructor; auto.
      * destruct I2 as (x & X1 & X2). exists x. split; [apply nth_mono; exact X1|exact X2].
      * rewrite app_length, I3. destruct HEP as [(-> & Q)|(Q1 & Q2 & Q3)]; [|destruct (HEL Q2) as [_ HOE]]; destruct p; cbn [upd_party party_eqb other] in *; cbn [length]; lia.
      * destruct HEP as [(-> & Q)|(Q1 & Q2 & Q3)]; [|destruct (HEL Q2) as [_ HOE]]; destruct p; cbn [upd_party party_eqb other] in *; lia.
      * destruct p; cbn [upd_party party_eqb]; [exact I13|]. destruct HEP as [(-> & Q)|(Q1 & Q2 & Q3)]; [rewrite Q; exact I13|]. rewrite Q3, Q2. exact I13.
      * intros g' Hg'. apply I6. right. exact Hg'.
      * intros q'. destruct (party_cases p q') as [->| ->]; [|rewrite !upd_diff; apply party_rel_mono; apply I7]. rewrite !upd_same.
        destruct (I7 p) as [HT HPR]. split; [unfold trusting; rewrite F2; exact HT|].
        assert (HZ : pv_epoch v' <> 0%nat).
        { destruct HEP as [(-> & Q)|(Q1 & Q2 & Q3)]; [|lia]. rewrite Q. intros HZ. rewrite HZ in HPR. destruct p; [exact HPR|]. destruct HPR as [HPR _].
          destruct F5 as [(_ & _ & _ & Q4)|(ent & D & _)]; [|discriminate]. apply Q4. rewrite HPR. reflexivity. }
        destruct p; destruct (pv_epoch v'); try congruence; exact F4.
      * intros q'. apply wires_mono. apply I8.
      * intros q' e' n' pt' HIn'. apply I9 in HIn'. destruct (party_cases p q') as [->| ->]; [|rewrite upd_diff; exact HIn']. rewrite upd_same.
        split; [|apply HIn']. destruct HEP as [(_ & Q)|(Q1 & Q2 & Q3)]; lia.
      * destruct p; cbn [upd_party party_eqb]; [|exact I10]. intros HE. exfalso.
        destruct F5 as [(_ & Q & _ & Q4)|(ent & _ & _ & Q & _ & Q2)]; [|lia]. apply Q4. apply HC1; [reflexivity|lia].
      * intros q'. destruct (party_cases p q') as [->| ->]; [rewrite upd_same|rewrite upd_diff; apply (I11 (other p))].
        specialize (I11 p). change (sends (Deliver p j g :: evs)) with (sends evs) in I11.
        destruct F5 as [(_ & _ & Q & _)|(ent & _ & _ & _ & Q & _)]; lia.
    + destruct HO as (-> & HE & HO). split; [exact HE|]. split; [apply HO|]. specialize (STAY _ HO).
      destruct STAY as [J1 J2 J3 J4 J13 J5 J6 J7 J8 J9 J10 J11 J12].
      assert (HU : forall q, upd_party v p (v p) q = v q) by (intros [|]; destruct p; reflexivity).
      constructor; auto; try (rewrite !HU; assumption); intros; rewrite ?HU; eauto.
    + destruct HO as (-> & [HE|(HE & HO)]); [left; exact HE|]. right. split; [exact HE|]. split; [apply HO|]. specialize (STAY _ HO).
      destruct STAY as [J1 J2 J3 J4 J13 J5 J6 J7 J8 J9 J10 J11 J12].
      assert (HU : forall q, upd_party v p (v p) q = v q) by (intros [|]; destruct p; reflexivity).
      constructor; auto; try (rewrite !HU; assumption); intros; rewrite ?HU; eauto.
Qed.

Theorem simulation : forall evs E v sent w wire, ginv E v sent w wire evs -> conforms (crun C addr w wire evs) (cspec v sent evs).
Proof.
  induction evs as [|ev evs IH]; intros E v sent w wire HI; [constructor|]. destruct ev as [p pt|p j g]; cbn [crun cspec].
  - destruct (pv_epoch (v p)) as [|z] eqn:EV.
    + destruct (send_nothing _ _ _ _ _ _ _ _ HI EV) as [-> HI']. exact (IH _ _ _ _ _ HI').
    + destruct (send_step _ _ _ _ _ _ _ _ _ HI EV) as (ct & k & w' & -> & -> & -> & _ & _ & HI'). rewrite EV in HI'. exact (IH _ _ _ _ _ HI').
  - pose proof (nth_rel _ _ _ _ _ j (g_wire _ _ _ _ _ _ HI (other p))) as HJ.
    destruct (nth_error (wire (other p)) j) as [k|] eqn:EK; destruct (nth_error (sent (other p)) j) as [[[e n] pt]|] eqn:ES; [|destruct HJ|destruct HJ|].
    2:{ exact (IH _ _ _ _ _ (deliver_nothing _ _ _ _ _ _ _ _ _ HI)). }
    destruct (deliver_step _ _ _ _ _ _ _ _ _ _ _ _ _ HI EK ES) as (o & w' & -> & _ & HO). destruct (cdeliver (v p) e n pt) as [[q| |] v'].
    + destruct HO as (-> & _ & F & _ & HI'). apply Conf_plain. exact (IH _ _ _ _ _ HI').
    + destruct HO as ((er & ->) & _ & HI'). apply Conf_refused. exact (IH _ _ _ _ _ HI').
    + destruct HO as [(q & ->)|((er & ->) & _ & HI')]; [apply Conf_collision|]. apply Conf_forgotten. exact (IH _ _ _ _ _ HI').
Qed.

(** * The start *)

Lemma commit_bundle : forall a r r' k w, persist r = Ok r' -> exists w', commit a [StoreSession r; SaveIdentity k] w = (w', true) /\
  w_sessions w' a = Some r' /\ w_policy w' = w_policy w.
Proof.
  intros a r r' k w H. cbn [commit apply_effect]. rewrite H. eexists. split; [reflexivity|]. cbn [w_sessions w_policy]. split; [apply upd_addr_here|reflexivity].
Qed.

Lemma start_inv : forall wa wb b k1 k2 g g1 g2 wa1 g' evs,
  w_self wa = {| ip_pub := idk Alice; ip_priv := priv Alice |} -> (w_reg wa < 2 ^ 32)%N -> w_sessions wa (addr Bob) = None ->
  bob_ready wb -> trusting Bob wb ->
  b_prekey_id b = Some (ou_some i) -> b_prekey b = Some (x_base C otk) -> b_signed_id b = sid -> b_signed b = Some (x_base C signed) ->
  b_identity b = idk Bob -> base = x_base C k1 ->
  generate_key_pair C g = (Ok (pair_of C k1), g1) -> generate_key_pair C g1 = (Ok (pair_of C k2), g2) ->
  w_process_bundle C (addr Bob) b g wa = (Ok tt, wa1, g') ->
  NoDup (Some (x_base C signed) :: Some (x_base C k2) :: map (new_pub C) (delivery_rngs evs)) ->
  (forall g, In g (delivery_rngs evs) -> new_pub C g <> None) ->
  (sends evs < 4294967295)%N -> (forall pt, In pt (plaintexts evs) -> (N.of_nat (length pt) + 200 < 9223372036854775808)%N) ->
  exists E, map en_priv E = [signed; k2] /\ ginv E start_view (fun _ => []) (fun p => match p with Alice => wa1 | Bob => wb end) (fun _ => []) evs.
Proof.
  intros wa wb b k1 k2 g g1 g2 wa1 g' evs A1 A2 A3 B1 B2 D1 D2 D3 D4 D5 HB HG1 HG2 HP HN HR HS HZ.
  destruct (x3dh_agree C L (priv Alice) k1 (priv Bob) signed (Some otk)) as (dk & X1 & X2 & _ & _ & X5).
  cbn [option_map] in X1, X2. rewrite <- HB in X2.
  destruct (create_chain_agree C L (sk_root dk) k2 signed) as (sk & Y1 & _ & _ & _ & Y5).
  unfold w_process_bundle, process_bundle in HP.
  assert (HV : v_load (view_of wa (addr Bob)) = new_record) by (unfold view_of; rewrite A3; reflexivity). rewrite HV in HP. clear HV.
  rewrite D4 in HP. destruct (v_trusted (view_of wa (addr Bob)) (b_identity b)); cbn [negb] in HP; [|discriminate HP].
  destruct (verify_signature C (b_identity b) (ser_pub (x_base C signed)) (b_sig b)); cbn [negb] in HP; [|discriminate HP].
  rewrite HG1 in HP. cbn [r_fresh new_record] in HP.
  cbn [v_identity view_of] in HP. rewrite A1, D2, D5 in HP. unfold idk in X1, HP. rewrite X1 in HP.
  rewrite HG2 in HP. rewrite Y1 in HP. 
  cbn [kp_pub pair_of] in HP. rewrite <- HB in HP.
  match type of HP with context [set_cur ?st new_record] => set (s := st) in * end.
  set (x0 := {| en_priv := signed; en_root := sk_root dk; en_ck := sk_chain dk |}).
  set (x1 := {| en_priv := k2; en_root := sk_root sk; en_ck := sk_chain sk |}).
  assert (HSt : state_rel C [x0; x1] (idk Alice) (idk (other Alice)) (start_view Alice) s).
  { unfold state_rel. split; [reflexivity|]. split; [reflexivity|]. split; [reflexivity|]. split; [reflexivity|]. split; [reflexivity|]. split.
    - exists x1. repeat split; reflexivity.
    - split; [|split; [repeat constructor; intros []|cbn; lia]]. cbn. constructor; [|constructor]. exists x0. cbn.
      repeat split; auto; try constructor; try lia; try (intros n []). }
  assert (HIn : initialised s) by (eapply state_rel_initialised; [exact HSt|reflexivity]).
  destruct (commit_bundle (addr Bob) (set_cur s new_record) (record_from_state s) (idk Bob) wa) as (w' & W1 & W2 & W3);
    [apply persist_ok; [exact HIn|constructor]|].
  unfold idk in W1. rewrite W1 in HP. cbn [seal] in HP. assert (w' = wa1) by congruence. subst w'. clear HP W1.
  exists [x0; x1]. split; [reflexivity|]. constructor.
  - split.
    + intros k a c Ha Hc. destruct k as [|[|k]]; cbn in Ha, Hc; try discriminate; try (destruct k; discriminate).
      injection Ha as <-. injection Hc as <-.
      change (create_chain C (sk_root dk) (x_base C signed) (pair_of C k2) = Ok {| sk_root := sk_root sk; sk_chain := sk_chain sk |}).
      rewrite Y1. destruct sk; reflexivity.
    + intros a [<-|[<-|[]]]; cbn; assumption.
  - exists x0. split; [reflexivity|]. split; [reflexivity|]. cbn [x0 en_root en_ck]. destruct dk; exact X2.
  - reflexivity.
  - left. reflexivity.
  - reflexivity.
  - exact HN.
  - exact HR.
  - intros [|].
    + split; [discriminate|]. cbn [start_view pv_epoch]. exists s. split; [exact W2|]. split; [exact HSt|]. split; [reflexivity|].
      split; [cbn; rewrite D1, D3; reflexivity|]. intros _. exact A2.
    + split; [exact B2|]. split; [reflexivity|exact B1].
  - constructor.
  - intros p e n pt [].
  - reflexivity.
  - intros p. destruct p; cbn [start_view pv_count]; lia.
  - exact HZ.
Qed.
End Conv2.
