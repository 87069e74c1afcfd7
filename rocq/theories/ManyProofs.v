(** ManyProofs.v: many parties and conversations (C84). *)
From Verif Require Import Base Labels Crypto Bytehelper Ecc Cbc Wire Itoa Keys X3dh Messages SessionState SessionRecord
  SessionBuilder SessionCipher Address World CryptoProofs SessionProofs SerialProofs SessionSpec
  OpsProofs OpsProofs3 GroupSpec GroupProofs ConvSpec ConvProofs ConvProofs2 ConvProofs3 ManySpec.
From Coq Require Import Lia ZifyBool ZifyN ZifyNat.

(** * What a call leaves alone *)

(** Everything but the session at [a], saved identities and the one-time prekeys in [ids]. *)
Definition frame (a : address) (ids : N -> Prop) (w w' : world) : Prop :=
  (forall b, b <> a -> w_sessions w' b = w_sessions w b) /\ (forall j, ~ ids j -> w_prekeys w' j = w_prekeys w j) /\
  w_signed w' = w_signed w /\ w_self w' = w_self w /\ w_reg w' = w_reg w /\ w_policy w' = w_policy w.

Lemma frame_refl : forall a ids w, frame a ids w w.
Proof. repeat split. Qed.

Lemma commit_prekeys : forall a es w w' ok j, commit a es w = (w', ok) -> ~ In (RemovePreKey j) es -> w_prekeys w' j = w_prekeys w j.
Proof.
  intros a es. induction es as [|e es IH]; intros w w' ok j H HN; cbn [commit] in H.
  - injection H as <- _. reflexivity.
  - destruct (apply_effect a e w) as [w1|] eqn:E; [|injection H as <- _; reflexivity].
    rewrite (IH _ _ _ j H); [|intros HI; apply HN; right; exact HI].
    destruct e as [r|k|i]; cbn [apply_effect] in E.
    + destruct (persist r) as [r1| |]; [|discriminate E|discriminate E]. injection E as <-. reflexivity.
    + injection E as <-. reflexivity.
    + injection E as <-. cbn [w_prekeys]. unfold upd_id. destruct (i =? j)%N eqn:EJ; [|reflexivity].
      apply N.eqb_eq in EJ. subst i. exfalso. apply HN. left. reflexivity.
Qed.

Lemma commit_frame : forall a es w w' ok (ids : N -> Prop), commit a es w = (w', ok) -> (forall j, In (RemovePreKey j) es -> ids j) -> frame a ids w w'.
Proof.
  intros a es w w' ok ids H HR. destruct (commit_sessions _ _ _ _ _ H) as (A & B & D & F & G).
  split; [intros b Hb; exact (proj1 (A b Hb))|]. split; [intros j Hj; eapply commit_prekeys; [exact H|intros HI; exact (Hj (HR j HI))]|].
  repeat split; assumption.
Qed.

Section Frames.
Context (C : crypto).

Definition prekey_of (k : packet) (j : N) : Prop :=
  exists b m x, k = PPreKey b /\ pk_from_bytes b = Ok m /\ pk_prekey_id (pm_struct m) = Some x /\ ou_value x = j.

Lemma receive_frame : forall a k g w o w', receive C a k g w = (o, w') -> frame a (prekey_of k) w w'.
Proof.
  intros a k g w o w' H. unfold receive in H. destruct k as [b|b].
  - destruct (sig_from_bytes b) as [m|e|]; [|injection H as <- <-; apply frame_refl|injection H as <- <-; apply frame_refl].
    unfold w_decrypt in H. destruct (decrypt_and_get_key C (view_of w a) m g) as [[[o1 r1] es] g1] eqn:E.
    destruct (commit a es w) as [w1 ok] eqn:EC. injection H as _ <-. eapply commit_frame; [exact EC|]. intros j Hj. exfalso.
    unfold decrypt_and_get_key in E. destruct (negb _); [injection E as _ _ <- _; destruct Hj|].
    destruct (decrypt_with_record C (v_load (view_of w a)) m g) as [[[x|e|] r'] g2].
    + destruct (s_remote_id (r_cur r')) as [rid|]; injection E as _ _ <- _; [destruct Hj as [D|[D|[]]]; discriminate D|destruct Hj].
    + injection E as _ _ <- _. destruct Hj.
    + injection E as _ _ <- _. destruct Hj.
  - destruct (pk_from_bytes b) as [m|e|] eqn:EM; [|injection H as <- <-; apply frame_refl|injection H as <- <-; apply frame_refl].
    unfold w_decrypt_message in H. destruct (decrypt_message C (view_of w a) m g) as [[[o1 r1] es] g1] eqn:E.
    destruct (commit a es w) as [w1 ok] eqn:EC. injection H as _ <-. eapply commit_frame; [exact EC|]. intros j Hj.
    unfold decrypt_message in E. destruct (process C (view_of w a) (v_load (view_of w a)) m) as [[op rp] ef] eqn:EP.
    assert (HEF : ~ In (RemovePreKey j) ef).
    { unfold process in EP. destruct (negb _); [injection EP as _ _ <-; intros []|].
      destruct (process_v3 C (view_of w a) (v_load (view_of w a)) m) as [[id|e|] r']; injection EP as _ _ <-; [intros [D|[]]; discriminate D|intros []|intros []]. }
    assert (HID : forall x, op = Ok (Some x) -> ou_empty x = true \/ pk_prekey_id (pm_struct m) = Some x).
    { intros x ->. unfold process in EP. destruct (negb _); [discriminate EP|].
      destruct (process_v3 C (view_of w a) (v_load (view_of w a)) m) as [[id|e|] r'] eqn:E3; [|discriminate EP|discriminate EP].
      assert (D : id = Some x) by (injection EP as D _ _; exact D). subst id. clear EP. unfold process_v3 in E3. destruct (has_session_state _ _ _).
      - left. injection E3 as <- _. reflexivity.
      - right. destruct (v_signed _ _) as [sg|]; [|discriminate E3]. destruct (pk_prekey_id (pm_struct m)) as [y|].
        + destruct (v_prekey _ _) as [kp|]; [|discriminate E3]. destruct (calculate_receiver_session _ _) as [keys|e|]; [|discriminate E3|discriminate E3].
          destruct (ou_value y =? medium_max)%N; [discriminate E3|]. injection E3 as -> _. reflexivity.
        + destruct (calculate_receiver_session _ _) as [keys|e|]; discriminate E3. }
    destruct op as [oid|e|].
    + destruct (decrypt_with_record C rp (pm_message m) g) as [[[x|e|] r2] g2].
      * destruct oid as [o2|].
        -- assert (ES : es = ef ++ StoreSession r2 :: (if ou_empty o2 then [] else [RemovePreKey (ou_value o2)])) by (injection E as _ _ <- _; reflexivity).
           clear E. subst es. apply in_app_or in Hj. destruct Hj as [Hj|[D|Hj]]; [destruct (HEF Hj)|discriminate D|].
           destruct (HID o2 eq_refl) as [HE|HE].
           ++ rewrite HE in Hj. destruct Hj.
           ++ destruct (ou_empty o2); [destruct Hj|]. destruct Hj as [D|[]]. injection D as D. exists b, m, o2. repeat split; assumption.
        -- assert (ES : es = ef ++ [StoreSession r2]) by (injection E as _ _ <- _; reflexivity).
           subst es. apply in_app_or in Hj. destruct Hj as [Hj|[D|[]]]; [destruct (HEF Hj)|discriminate D].
      * assert (ES : es = ef) by (injection E as _ _ <- _; reflexivity). subst es. destruct (HEF Hj).
      * assert (ES : es = ef) by (injection E as _ _ <- _; reflexivity). subst es. destruct (HEF Hj).
    + assert (ES : es = ef) by (injection E as _ _ <- _; reflexivity). subst es. destruct (HEF Hj).
    + assert (ES : es = ef) by (injection E as _ _ <- _; reflexivity). subst es. destruct (HEF Hj).
Qed.

Lemma encrypt_frame : forall a pt w o w', w_encrypt C a pt w = (o, w') -> frame a (fun _ => False) w w'.
Proof.
  intros a pt w o w' H. unfold w_encrypt in H. destruct (encrypt C (view_of w a) pt) as [[o1 r1] es] eqn:E.
  destruct (commit a es w) as [w1 ok] eqn:EC. injection H as _ <-. eapply commit_frame; [exact EC|]. intros j Hj.
  unfold encrypt in E. destruct (s_sender _) as [sc|]; [|injection E as _ _ <-; destruct Hj].
  destruct (encrypt_cbc C _ _ pt) as [body|e|]; [|injection E as _ _ <-; destruct Hj|injection E as _ _ <-; destruct Hj].
  destruct (s_local_id _) as [lid|]; [|injection E as _ _ <-; destruct Hj]. destruct (s_remote_id _) as [rid|]; [|injection E as _ _ <-; destruct Hj].
  destruct (new_signal_message C _ _ _ _ _ _ _ _) as [sm|e|]; [|injection E as _ _ <-; destruct Hj|injection E as _ _ <-; destruct Hj].
  match type of E with (match ?t with _ => _ end) = _ => destruct t as [c|e|]; [|injection E as _ _ <-; destruct Hj|injection E as _ _ <-; destruct Hj] end.
  injection E as _ _ <-. destruct Hj as [D|[D|[]]]; discriminate D.
Qed.

Lemma bundle_frame : forall a b g w o w' g', w_process_bundle C a b g w = (o, w', g') -> frame a (fun _ => False) w w'.
Proof.
  intros a b g w o w' g' H. unfold w_process_bundle in H. destruct (process_bundle C (view_of w a) b g) as [[[o1 r1] es] g1] eqn:E.
  destruct (commit a es w) as [w1 ok] eqn:EC. injection H as _ <- _. eapply commit_frame; [exact EC|]. intros j Hj.
  unfold process_bundle in E. destruct (negb _); [injection E as _ _ <- _; destruct Hj|].
  destruct (b_signed b) as [ts|]; [|injection E as _ _ <- _; destruct Hj]. destruct (negb _); [injection E as _ _ <- _; destruct Hj|].
  destruct (generate_key_pair C g) as [[ob|e|] g2]; [|injection E as _ _ <- _; destruct Hj|injection E as _ _ <- _; destruct Hj].
  destruct (calculate_sender_session C _) as [dk|e|]; [|injection E as _ _ <- _; destruct Hj|injection E as _ _ <- _; destruct Hj].
  destruct (generate_key_pair C g2) as [[rt|e|] g3]; [|injection E as _ _ <- _; destruct Hj|injection E as _ _ <- _; destruct Hj].
  destruct (create_chain C _ _ _) as [sk|e|]; [|injection E as _ _ <- _; destruct Hj|injection E as _ _ <- _; destruct Hj].
  injection E as _ _ <- _. destruct Hj as [D|[D|[]]]; discriminate D.
Qed.

(** * What a conversation needs of the stores *)

Definition kept_for (addr : party -> address) (i : N) (q : party) (w w' : world) : Prop :=
  w_sessions w' (addr (other q)) = w_sessions w (addr (other q)) /\ w_signed w' = w_signed w /\ w_self w' = w_self w /\ w_reg w' = w_reg w /\
  w_policy w' = w_policy w /\ (q = Bob -> w_prekeys w' i = w_prekeys w i).

Lemma kept_for_refl : forall addr i q w, kept_for addr i q w w.
Proof. repeat split. Qed.

Lemma keeps_inv : forall addr priv base signed otk i sid E v sent w w' wire evs, ginv C addr priv base signed otk i sid E v sent w wire evs ->
  (forall q, kept_for addr i q (w q) (w' q)) -> ginv C addr priv base signed otk i sid E v sent w' wire evs.
Proof.
  intros addr priv base signed otk i sid E v sent w w' wire evs [I1 I2 I3 I4 I13 I5 I6 I7 I8 I9 I10 I11 I12] HK. constructor; try assumption.
  intros q. specialize (I7 q). destruct (HK q) as (K1 & K2 & K3 & _ & K5 & K6). destruct I7 as [HT HP].
  split; [unfold trusting; rewrite K5; exact HT|].
  assert (HS : session_rel C addr priv base i sid E q (v q) (w q) -> session_rel C addr priv base i sid E q (v q) (w' q)) by (unfold session_rel; rewrite K1; auto).
  destruct q; [destruct (pv_epoch (v Alice)); [exact HP|exact (HS HP)]|destruct (pv_epoch (v Bob)); [|exact (HS HP)]].
  destruct HP as [HV (B1 & B2 & B3 & B4)]. split; [exact HV|]. unfold bob_ready. cbn [other] in K1. rewrite K1, (K6 eq_refl), K2, K3. repeat split; assumption.
Qed.

Lemma keeps_strangers : forall addr wa wb wa' wb' b i sid signed otk, strangers C addr wa wb b i sid signed otk ->
  kept_for addr i Alice wa wa' -> kept_for addr i Bob wb wb' -> strangers C addr wa' wb' b i sid signed otk.
Proof.
  intros addr wa wb wa' wb' b i sid signed otk [] (A1 & A2 & A3 & A4 & A5 & _) (B1 & B2 & B3 & B4 & B5 & B6). cbn [other] in A1, B1. specialize (B6 eq_refl).
  constructor; try assumption.
  - rewrite A3. exact st_alice.
  - rewrite B3. exact st_bob.
  - rewrite A1. exact st_no_alice.
  - rewrite B1. exact st_no_bob.
  - rewrite B5, A3. exact st_trust.
  - rewrite A4. exact st_reg.
  - rewrite B6. exact st_prekey.
  - rewrite B2. exact st_signed.
  - rewrite B3. exact st_b_identity.
Qed.

(** A bundle that is trusted and signed is accepted. *)
Lemma bundle_accepted : crypto_laws C -> forall addr wa wb b i sid signed otk g g1 g2 eph ratchet,
  strangers C addr wa wb b i sid signed otk -> (forall saved, w_policy wa saved (addr Bob) (b_identity b) = true) ->
  verify_signature C (b_identity b) (ser_pub (x_base C signed)) (b_sig b) = true ->
  generate_key_pair C g = (Ok eph, g1) -> generate_key_pair C g1 = (Ok ratchet, g2) ->
  exists wa1 g', w_process_bundle C (addr Bob) b g wa = (Ok tt, wa1, g').
Proof.
  intros L addr wa wb b i sid signed otk g g1 g2 eph ratchet H HT HV HG1 HG2. destruct H.
  destruct (generated C _ _ _ HG1) as (k1 & ->). destruct (generated C _ _ _ HG2) as (k2 & ->).
  destruct (x3dh_agree C L (ip_priv (w_self wa)) k1 (ip_priv (w_self wb)) signed (Some otk)) as (dk & X1 & _ & _ & _ & X5).
  cbn [option_map] in X1.
  destruct (create_chain_agree C L (sk_root dk) k2 signed) as (sk & Y1 & _ & _ & _ & Y5).
  unfold w_process_bundle, process_bundle.
  assert (HL : v_load (view_of wa (addr Bob)) = new_record) by (unfold view_of; rewrite st_no_alice; reflexivity). rewrite HL. clear HL.
  assert (HTR : v_trusted (view_of wa (addr Bob)) (b_identity b) = true) by (cbn [view_of v_trusted]; apply HT). rewrite HTR. cbn [negb]. clear HTR.
  rewrite st_b_signed, HV. cbn [negb]. rewrite HG1. cbn [r_fresh new_record]. cbn [v_identity view_of].
  rewrite st_b_prekey, st_b_identity, st_bob.
  assert (HS : w_self wa = {| ip_pub := x_base C (ip_priv (w_self wa)); ip_priv := ip_priv (w_self wa) |}) by (rewrite <- st_alice; destruct (w_self wa); reflexivity).
  rewrite HS. cbn [ip_priv]. rewrite X1, HG2, Y1.
  match goal with |- context [set_cur ?st new_record] => set (s := st) end.
  destruct (commit_bundle (addr Bob) (set_cur s new_record) (record_from_state s) (x_base C (ip_priv (w_self wb))) wa) as (w' & W1 & _ & _);
    [apply persist_ok; [|constructor]|].
  - unfold initialised. repeat split; discriminate.
  - rewrite W1. cbn [seal]. exists w', g2. reflexivity.
Qed.
End Frames.

(** * The run *)

Lemma upd_nat_same : forall A (f : nat -> A) n x, upd_nat f n x n = x.
Proof. intros A f n x. unfold upd_nat. rewrite Nat.eqb_refl. reflexivity. Qed.
Lemma upd_nat_diff : forall A (f : nat -> A) n x m, n <> m -> upd_nat f n x m = f m.
Proof. intros A f n x m H. unfold upd_nat. destruct (Nat.eqb n m) eqn:E; [|reflexivity]. apply Nat.eqb_eq in E. destruct (H E). Qed.

Lemma fair_tail : forall C signed ratchet x evs, fair C signed ratchet (x :: evs) -> fair C signed ratchet evs.
Proof.
  intros C signed ratchet x evs (F1 & F2 & F3 & F4). unfold fair. destruct x as [p pt|p j g]; cbn [delivery_rngs plaintexts flat_map app map length] in *;
    fold (delivery_rngs evs) (plaintexts evs) in *.
  - split; [exact F1|]. split; [exact F2|]. split; [lia|]. intros q Hq. apply F4. right. exact Hq.
  - split; [|split; [|split; [exact F3|exact F4]]].
    + apply (NoDup_remove_1 [Some (x_base C signed); Some (kp_pub ratchet)]) in F1. exact F1.
    + intros g' Hg. apply F2. right. exact Hg.
Qed.

Lemma fair_all_tail : forall C T n e evs, fair_all C T n (e :: evs) -> fair_all C T n evs.
Proof.
  intros C T n e evs (F1 & F2 & F3). inversion F2 as [|? ? F4 F5]; subst. split; [|split; [exact F5|]].
  - destruct e; cbn [begun flat_map app] in F1; [inversion F1; assumption|exact F1].
  - intros c g HI. destruct (F3 c g (or_intror HI)) as (eph & g1 & ratchet & g2 & A & B & D). exists eph, g1, ratchet, g2. split; [exact A|]. split; [exact B|].
    destruct e as [d h|d x]; cbn [talk_of flat_map app] in D; fold (talk_of c evs) in D; [exact D|].
    destruct (Nat.eqb c d); [eapply fair_tail; exact D|exact D].
Qed.

Section Sim.
Context (C : crypto) (L : crypto_laws C) (T : cast) (n : nat).
Context (HName : forall i j, name T i = name T j -> i = j).
Context (HTwo : forall c, (c < n)%nat -> who T c Alice <> who T c Bob).
Context (HPair : forall c d p q, (c < n)%nat -> (d < n)%nat -> who T c p = who T d q -> who T c (other p) = who T d (other q) -> c = d).
Context (HKeys : forall c d, (c < n)%nat -> (d < n)%nat -> who T c Bob = who T d Bob -> pid T c = pid T d -> c = d).
Context (HSig : forall c, (c < n)%nat -> verify_signature C (b_identity (kit T c)) (ser_pub (x_base C (skey T c))) (b_sig (kit T c)) = true).
Context (HPid : forall c, (c < n)%nat -> (pid T c < 2 ^ 32)%N /\ pid T c <> 16777215%N /\ (sid T c < 2 ^ 32)%N).

Definition one_inv (s : option cstate) (c : nat) (w : nat -> world) (wire : party -> list packet) (evs : list nevent) : Prop :=
  match s with
  | None => strangers C (address_in T c) (w (who T c Alice)) (w (who T c Bob)) (kit T c) (pid T c) (sid T c) (skey T c) (otkey T c) /\
      (forall saved, w_policy (w (who T c Alice)) saved (address_in T c Bob) (b_identity (kit T c)) = true) /\ forall p, wire p = []
  | Some (v, sent) => ~ In c (begun evs) /\ exists priv base E,
      ginv C (address_in T c) priv base (skey T c) (otkey T c) (pid T c) (sid T c) E v sent (fun p => w (who T c p)) wire (talk_of c evs)
  end.

(** Another conversation of the same party does not matter. *)
Lemma foreign_kept : forall c d p w w' (ids : N -> Prop), (c < n)%nat -> (d < n)%nat -> c <> d ->
  frame (address_in T d (other p)) ids (w (who T d p)) w' -> (forall j, ids j -> p = Bob /\ j = pid T d) ->
  forall q, kept_for (address_in T c) (pid T c) q (w (who T c q)) (upd_nat w (who T d p) w' (who T c q)).
Proof.
  intros c d p w w' ids Hc Hd HN (F1 & F2 & F3 & F4 & F5 & F6) HI q. destruct (Nat.eq_dec (who T d p) (who T c q)) as [E|E].
  - rewrite E, upd_nat_same. rewrite <- E. split; [|repeat split; try assumption].
    + apply F1. intros HA. apply HName in HA. apply HN. eapply (HPair c d q p); [exact Hc|exact Hd|symmetry; exact E|exact HA].
    + intros ->. apply F2. intros HJ. destruct (HI _ HJ) as [-> HJ2]. apply HN. apply HKeys; [exact Hc|exact Hd|symmetry; exact E|exact HJ2].
  - rewrite upd_nat_diff by exact E. apply kept_for_refl.
Qed.

Lemma foreign_inv : forall s c d p w w' wire evs evs' (ids : N -> Prop), (c < n)%nat -> (d < n)%nat -> c <> d ->
  frame (address_in T d (other p)) ids (w (who T d p)) w' -> (forall j, ids j -> p = Bob /\ j = pid T d) ->
  (In c (begun evs') -> In c (begun evs)) -> talk_of c evs' = talk_of c evs ->
  one_inv s c w wire evs -> one_inv s c (upd_nat w (who T d p) w') wire evs'.
Proof.
  intros s c d p w w' wire evs evs' ids Hc Hd HN HF HI HB HE H. pose proof (foreign_kept c d p w w' ids Hc Hd HN HF HI) as HK. destruct s as [[v sent]|].
  - destruct H as [HNB (priv & base & E & HG)]. split; [intros HX; exact (HNB (HB HX))|]. exists priv, base, E. rewrite HE. eapply keeps_inv; [exact HG|]. exact HK.
  - destruct H as (HS & HT & HW). split; [eapply keeps_strangers; [exact HS|apply HK|apply HK]|]. split; [|exact HW].
    destruct (HK Alice) as (_ & _ & _ & _ & HP & _). rewrite HP. exact HT.
Qed.

Lemma other_inv : forall s c w wire evs evs', (In c (begun evs') -> In c (begun evs)) -> talk_of c evs' = talk_of c evs ->
  one_inv s c w wire evs -> one_inv s c w wire evs'.
Proof.
  intros s c w wire evs evs' HB HE H. destruct s as [[v sent]|]; [|exact H]. destruct H as [HNB H]. split; [intros HX; exact (HNB (HB HX))|]. rewrite HE. exact H.
Qed.

Lemma own_ext : forall c p (w : nat -> world) w' q, (c < n)%nat -> upd_party (fun q => w (who T c q)) p w' q = upd_nat w (who T c p) w' (who T c q).
Proof.
  intros c p w w' q Hc. pose proof (HTwo c Hc) as H2. destruct p, q; cbn [upd_party party_eqb]; try (rewrite upd_nat_same; reflexivity).
  - rewrite upd_nat_diff; [reflexivity|exact H2].
  - rewrite upd_nat_diff; [reflexivity|]. intros D. apply H2. symmetry. exact D.
Qed.

Lemma own_inv : forall c priv base E v sent p w w' wire evs, (c < n)%nat ->
  ginv C (address_in T c) priv base (skey T c) (otkey T c) (pid T c) (sid T c) E v sent (upd_party (fun q => w (who T c q)) p w') wire evs ->
  ginv C (address_in T c) priv base (skey T c) (otkey T c) (pid T c) (sid T c) E v sent (fun q => upd_nat w (who T c p) w' (who T c q)) wire evs.
Proof.
  intros c priv base E v sent p w w' wire evs Hc H. eapply keeps_inv; [exact H|]. intros q. cbv beta. rewrite <- own_ext by exact Hc. apply kept_for_refl.
Qed.

Lemma talk_own : forall c x evs, talk_of c (Talk c x :: evs) = x :: talk_of c evs.
Proof. intros c x evs. unfold talk_of at 1. cbn [flat_map]. rewrite Nat.eqb_refl. reflexivity. Qed.
Lemma talk_foreign : forall c d x evs, c <> d -> talk_of c (Talk d x :: evs) = talk_of c evs.
Proof. intros c d x evs H. unfold talk_of at 1. cbn [flat_map]. destruct (Nat.eqb c d) eqn:E; [apply Nat.eqb_eq in E; destruct (H E)|reflexivity]. Qed.

(** What deliveries can remove. *)
Lemma wire_prekey : forall priv base i sd E p k x j, wire_rel C priv base i sd E p k x -> prekey_of k j -> p = Alice /\ j = i.
Proof.
  intros priv base i sd E p k [[e c] pt] j (m & _ & H) (b & pm & y & -> & H2 & H3 & H4). destruct H as [HP (pm' & P1 & _ & _ & _ & P5 & _)]. split; [exact HP|].
  rewrite H2 in P1. injection P1 as <-. rewrite H3 in P5. injection P5 as ->. rewrite <- H4. reflexivity.
Qed.

Theorem many_simulation : forall evs st w wire, fair_all C T n evs -> (forall c, (c < n)%nat -> one_inv (st c) c w (wire c) evs) ->
  nconforms (nrun C T w wire evs) (nspec st evs).
Proof.
  induction evs as [|ev evs IH]; intros st w wire HF HI; [constructor|]. pose proof (fair_all_tail _ _ _ _ _ HF) as HF'. destruct HF as (F1 & F2 & F3).
  inversion F2 as [|? ? Hc _]; subst. destruct ev as [c g|c x]; cbn [conversation_of] in Hc.
  - (* Begin *)
    pose proof (HI c Hc) as HIc. destruct (st c) as [[v sent]|] eqn:ES.
    { destruct HIc as [D _]. exfalso. apply D. left. reflexivity. }
    destruct HIc as (HS & HT & HW). destruct (F3 c g (or_introl eq_refl)) as (eph & g1 & ratchet & g2 & G1 & G2 & HFC).
    change (talk_of c (Begin c g :: evs)) with (talk_of c evs) in HFC.
    destruct (bundle_accepted C L _ _ _ _ _ _ _ _ _ _ _ _ _ HS HT (HSig c Hc) G1 G2) as (wa1 & g' & HP).
    destruct (start_of_strangers C L _ _ _ _ _ _ _ _ _ _ _ _ _ _ _ _ HS G1 G2 HP HFC) as (E & k1 & k2 & _ & _ & _ & HG).
    cbn [nrun nspec]. rewrite HP. apply NC_begins. apply IH; [exact HF'|]. intros d Hd. destruct (Nat.eq_dec c d) as [<-|HN].
    + rewrite upd_nat_same. split; [cbn [begun flat_map app] in F1; inversion F1; assumption|]. exists (privs (w (who T c Alice)) (w (who T c Bob))), (kp_pub eph), E.
      assert (HG2 : ginv C (address_in T c) (privs (w (who T c Alice)) (w (who T c Bob))) (kp_pub eph) (skey T c) (otkey T c) (pid T c) (sid T c) E start_view (fun _ => [])
        (both wa1 (w (who T c Bob))) (wire c) (talk_of c evs)).
      { destruct HG as [I1 I2 I3 I4 I13 I5 I6 I7 I8 I9 I10 I11 I12]. constructor; try assumption. intros q. rewrite HW. constructor. }
      eapply keeps_inv; [exact HG2|]. intros q. destruct q; cbn [both].
      * rewrite upd_nat_same. apply kept_for_refl.
      * rewrite upd_nat_diff by (apply HTwo; exact Hc). apply kept_for_refl.
    + rewrite upd_nat_diff by exact HN. eapply (foreign_inv _ d c Alice); [exact Hd|exact Hc|intros D; exact (HN (eq_sym D))|eapply bundle_frame; exact HP| | | |exact (HI d Hd)].
      * intros j [].
      * intros HB. right. exact HB.
      * reflexivity.
  - (* an event of conversation c *)
    pose proof (HI c Hc) as HIc.
    assert (HSkip : (forall d, d <> c -> (d < n)%nat -> one_inv (st d) d w (wire d) evs)).
    { intros d HN Hd. eapply other_inv; [| |exact (HI d Hd)]; [intros HB; exact HB|symmetry; apply talk_foreign; exact HN]. }
    destruct (st c) as [[v sent]|] eqn:ES.
    + destruct HIc as [HNB (priv & base & E & HG)]. change (begun (Talk c x :: evs)) with (begun evs) in HNB. rewrite talk_own in HG.
      destruct (HPid c Hc) as (P1 & P2 & P3). destruct x as [p pt|p j g].
      * cbn [nrun nspec]. rewrite ES. destruct (pv_epoch (v p)) as [|z] eqn:EV.
        -- destruct (send_nothing C (address_in T c) priv base (skey T c) (otkey T c) (pid T c) (sid T c) P1 P3 P2 _ _ _ _ _ _ _ _ HG EV) as [EH HG'].
           rewrite EH. apply IH; [exact HF'|]. intros d Hd. destruct (Nat.eq_dec c d) as [<-|HN].
           ++ rewrite ES. split; [exact HNB|]. exists priv, base, E. exact HG'.
           ++ apply HSkip; [intros D; exact (HN (eq_sym D))|exact Hd].
        -- destruct (send_step C L (address_in T c) priv base (skey T c) (otkey T c) (pid T c) (sid T c) P1 P3 P2 _ _ _ _ _ _ _ _ _ HG EV) as (ct & k & w' & E1 & E2 & E3 & _ & _ & HG').
           rewrite E1, E2, E3. rewrite EV in HG'. apply IH; [exact HF'|]. intros d Hd. destruct (Nat.eq_dec c d) as [<-|HN].
           ++ rewrite !upd_nat_same. split; [exact HNB|]. exists priv, base, E. apply own_inv; [exact Hc|exact HG'].
           ++ rewrite !upd_nat_diff by exact HN. eapply (foreign_inv _ d c p); [exact Hd|exact Hc|intros D; exact (HN (eq_sym D))|eapply encrypt_frame; exact E2| | | |exact (HI d Hd)].
              ** intros j [].
              ** intros HB. exact HB.
              ** symmetry. apply talk_foreign. intros D. exact (HN (eq_sym D)).
      * cbn [nrun nspec]. rewrite ES.
        assert (HND : ginv C (address_in T c) priv base (skey T c) (otkey T c) (pid T c) (sid T c) E v sent (fun q => w (who T c q)) (wire c) (talk_of c evs))
          by (eapply deliver_nothing; exact HG).
        pose proof (nth_rel _ _ _ _ _ j (g_wire _ _ _ _ _ _ _ _ _ _ _ _ _ _ HG (other p))) as HJ.
        destruct (nth_error (wire c (other p)) j) as [k|] eqn:EK; destruct (nth_error (sent (other p)) j) as [[[e m] pt]|] eqn:EN; [|destruct HJ|destruct HJ|].
        2:{ apply IH; [exact HF'|]. intros d Hd. destruct (Nat.eq_dec c d) as [<-|HN].
            - rewrite ES. split; [exact HNB|]. exists priv, base, E. exact HND.
            - apply HSkip; [intros D; exact (HN (eq_sym D))|exact Hd]. }
        destruct (deliver_step C L (address_in T c) priv base (skey T c) (otkey T c) (pid T c) (sid T c) P1 P3 P2 _ _ _ _ _ _ _ _ _ _ _ _ _ HG EK EN) as (o & w' & E1 & _ & HO).
        rewrite E1.
        assert (HOther : forall d, d <> c -> (d < n)%nat -> one_inv (st d) d (upd_nat w (who T c p) w') (wire d) evs).
        { intros d HN Hd. eapply (foreign_inv _ d c p); [exact Hd|exact Hc|exact HN|eapply receive_frame; exact E1| | | |exact (HI d Hd)].
          - intros i0 Hi0. destruct HJ as [HJ _]. destruct (wire_prekey _ _ _ _ _ _ _ _ _ HJ Hi0) as [A B]. split; [|exact B]. destruct p; [discriminate A|reflexivity].
          - intros HB. exact HB.
          - symmetry. apply talk_foreign. exact HN. }
        assert (HNext : forall E' v', ginv C (address_in T c) priv base (skey T c) (otkey T c) (pid T c) (sid T c) E' (upd_party v p v') sent (upd_party (fun q => w (who T c q)) p w') (wire c) (talk_of c evs) ->
          nconforms (nrun C T (upd_nat w (who T c p) w') wire evs) (nspec (upd_nat st c (Some (upd_party v p v', sent))) evs)).
        { intros E' v' HG'. apply IH; [exact HF'|]. intros d Hd. destruct (Nat.eq_dec c d) as [<-|HN].
          - rewrite upd_nat_same. split; [exact HNB|]. exists priv, base, E'. apply own_inv; [exact Hc|exact HG'].
          - rewrite upd_nat_diff by exact HN. apply HOther; [intros D; exact (HN (eq_sym D))|exact Hd]. }
        destruct (cdeliver (v p) e m pt) as [[q| |] v'].
        -- destruct HO as (-> & _ & F & _ & HG'). apply NC_plain. exact (HNext _ _ HG').
        -- destruct HO as ((er & ->) & _ & HG'). apply NC_refused. exact (HNext _ _ HG').
        -- destruct HO as [(q & ->)|((er & ->) & _ & HG')]; [apply NC_collision|]. apply NC_forgotten. exact (HNext _ _ HG').
    + assert (HAll : forall d, (d < n)%nat -> one_inv (st d) d w (wire d) evs).
      { intros d Hd. destruct (Nat.eq_dec c d) as [<-|HN]; [rewrite ES; exact HIc|apply HSkip; [intros D; exact (HN (eq_sym D))|exact Hd]]. }
      destruct HIc as (HS & HT & HW). destruct x as [p pt|p j g]; cbn [nrun nspec]; rewrite ES.
      * assert (EH : has_session (address_in T c (other p)) (w (who T c p)) = false).
        { unfold has_session. destruct p; cbn [other]; [rewrite (st_no_alice _ _ _ _ _ _ _ _ _ HS)|rewrite (st_no_bob _ _ _ _ _ _ _ _ _ HS)]; reflexivity. }
        rewrite EH. apply IH; [exact HF'|exact HAll].
      * rewrite HW. destruct j; cbn [nth_error]; (apply IH; [exact HF'|exact HAll]).
Qed.
End Sim.

Lemma many_start : forall C, crypto_laws C -> forall T n w evs, well_cast C T n w -> fair_all C T n evs ->
  nconforms (nrun C T w (fun _ _ => []) evs) (nspec (fun _ => None) evs).
Proof.
  intros C L T n w evs [H1 H2 H3 H4 H5 H6 H7] HF.
  apply (many_simulation C L T n H1 H2 H3 H4 H7); [|exact HF|].
  - intros c Hc. destruct (H5 c Hc). repeat split; assumption.
  - intros c Hc. split; [exact (H5 c Hc)|]. split; [intros saved; apply H6; exact Hc|reflexivity].
Qed.

(** * One conversation of many *)

Lemma after_none : forall c evs, ~ In c (begun evs) -> after_begin c evs = [].
Proof.
  intros c. induction evs as [|[d g|d x] evs IH]; intros H; [reflexivity| |]; cbn [begun flat_map app after_begin] in *.
  - destruct (Nat.eqb c d) eqn:E; [apply Nat.eqb_eq in E; subst d; exfalso; apply H; left; reflexivity|]. apply IH. intros D. apply H. right. exact D.
  - apply IH. exact H.
Qed.

Definition spec_of (s : option cstate) (c : nat) (evs : list nevent) : list (party * nat * verdict) :=
  match s with
  | Some (v, sent) => cspec v sent (talk_of c evs)
  | None => cspec start_view (fun _ => []) (talk_of c (after_begin c evs))
  end.

Lemma nspec_one : forall c evs st, NoDup (begun evs) -> (st c <> None -> ~ In c (begun evs)) -> verdicts_of c (nspec st evs) = spec_of (st c) c evs.
Proof.
  intros c. induction evs as [|ev evs IH]; intros st HN HS.
  - unfold spec_of. destruct (st c) as [[v sent]|]; reflexivity.
  - destruct ev as [d g|d x].
    + cbn [begun flat_map app] in HN, HS. fold (begun evs) in HN, HS. inversion HN as [|? ? N1 N2]; subst. cbn [nspec]. unfold verdicts_of. cbn [flat_map app]. fold (verdicts_of c).
      destruct (Nat.eq_dec d c) as [->|E].
      * change (flat_map _ ?l) with (verdicts_of c l). rewrite IH; [|exact N2|intros _; exact N1]. rewrite upd_nat_same. destruct (st c) as [s|]; [exfalso; apply HS; [discriminate|left; reflexivity]|].
        cbn [spec_of after_begin]. rewrite Nat.eqb_refl. reflexivity.
      * change (flat_map _ ?l) with (verdicts_of c l). rewrite IH; [|exact N2|rewrite upd_nat_diff by exact E; intros D HI; apply (HS D); right; exact HI].
        rewrite upd_nat_diff by exact E. unfold spec_of. destruct (st c) as [[v sent]|]; [reflexivity|]. cbn [after_begin].
        destruct (Nat.eqb c d) eqn:ED; [apply Nat.eqb_eq in ED; subst d; destruct (E eq_refl)|reflexivity].
    + change (begun (Talk d x :: evs)) with (begun evs) in *. destruct (Nat.eq_dec c d) as [->|E].
      * unfold spec_of. rewrite talk_own. destruct (st d) as [[v sent]|] eqn:ES.
        -- assert (HNB : ~ In d (begun evs)) by (apply HS; discriminate). destruct x as [p pt|p j g]; cbn [nspec cspec]; rewrite ES.
           ++ destruct (pv_epoch (v p)) as [|z].
              ** rewrite IH; [rewrite ES; reflexivity|exact HN|intros _; exact HNB].
              ** rewrite IH; [rewrite upd_nat_same; reflexivity|exact HN|intros _; exact HNB].
           ++ destruct (nth_error (sent (other p)) j) as [[[e m] pt]|].
              ** destruct (cdeliver (v p) e m pt) as [y v']. unfold verdicts_of. cbn [flat_map app]. rewrite Nat.eqb_refl. cbn [app].
                 change (flat_map _ ?l) with (verdicts_of d l). rewrite IH; [rewrite upd_nat_same; reflexivity|exact HN|intros _; exact HNB].
              ** rewrite IH; [rewrite ES; reflexivity|exact HN|intros _; exact HNB].
        -- assert (EI : verdicts_of d (nspec st evs) = cspec start_view (fun _ => []) (talk_of d (after_begin d evs))).
           { rewrite IH; [rewrite ES; reflexivity|exact HN|rewrite ES; intros D; destruct (D eq_refl)]. }
           destruct x as [p pt|p j g]; cbn [nspec after_begin]; rewrite ES; exact EI.
      * assert (EO : spec_of (st c) c (Talk d x :: evs) = spec_of (st c) c evs).
        { unfold spec_of. destruct (st c) as [[v sent]|]; [rewrite talk_foreign by exact E; reflexivity|reflexivity]. }
        rewrite EO. assert (EI : verdicts_of c (nspec st evs) = spec_of (st c) c evs) by (apply IH; [exact HN|exact HS]).
        assert (EU : forall s, verdicts_of c (nspec (upd_nat st d s) evs) = spec_of (st c) c evs).
        { intros s. rewrite IH; [rewrite upd_nat_diff; [reflexivity|intros D; exact (E (eq_sym D))]|exact HN|rewrite upd_nat_diff; [exact HS|intros D; exact (E (eq_sym D))]]. }
        destruct x as [p pt|p j g]; cbn [nspec]; destruct (st d) as [[v sent]|]; [|exact EI| |exact EI].
        -- destruct (pv_epoch (v p)); [exact EI|apply EU].
        -- destruct (nth_error (sent (other p)) j) as [[[e m] pt]|]; [|exact EI]. destruct (cdeliver (v p) e m pt) as [y v'].
           unfold verdicts_of. cbn [flat_map app]. destruct (Nat.eqb c d) eqn:ED; [apply Nat.eqb_eq in ED; destruct (E ED)|]. cbn [app].
           change (flat_map _ ?l) with (verdicts_of c l). apply EU.
Qed.

Lemma nspec_start : forall c evs, NoDup (begun evs) -> verdicts_of c (nspec (fun _ => None) evs) = cspec start_view (fun _ => []) (talk_of c (after_begin c evs)).
Proof. intros c evs H. rewrite nspec_one; [reflexivity|exact H|intros D; destruct (D eq_refl)]. Qed.

Lemma ntame_cons : forall y x, ntame (y :: x) -> ntame x.
Proof. intros y x H c p i HI. apply (H c p i). right. exact HI. Qed.

Lemma nconforms_one : forall c o x, nconforms o x -> ntame x -> conforms (results_of c o) (verdicts_of c x).
Proof.
  intros c o x H. induction H; intros HT; [constructor| | | | |]; try (specialize (IHnconforms (ntame_cons _ _ HT))); unfold results_of, verdicts_of in *; cbn [flat_map].
  - exact IHnconforms.
  - destruct (Nat.eqb c c0); cbn [app]; [constructor; exact IHnconforms|exact IHnconforms].
  - destruct (Nat.eqb c c0); cbn [app]; [constructor; exact IHnconforms|exact IHnconforms].
  - destruct (Nat.eqb c c0); cbn [app]; [constructor; exact IHnconforms|exact IHnconforms].
  - exfalso. apply (HT c0 p i). left. reflexivity.
Qed.

Lemma verdicts_in : forall c p i y x, In (p, i, y) (verdicts_of c x) <-> In (Gets c p i y) x.
Proof.
  intros c p i y x. unfold verdicts_of. rewrite in_flat_map. split.
  - intros ([d|d q j z] & HI & H); [destruct H|]. destruct (Nat.eqb c d) eqn:E; [|destruct H]. apply Nat.eqb_eq in E. subst d. destruct H as [H|[]]. injection H as -> -> ->. exact HI.
  - intros HI. exists (Gets c p i y). split; [exact HI|]. rewrite Nat.eqb_refl. left. reflexivity.
Qed.

(** What a tame conforming run returned. *)
Definition read_as (x : list (party * nat * verdict)) : list (party * nat * option bytes) :=
  map (fun y => match y with (p, i, Plain pt) => (p, i, Some pt) | (p, i, _) => (p, i, None) end) x.
Lemma conforms_read : forall o x, conforms o x -> (forall p i, ~ In (p, i, Forgotten) x) ->
  map (fun y => match y with (p, i, Ok pt) => (p, i, Some pt) | (p, i, _) => (p, i, None) end) o = read_as x.
Proof.
  intros o x H. induction H; intros HF; [reflexivity| | | |]; cbn [map read_as].
  - f_equal. apply IHconforms. intros q k HI. apply (HF q k). right. exact HI.
  - f_equal. apply IHconforms. intros q k HI. apply (HF q k). right. exact HI.
  - f_equal. apply IHconforms. intros q k HI. apply (HF q k). right. exact HI.
  - exfalso. apply (HF p i). left. reflexivity.
Qed.

(** * The events of one conversation alone *)

Lemma only_talk : forall c evs, talk_of c (only c evs) = talk_of c evs.
Proof.
  intros c. induction evs as [|[d g|d x] evs IH]; [reflexivity| |]; unfold only; cbn [filter conversation_of]; destruct (Nat.eqb c d) eqn:E.
  - exact IH.
  - exact IH.
  - unfold talk_of. cbn [flat_map]. rewrite E. cbn [app]. f_equal. exact IH.
  - unfold talk_of. cbn [flat_map]. rewrite E. cbn [app]. exact IH.
Qed.
Lemma only_after : forall c evs, talk_of c (after_begin c (only c evs)) = talk_of c (after_begin c evs).
Proof.
  intros c. induction evs as [|[d g|d x] evs IH]; [reflexivity| |]; unfold only; cbn [filter conversation_of after_begin]; destruct (Nat.eqb c d) eqn:E.
  - cbn [after_begin]. rewrite E. apply only_talk.
  - exact IH.
  - cbn [after_begin]. exact IH.
  - exact IH.
Qed.
Lemma only_begun : forall c evs x, In x (begun (only c evs)) -> In x (begun evs).
Proof.
  intros c evs x H. unfold begun in *. rewrite in_flat_map in *. destruct H as (e & H1 & H2). exists e. split; [|exact H2].
  unfold only in H1. apply filter_In in H1. exact (proj1 H1).
Qed.
Lemma only_nodup : forall c evs, NoDup (begun evs) -> NoDup (begun (only c evs)).
Proof.
  intros c. induction evs as [|[d g|d x] evs IH]; intros H; [constructor| |]; unfold only; cbn [filter conversation_of].
  - cbn [begun flat_map app] in H. inversion H as [|? ? N1 N2]; subst. destruct (Nat.eqb c d); [|exact (IH N2)]. cbn [begun flat_map app]. constructor; [|exact (IH N2)].
    intros D. apply N1. eapply only_begun. exact D.
  - destruct (Nat.eqb c d); exact (IH H).
Qed.
Lemma only_fair : forall C T n c evs, fair_all C T n evs -> fair_all C T n (only c evs).
Proof.
  intros C T n c evs (F1 & F2 & F3). split; [apply only_nodup; exact F1|]. split.
  - apply Forall_forall. intros e He. unfold only in He. apply filter_In in He. exact (proj1 (Forall_forall _ _) F2 e (proj1 He)).
  - intros d g HI. unfold only in HI. apply filter_In in HI. destruct HI as [HI HE]. cbn [conversation_of] in HE. apply Nat.eqb_eq in HE. subst d.
    destruct (F3 c g HI) as (eph & g1 & ratchet & g2 & A & B & D). exists eph, g1, ratchet, g2. rewrite only_talk. repeat split; assumption || apply D.
Qed.
Lemma only_conversation : forall c evs st d p i y, In (Gets d p i y) (nspec st (only c evs)) -> d = c.
Proof.
  intros c evs. assert (H : Forall (fun e => conversation_of e = c) (only c evs)).
  { apply Forall_forall. intros e He. unfold only in He. apply filter_In in He. symmetry. apply Nat.eqb_eq. exact (proj2 He). }
  generalize dependent (only c evs). clear evs. intros evs H. induction H as [|e evs He H IH]; intros st d p i y HI; [destruct HI|].
  destruct e as [b g|b x]; cbn [conversation_of] in He; subst b.
  - cbn [nspec] in HI. destruct HI as [D|HI]; [discriminate D|]. exact (IH _ _ _ _ _ HI).
  - destruct x as [q pt|q j g]; cbn [nspec] in HI; destruct (st c) as [[v sent]|]; [|exact (IH _ _ _ _ _ HI)| |exact (IH _ _ _ _ _ HI)].
    + destruct (pv_epoch (v q)); exact (IH _ _ _ _ _ HI).
    + destruct (nth_error (sent (other q)) j) as [[[e m] pt]|]; [|exact (IH _ _ _ _ _ HI)]. destruct (cdeliver (v q) e m pt) as [z v'].
      destruct HI as [D|HI]; [injection D as -> _ _ _; reflexivity|exact (IH _ _ _ _ _ HI)].
Qed.
Lemma only_tame : forall c evs, NoDup (begun evs) -> ntame (nspec (fun _ => None) evs) -> ntame (nspec (fun _ => None) (only c evs)).
Proof.
  intros c evs HN HT d p i HI. pose proof (only_conversation _ _ _ _ _ _ _ HI) as ->. apply verdicts_in in HI.
  rewrite nspec_start in HI by (apply only_nodup; exact HN). rewrite only_after in HI. rewrite <- nspec_start in HI by exact HN. apply verdicts_in in HI. exact (HT _ _ _ HI).
Qed.
