(** JointProofs.v: proofs for C86. *)
From Verif Require Import Base Labels Crypto Bytehelper Ecc Cbc Wire Itoa Keys X3dh Messages SessionState SessionRecord SessionBuilder
  SessionCipher Group Address World SessionProofs SerialProofs GroupSpec GroupProofs GroupProofs2 ConvSpec ConvProofs ConvProofs2 ConvProofs3 ThreadSpec CutSpec CutProofs AttackSpec
  AttackProofs ManySpec ManyProofs TrustSpec TrustProofs GroupConvSpec GroupConvProofs JointSpec.
From Coq Require Import Lia ZifyBool ZifyN ZifyNat.

(** * The conversations, one event at a time *)

Section Pair.
Context (C : crypto) (L : crypto_laws C) (T : cast) (n : nat).
Context (HName : forall i j, name T i = name T j -> i = j).
Context (HTwo : forall c, (c < n)%nat -> who T c Alice <> who T c Bob).
Context (HPair : forall c d p q, (c < n)%nat -> (d < n)%nat -> who T c p = who T d q -> who T c (other p) = who T d (other q) -> c = d).
Context (HKeys : forall c d, (c < n)%nat -> (d < n)%nat -> who T c Bob = who T d Bob -> pid T c = pid T d -> c = d).
Context (HSig : forall c, (c < n)%nat -> verify_signature C (b_identity (kit T c)) (ser_pub (x_base C (skey T c))) (b_sig (kit T c)) = true).
Context (HPid : forall c, (c < n)%nat -> (pid T c < 2 ^ 32)%N /\ pid T c <> 16777215%N /\ (sid T c < 2 ^ 32)%N).


Notation ok := (TrustProofs.tinv C T).
Definition all_ok (st : nat -> option cstate) (w : nat -> world) (wire : nat -> party -> list packet) (evs : list nevent) : Prop :=
  forall c, (c < n)%nat -> ok (st c) c w (wire c) evs.

Lemma step_begin : forall c g evs st w wire, fair_all C T n (Begin c g :: evs) -> all_ok st w wire (Begin c g :: evs) ->
  exists w' g', w_process_bundle C (address_in T c Bob) (kit T c) g (w (who T c Alice)) = (Ok tt, w', g') /\
    all_ok (upd_nat st c (Some (start_view, fun _ => []))) (upd_nat w (who T c Alice) w') wire evs.
Proof.
  intros c g evs st w wire HF HI. destruct HF as (F1 & F2 & F3). inversion F2 as [|? ? Hc _]; subst. cbn [conversation_of] in Hc.
  pose proof (HI c Hc) as HIc. destruct (st c) as [[v sent]|] eqn:ES.
  { destruct HIc as [D _]. exfalso. apply D. left. reflexivity. }
  destruct HIc as (HS & HT & HW). destruct (F3 c g (or_introl eq_refl)) as (eph & g1 & ratchet & g2 & G1 & G2 & HFC).
  change (talk_of c (Begin c g :: evs)) with (talk_of c evs) in HFC.
  destruct (bundle_accepted C L _ _ _ _ _ _ _ _ _ _ _ _ _ HS (fun _ => eq_refl) (HSig c Hc) G1 G2) as (ea1 & g' & HP).
  destruct (start_of_strangers C L _ _ _ _ _ _ _ _ _ _ _ _ _ _ _ _ HS G1 G2 HP HFC) as (E & k1 & k2 & _ & _ & _ & HG).
  destruct (bundle_credulous C _ _ _ _ _ _ _ (ltac:(destruct (HT Alice) as [T1 T2]; apply T1; rewrite (st_b_identity _ _ _ _ _ _ _ _ _ HS); exact T2)) HP) as (wa1 & HP' & ->).
  cbn [other] in HP'. exists wa1, g'. split; [exact HP'|]. intros d Hd. destruct (Nat.eq_dec c d) as [<-|HN].
  + rewrite upd_nat_same. split; [cbn [begun flat_map app] in F1; inversion F1; assumption|].
    exists (privs (credulous (w (who T c Alice))) (credulous (w (who T c Bob)))), (kp_pub eph), E. split.
    * unfold cinv. eapply (keeps_inv C _ _ _ _ _ _ _ _ _ _ (both (credulous wa1) (credulous (w (who T c Bob))))).
      { destruct HG as [I1 I2 I3 I4 I13 I5 I6 I7 I8 I9 I10 I11 I12]. constructor; try assumption. intros q. rewrite HW. constructor. }
      intros q. destruct q; cbn [both].
      -- rewrite upd_nat_same. apply kept_for_refl.
      -- rewrite upd_nat_diff by (apply HTwo; exact Hc). apply kept_for_refl.
    * assert (HA : idk C (privs (credulous (w (who T c Alice))) (credulous (w (who T c Bob)))) Alice = ip_pub (w_self (w (who T c Alice)))) by (symmetry; exact (st_alice _ _ _ _ _ _ _ _ _ HS)).
      unfold right. rewrite upd_nat_diff by (apply HTwo; exact Hc). rewrite HA. exact (HT Bob).
  + rewrite upd_nat_diff by exact HN. pose proof (bundle_frame C _ _ _ _ _ _ _ HP') as HFr. rewrite (world_of_bundle _ _ _ _ _ _ _ _ HP') in HFr |- *.
    refine (foreign_tinv C T n HName HPair HKeys _ d c Alice _ _ _ _ _ _ Hd Hc (fun D => HN (eq_sym D)) HFr _ _ _ (HI d Hd)).
    * intros j [].
    * intros HB. right. exact HB.
    * reflexivity.
Qed.

Lemma skip_talk : forall c x evs st w wire, all_ok st w wire (Talk c x :: evs) -> forall d, d <> c -> (d < n)%nat -> ok (st d) d w (wire d) evs.
Proof.
  intros c x evs st w wire HI d HN Hd. eapply other_tinv; [| |exact (HI d Hd)]; [intros HB; exact HB|symmetry; apply talk_foreign; exact HN].
Qed.

(** A text that is never sent. *)
Lemma unsent : forall c p pt evs st w wire, (c < n)%nat -> all_ok st w wire (Talk c (Send p pt) :: evs) -> all_ok st w wire evs.
Proof.
  intros c p pt evs st w wire Hc HI d Hd. destruct (Nat.eq_dec d c) as [->|HN]; [|eapply skip_talk; eassumption].
  pose proof (HI c Hc) as HIc. destruct (st c) as [[v sent]|]; [|exact HIc]. destruct HIc as [HNB (priv & base & E & HG & HR)].
  change (begun (Talk c (Send p pt) :: evs)) with (begun evs) in HNB. rewrite talk_own in HG. split; [exact HNB|]. exists priv, base, E. split; [|exact HR].
  destruct (HPid c Hc) as (P1 & P2 & P3). eapply inv_unsent; [exact P1|exact P3|exact P2|exact HG].
Qed.
(** Another text. *)
Lemma reworded : forall c p pt pt' evs st w wire, (c < n)%nat -> (N.of_nat (length pt') + 200 < 9223372036854775808)%N ->
  all_ok st w wire (Talk c (Send p pt) :: evs) -> all_ok st w wire (Talk c (Send p pt') :: evs).
Proof.
  intros c p pt pt' evs st w wire Hc HL HI d Hd. pose proof (HI d Hd) as HId. destruct (st d) as [[v sent]|]; [|exact HId].
  destruct HId as [HNB (priv & base & E & HG & HR)]. split; [exact HNB|]. exists priv, base, E. split; [|exact HR]. clear HR HNB.
  destruct (Nat.eq_dec d c) as [->|HN].
  - rewrite talk_own in *. unfold cinv in *. destruct HG as [I1 I2 I3 I4 I13 I5 I6 I7 I8 I9 I10 I11 I12]. constructor; try assumption.
    intros q [<-|Hq]; [exact HL|]. apply I12. right. exact Hq.
  - rewrite talk_foreign in * by exact HN. exact HG.
Qed.

Definition said (c : nat) (p : party) (pt : bytes) (st : nat -> option cstate) : nat -> option cstate :=
  match st c with
  | None => st
  | Some (v, sent) =>
      match pv_epoch (v p) with
      | O => st
      | S _ => upd_nat st c (Some
          (upd_party v p {| pv_epoch := pv_epoch (v p); pv_count := pv_count (v p) + 1; pv_chains := pv_chains (v p) |},
           upd_party sent p (sent p ++ [(pv_epoch (v p), pv_count (v p), pt)])))
      end
  end.

Lemma no_session : forall c p st w wire evs, (c < n)%nat -> st c = None -> all_ok st w wire evs -> has_session (address_in T c (other p)) (w (who T c p)) = false.
Proof.
  intros c p st w wire evs Hc ES HI. pose proof (HI c Hc) as HIc. rewrite ES in HIc. destruct HIc as (HS & _ & _).
  unfold has_session. pose proof (st_no_alice _ _ _ _ _ _ _ _ _ HS) as HA. pose proof (st_no_bob _ _ _ _ _ _ _ _ _ HS) as HB. cbn [credulous w_sessions] in HA, HB.
  destruct p; cbn [other]; [rewrite HA|rewrite HB]; reflexivity.
Qed.

Lemma step_say : forall c p pt evs st w wire, (c < n)%nat -> all_ok st w wire (Talk c (Send p pt) :: evs) ->
  exists w' wire', send_in C T c p pt w wire = Some (w', wire') /\ all_ok (said c p pt st) w' wire' evs.
Proof.
  intros c p pt evs st w wire Hc HI. unfold send_in, said. pose proof (HI c Hc) as HIc. destruct (st c) as [[v sent]|] eqn:ES.
  - destruct HIc as [HNB (priv & base & E & HG & HR)]. change (begun (Talk c (Send p pt) :: evs)) with (begun evs) in HNB. rewrite talk_own in HG.
    destruct (HPid c Hc) as (P1 & P2 & P3). destruct (pv_epoch (v p)) as [|z] eqn:EV.
    + destruct (send_nothing C (address_in T c) priv base (skey T c) (otkey T c) (pid T c) (sid T c) P1 P3 P2 _ _ _ _ _ _ _ _ HG EV) as [EH _].
      change (has_session (address_in T c (other p)) (w (who T c p)) = false) in EH. rewrite EH. exists w, wire. split; [reflexivity|]. eapply unsent; eassumption.
    + destruct (real_send C L (address_in T c) priv base (skey T c) (otkey T c) (pid T c) (sid T c) P1 P3 P2 _ _ _ _ _ _ _ _ _ HG HR EV) as (ct & k & w' & E1 & E2 & E3 & HR' & _ & HG').
      rewrite E1, E2, E3. do 2 eexists. split; [reflexivity|]. rewrite EV in HG'. intros d Hd. destruct (Nat.eq_dec c d) as [<-|HN].
      * rewrite !upd_nat_same. split; [exact HNB|]. exists priv, base, E. split; [eapply (own_tinv C T n HTwo); [exact Hc|exact HG']|eapply (own_right C T n HTwo); [exact Hc|exact HR']].
      * rewrite !(upd_nat_diff _ _ c) by exact HN. pose proof (encrypt_frame C _ _ _ _ _ E2) as HFr. rewrite (world_of_encrypt C _ _ _ _ _ E2) in HFr |- *.
        eapply (foreign_tinv C T n HName HPair HKeys _ d c p); [exact Hd|exact Hc|intros D; exact (HN (eq_sym D))|exact HFr| | | |exact (HI d Hd)].
        -- intros j [].
        -- intros HB. exact HB.
        -- symmetry. apply talk_foreign. intros D. exact (HN (eq_sym D)).
  - rewrite (no_session c p st w wire _ Hc ES HI). exists w, wire. split; [reflexivity|]. eapply unsent; eassumption.
Qed.

Lemma step_hear : forall c p i g evs st w wire, (c < n)%nat -> all_ok st w wire (Talk c (Deliver p i g) :: evs) ->
  match match st c with Some (v, sent) => nth_error (sent (other p)) i | None => None end with
  | None => nth_error (wire c (other p)) i = None /\ all_ok st w wire evs
  | Some (e, m, pt) => exists k o w' v sent, st c = Some (v, sent) /\ nth_error (wire c (other p)) i = Some k /\ receive C (address_in T c (other p)) k g (w (who T c p)) = (o, w') /\
      let '(x, v') := cdeliver (v p) e m pt in
      let good := all_ok (upd_nat st c (Some (upd_party v p v', sent))) (upd_nat w (who T c p) w') wire evs in
      match x with Plain q => o = Ok q /\ good | Refused => (exists er, o = Err er) /\ good | Forgotten => (exists q, o = Ok q) \/ (exists er, o = Err er) /\ good end
  end.
Proof.
  intros c p i g evs st w wire Hc HI. pose proof (HI c Hc) as HIc. destruct (st c) as [[v sent]|] eqn:ES.
  2:{ destruct HIc as (HS & HT & HW). split; [rewrite HW; destruct i; reflexivity|]. intros d Hd. destruct (Nat.eq_dec c d) as [<-|HN].
      - rewrite ES. split; [exact HS|]. split; [exact HT|exact HW].
      - eapply skip_talk; [exact HI|intros D; exact (HN (eq_sym D))|exact Hd]. }
  destruct HIc as [HNB (priv & base & E & HG & HR)]. change (begun (Talk c (Deliver p i g) :: evs)) with (begun evs) in HNB. rewrite talk_own in HG.
  destruct (HPid c Hc) as (P1 & P2 & P3).
  assert (HND : cinv C (address_in T c) priv base (skey T c) (otkey T c) (pid T c) (sid T c) E v sent (fun q => w (who T c q)) (wire c) (talk_of c evs))
    by (eapply deliver_nothing; exact HG).
  pose proof (nth_rel _ _ _ _ _ i (g_wire _ _ _ _ _ _ _ _ _ _ _ _ _ _ HG (other p))) as HJ.
  destruct (nth_error (wire c (other p)) i) as [k|] eqn:EK; destruct (nth_error (sent (other p)) i) as [[[e m] pt]|] eqn:EN; [|destruct HJ|destruct HJ|].
  2:{ split; [reflexivity|]. intros d Hd. destruct (Nat.eq_dec c d) as [<-|HN].
      - rewrite ES. split; [exact HNB|]. exists priv, base, E. split; [exact HND|exact HR].
      - eapply skip_talk; [exact HI|intros D; exact (HN (eq_sym D))|exact Hd]. }
  destruct (real_receive C L (address_in T c) priv base (skey T c) (otkey T c) (pid T c) (sid T c) P1 P3 P2 _ _ _ _ _ _ _ _ _ _ _ _ _ HG HR EK EN) as (o & w' & E1 & HR' & _ & HO).
  exists k, o, w', v, sent. split; [reflexivity|]. split; [reflexivity|]. split; [exact E1|].
  assert (HOther : forall d, d <> c -> (d < n)%nat -> ok (st d) d (upd_nat w (who T c p) w') (wire d) evs).
  { intros d HN Hd. pose proof (receive_frame C _ _ _ _ _ _ E1) as HFr. rewrite (world_of_receive C _ _ _ _ _ _ E1) in HFr |- *.
    eapply (foreign_tinv C T n HName HPair HKeys _ d c p); [exact Hd|exact Hc|exact HN|exact HFr| | | |exact (HI d Hd)].
    - intros i0 Hi0. destruct HJ as [HJ _]. destruct (wire_prekey C _ _ _ _ _ _ _ _ _ HJ Hi0) as [A B]. split; [|exact B]. destruct p; [discriminate A|reflexivity].
    - intros HB. exact HB.
    - symmetry. apply talk_foreign. exact HN. }
  assert (HNext : forall E' v', cinv C (address_in T c) priv base (skey T c) (otkey T c) (pid T c) (sid T c) E' (upd_party v p v') sent (upd_party (fun q => w (who T c q)) p w') (wire c) (talk_of c evs) ->
    all_ok (upd_nat st c (Some (upd_party v p v', sent))) (upd_nat w (who T c p) w') wire evs).
  { intros E' v' HG' d Hd. destruct (Nat.eq_dec c d) as [<-|HN].
    - rewrite upd_nat_same. split; [exact HNB|]. exists priv, base, E'. split; [eapply (own_tinv C T n HTwo); [exact Hc|exact HG']|eapply (own_right C T n HTwo); [exact Hc|exact HR']].
    - rewrite (upd_nat_diff _ _ c) by exact HN. apply HOther; [intros D; exact (HN (eq_sym D))|exact Hd]. }
  destruct (cdeliver (v p) e m pt) as [[q| |] v']; cbv zeta.
  - destruct HO as (-> & F & HG'). split; [reflexivity|]. exact (HNext _ _ HG').
  - destruct HO as ((er & ->) & HG'). split; [exists er; reflexivity|]. exact (HNext _ _ HG').
  - destruct HO as [(q & ->)|((er & ->) & HG')]; [left; exists q; reflexivity|right]. split; [exists er; reflexivity|]. exact (HNext _ _ HG').
Qed.
End Pair.

(** * Both together *)

Lemma forall2_weaken : forall A B (P Q : A -> B -> Prop) a b, (forall x y, P x y -> Q x y) -> Forall2 P a b -> Forall2 Q a b.
Proof. intros A B P Q a b H HF. induction HF as [|x y a b H1 H2 IH]; constructor; auto. Qed.

Lemma cdeliver_pt : forall v e n pt, cdeliver v e n pt = (match fst (cdeliver v e n []) with Plain _ => Plain pt | y => y end, snd (cdeliver v e n [])).
Proof.
  intros v e n pt. unfold cdeliver. destruct (cfind e (pv_chains v)) as [c|]; [destruct (caccept c n); reflexivity|].
  destruct (Nat.eqb e (S (pv_epoch v))); [destruct (caccept _ n); reflexivity|reflexivity].
Qed.

Section Joint.
Context (C : crypto) (L : crypto_laws C) (F : framing) (T : cast) (n : nat).
Context (HName : forall i j, name T i = name T j -> i = j).
Context (HTwo : forall c, (c < n)%nat -> who T c Alice <> who T c Bob).
Context (HPair : forall c d p q, (c < n)%nat -> (d < n)%nat -> who T c p = who T d q -> who T c (other p) = who T d (other q) -> c = d).
Context (HKeys : forall c d, (c < n)%nat -> (d < n)%nat -> who T c Bob = who T d Bob -> pid T c = pid T d -> c = d).
Context (HSig : forall c, (c < n)%nat -> verify_signature C (b_identity (kit T c)) (ser_pub (x_base C (skey T c))) (b_sig (kit T c)) = true).
Context (HPid : forall c, (c < n)%nat -> (pid T c < 2 ^ 32)%N /\ pid T c <> 16777215%N /\ (sid T c < 2 ^ 32)%N).

Definition note_is (net : network) (c : nat) (p : party) (x : note) (pt : bytes) : Prop :=
  match x with
  | NText t => pt = wrap F (Text t)
  | NInvite gid k => exists b, nth_error (n_dist net (gid, who T c p)) k = Some b /\ pt = wrap F (Invitation gid b)
  end.
Definition sync (net : network) (js : nat -> option jcstate) (st : nat -> option cstate) : Prop :=
  forall c, match js c, st c with
            | None, None => True
            | Some (v, a), Some (v', b) => v = v' /\ forall p, Forall2 (fun x y => fst x = fst y /\ note_is net c p (snd x) (snd y)) (a p) (b p)
            | _, _ => False
            end.
Definition grows (net net' : network) : Prop := forall ch k b, nth_error (n_dist net ch) k = Some b -> nth_error (n_dist net' ch) k = Some b.
Definition short (net : network) : Prop := forall ch b, In b (n_dist net ch) -> (length b < 100)%nat.

Lemma sync_grows : forall net net' js st, grows net net' -> sync net js st -> sync net' js st.
Proof.
  intros net net' js st HG HS c. specialize (HS c). destruct (js c) as [[v a]|], (st c) as [[v' b]|]; try exact HS. destruct HS as [E HS]. split; [exact E|].
  intros p. eapply forall2_weaken; [|apply HS]. intros x y [H1 H2]. split; [exact H1|]. destruct (snd x) as [t|gid k]; [exact H2|].
  destruct H2 as (z & H2 & H3). exists z. split; [apply HG; exact H2|exact H3].
Qed.

Lemma sync_said : forall net js st c p x pt, sync net js st -> note_is net c p x pt -> sync net (note_in c p x js) (said c p pt st).
Proof.
  intros net js st c p x pt HS HX d. unfold note_in, said. pose proof (HS c) as Hc. destruct (js c) as [[v a]|] eqn:E1, (st c) as [[v' b]|] eqn:E2; [|destruct Hc|destruct Hc|exact (HS d)].
  destruct Hc as [<- Hc]. destruct (pv_epoch (v p)) as [|z] eqn:EV; [exact (HS d)|]. destruct (Nat.eq_dec c d) as [<-|HN]; [|rewrite !upd_nat_diff by exact HN; exact (HS d)].
  rewrite !upd_nat_same. split; [reflexivity|]. intros q. destruct (party_cases p q) as [-> | ->]; [rewrite !upd_same|rewrite !upd_diff; apply Hc].
  apply Forall2_app; [apply Hc|]. constructor; [|constructor]. split; [reflexivity|exact HX].
Qed.

Lemma sync_nth : forall net js st c p i, sync net js st ->
  match js c with
  | None => st c = None
  | Some (v, a) => exists b, st c = Some (v, b) /\ match nth_error (a p) i with
      | None => nth_error (b p) i = None
      | Some (e, m, x) => exists pt, nth_error (b p) i = Some (e, m, pt) /\ note_is net c p x pt
      end
  end.
Proof.
  intros net js st c p i HS. specialize (HS c). destruct (js c) as [[v a]|], (st c) as [[v' b]|]; [|destruct HS|destruct HS|reflexivity]. destruct HS as [<- HS]. exists b. split; [reflexivity|].
  specialize (HS p). revert i. induction HS as [|x y la lb [H1 H2] HS IH]; intros [|i]; cbn [nth_error]; [reflexivity|reflexivity| |apply IH].
  destruct x as [[e m] x]. destruct y as [[e' m'] pt]. cbn [fst snd] in *. injection H1 as <- <-. exists pt. split; [reflexivity|exact H2].
Qed.

Lemma sync_view : forall net js st c v a b v', sync net js st -> js c = Some (v, a) -> st c = Some (v, b) -> sync net (upd_nat js c (Some (v', a))) (upd_nat st c (Some (v', b))).
Proof.
  intros net js st c v a b v' HS E1 E2 d. destruct (Nat.eq_dec c d) as [<-|HN]; [|rewrite !upd_nat_diff by exact HN; exact (HS d)].
  rewrite !upd_nat_same. split; [reflexivity|]. specialize (HS c). rewrite E1, E2 in HS. exact (proj2 HS).
Qed.

Lemma sync_begin : forall net js st c v, sync net js st -> sync net (upd_nat js c (Some (v, fun _ => []))) (upd_nat st c (Some (v, fun _ => []))).
Proof.
  intros net js st c v HS d. destruct (Nat.eq_dec c d) as [<-|HN]; [|rewrite !upd_nat_diff by exact HN; exact (HS d)]. rewrite !upd_nat_same. split; [reflexivity|]. intros p. constructor.
Qed.

(** ** Distribution messages *)

Lemma put_dec : forall (ch ch' : channel) (v : list bytes) f, put channel_eqb ch v f ch' = (if channel_eqb ch ch' then v else f ch').
Proof. reflexivity. Qed.

Lemma dist_short : forall id it key pub, length key = 32%nat -> (length (skd_bytes (new_skd id it key pub)) < 100)%nat.
Proof.
  intros id it key pub HK. unfold skd_bytes, new_skd, skd_serialize. cbn [dm_id dm_iter dm_chain dm_sigkey ds_id ds_iter ds_chain ds_signing ds_version opt_bytes_field app].
  unfold Wire.marshal. cbn [flat_map map concat Wire.enc_field]. rewrite !app_length.
  pose proof (varint_len id) as H1. pose proof (varint_len it) as H2. rewrite HK.
  change (length (Wire.enc_varint (1 * 8 + Wire.wt_varint))) with 1%nat. change (length (Wire.enc_varint (2 * 8 + Wire.wt_varint))) with 1%nat.
  change (length (Wire.enc_varint (3 * 8 + Wire.wt_bytes))) with 1%nat. change (length (Wire.enc_varint (4 * 8 + Wire.wt_bytes))) with 1%nat.
  change (length (Wire.enc_varint (N.of_nat 32))) with 1%nat. change (length (dec_n 3)) with 1%nat.
  assert (HS : length (ser_pub pub) = 33%nat) by (unfold ser_pub; cbn [length]; rewrite arr_length; reflexivity). rewrite HS.
  change (length (Wire.enc_varint (N.of_nat 33))) with 1%nat. cbn [length]. lia.
Qed.

Lemma create_short : forall joins net m ch g o net', GroupConvProofs.inv C (name T) joins net m -> short net ->
  mstep C (name T) (MCreate ch g) net = (o, net') -> short net'.
Proof.
  intros joins net m ch g o net' HI HS H. cbn [mstep] in H. pose proof (HI ch) as HC.
  assert (HD : forall d st, gw_create C g (n_store net (snd ch) (name_of (name T) ch)) = (Ok d, st) -> (length (skd_bytes d) < 100)%nat).
  { intros d st HX. unfold gw_create, group_create in HX. destruct HC as [(_ & _ & _ & HN)|(ck0 & s & rest & seed & H0 & H1 & H2 & H3 & H4 & H5 & H6 & HK & _)].
    - rewrite HN in HX. cbn [g_is_empty] in HX. destruct (generate_key_pair C g) as [[sg|e|] g1]; [|discriminate HX|discriminate HX].
      destruct (generate_registration_id g1) as [id g2]. destruct (generate_sender_key g2) as [key g3] eqn:EK. cbn [g_set_state g_first] in HX.
      assert (HL : length key = 32%nat) by (unfold generate_sender_key in EK; destruct (rng_read 32 g2) as [[a|] ?]; apply (f_equal fst) in EK; cbn [fst] in EK; rewrite <- EK; [apply arr_length|reflexivity]).
      apply (f_equal fst) in HX. cbn [fst] in HX. assert (E : skd_of_state (new_gstate id 0 key sg) = d) by (injection HX as E; exact E). rewrite <- E. apply dist_short. exact HL.
    - rewrite H1 in HX. cbn [g_is_empty g_first] in HX. apply (f_equal fst) in HX. cbn [fst] in HX. assert (E : skd_of_state s = d) by (injection HX as E; exact E). rewrite <- E.
      apply dist_short. rewrite H5. apply HK. }
  destruct (gw_create C g (n_store net (snd ch) (name_of (name T) ch))) as [[d|e|] st]; apply (f_equal snd) in H; cbn [snd] in H; rewrite <- H; [|exact HS|exact HS].
  intros ch' b HB. cbn [hand_out n_dist write] in HB. rewrite put_dec in HB. destruct (channel_eqb ch ch') eqn:EC; [|exact (HS _ _ HB)].
  apply in_app_or in HB. destruct HB as [HB|[<-|[]]]; [exact (HS _ _ HB)|exact (HD _ _ eq_refl)].
Qed.

Lemma create_grows : forall ch g net o net', mstep C (name T) (MCreate ch g) net = (o, net') -> grows net net'.
Proof.
  intros ch g net o net' H. cbn [mstep] in H. destruct (gw_create C g (n_store net (snd ch) (name_of (name T) ch))) as [[d|e|] st]; apply (f_equal snd) in H; cbn [snd] in H; rewrite <- H;
    intros ch' k b HB; cbn [hand_out n_dist write] in *; [|exact HB|exact HB].
  rewrite put_dec. destruct (channel_eqb ch ch') eqn:EC; [|exact HB]. apply channel_eqb_eq in EC. subst ch'. rewrite nth_error_app1; [exact HB|]. apply nth_error_Some. rewrite HB. discriminate.
Qed.

Lemma other_dist : forall e net o net', (forall ch g, e <> MCreate ch g) -> mstep C (name T) e net = (o, net') -> n_dist net' = n_dist net.
Proof.
  intros e net o net' HN H. apply (f_equal snd) in H. cbn [snd] in H. rewrite <- H. clear H. destruct e as [ch g|ch j k|ch pt g|ch j k|ch j b]; cbn [mstep].
  - destruct (HN ch g eq_refl).
  - destruct (nth_error _ k) as [b|]; [|reflexivity]. destruct (skd_from_bytes b); reflexivity.
  - destruct (gw_encrypt C pt g _) as [[x|x|] st]; reflexivity.
  - destruct (nth_error _ k) as [b|]; [|reflexivity]. unfold mdecrypt. destruct (skm_from_bytes b) as [x|x|]; [destruct (gw_decrypt C x _); reflexivity|reflexivity|reflexivity].
  - unfold mdecrypt. destruct (skm_from_bytes b) as [x|x|]; [destruct (gw_decrypt C x _); reflexivity|reflexivity|reflexivity].
Qed.

Lemma mstep_keeps : forall joins net m e o net' js st, GroupConvProofs.inv C (name T) joins net m -> mstep C (name T) e net = (o, net') ->
  sync net js st -> short net -> sync net' js st /\ short net'.
Proof.
  intros joins net m e o net' js st HI H HS HX. assert (D : (exists ch g, e = MCreate ch g) \/ forall ch g, e <> MCreate ch g).
  { destruct e as [ch g|ch j k|ch pt g|ch j k|ch j b]; [left; exists ch, g; reflexivity| | | |]; right; intros ch' g' D; discriminate D. }
  destruct D as [(ch & g & ->)|D].
  - split; [eapply sync_grows; [eapply create_grows; exact H|exact HS]|eapply create_short; eassumption].
  - pose proof (other_dist _ _ _ _ D H) as E. split; [eapply sync_grows; [|exact HS]; intros ch k b HB; rewrite E; exact HB|]. unfold short. rewrite E. exact HX.
Qed.

(** ** An invitation is processed *)

Lemma handle_invitation : forall joins net m c p gid k b, GroupConvProofs.inv C (name T) joins net m -> (S (S joins) <= max_group_keys)%nat ->
  (N.of_nat (length (cv_sent (m (gid, who T c (other p))))) < u32_modulus)%N -> nth_error (n_dist net (gid, who T c (other p))) k = Some b ->
  exists net', handle F T c p (wrap F (Invitation gid b)) net = (Ok (Some (Invitation gid b)), net') /\ n_dist net' = n_dist net /\
    GroupConvProofs.inv C (name T) (S joins) net' (snd (rstep (MJoin (gid, who T c (other p)) (who T c p) k) m)).
Proof.
  intros joins net m c p gid k b HI HJ HB HN. destruct (step_join C (name T) HName joins net m (gid, who T c (other p)) (who T c p) k HI HJ HB) as (net' & E & HI' & _).
  unfold handle. rewrite unwrap_wrap. cbn [mstep] in E. rewrite HN in E. destruct (skd_from_bytes b) as [d|e|]; [|discriminate E|discriminate E].
  apply (f_equal snd) in E. cbn [snd] in E. rewrite E. exists net'. split; [reflexivity|]. split; [rewrite <- E; reflexivity|exact HI'].
Qed.

Lemma jconforms_heard : forall a b o x, Forall2 meets a b -> jconforms o x -> jconforms (map JHeard a ++ o) (map JHears b ++ x).
Proof. intros a b o x H HC. induction H as [|r y a b H1 H2 IH]; [exact HC|]. cbn [map app]. apply JC_heard; assumption. Qed.

Lemma invited_heard : forall a x, invited (map JHears a ++ x) = invited x.
Proof. intros a x. induction a as [|y a IH]; [reflexivity|]. exact IH. Qed.

Theorem joint : forall evs js m joins t st w wire net,
  fair_all C T n (pair_events F evs) -> all_ok C T n st w wire (pair_events F evs) -> sync net js st ->
  GroupConvProofs.inv C (name T) joins net m -> short net -> total m t ->
  (N.of_nat (t + sends_in (group_events evs)) < 4294967296)%N -> (joins + joins_in (group_events evs) + invited (jspec T js m evs) < 2000)%nat ->
  Forall (proper C) (group_events evs) ->
  (forall c p gid k b, In (JInvite c p gid k) evs -> (length b < 100)%nat -> (N.of_nat (length (wrap F (Invitation gid b))) + 200 < 9223372036854775808)%N) ->
  jconforms (jrun C F T w wire net evs) (jspec T js m evs).
Proof.
  induction evs as [|ev evs IH]; intros js m joins t st w wire net HF HI HS HG HX HT Hs Hj HP HW; [constructor|].
  assert (HW' : forall c p gid k b, In (JInvite c p gid k) evs -> (length b < 100)%nat -> (N.of_nat (length (wrap F (Invitation gid b))) + 200 < 9223372036854775808)%N)
    by (intros c p gid k b Hin; exact (HW c p gid k b (or_intror Hin))).
  destruct ev as [c g|c p tx|c p gid k|c p i g|e].
  - change (pair_events F (JBegin c g :: evs)) with (Begin c g :: pair_events F evs) in *.
    destruct (step_begin C L T n HName HTwo HPair HKeys HSig _ _ _ _ _ _ HF HI) as (w' & g' & E & HI'). cbn [jrun jspec] in *. rewrite E. apply JC_begins.
    eapply IH; [exact (fair_all_tail _ _ _ _ _ HF)|exact HI'|apply sync_begin; exact HS|exact HG|exact HX|exact HT|exact Hs|exact Hj|exact HP|exact HW'].
  - change (pair_events F (JSay c p tx :: evs)) with (Talk c (Send p (wrap F (Text tx))) :: pair_events F evs) in *.
    assert (Hc : (c < n)%nat) by (destruct HF as (_ & F2 & _); inversion F2; assumption).
    destruct (step_say C L T n HName HTwo HPair HKeys HPid _ _ _ _ _ _ _ Hc HI) as (w' & wire' & E & HI'). cbn [jrun jspec] in *. rewrite E.
    eapply IH; [exact (fair_all_tail _ _ _ _ _ HF)|exact HI'|apply sync_said; [exact HS|reflexivity]|exact HG|exact HX|exact HT|exact Hs|exact Hj|exact HP|exact HW'].
  - change (pair_events F (JInvite c p gid k :: evs)) with (Talk c (Send p []) :: pair_events F evs) in *.
    assert (Hc : (c < n)%nat) by (destruct HF as (_ & F2 & _); inversion F2; assumption).
    assert (HL : length (n_dist net (gid, who T c p)) = length (cv_dist (m (gid, who T c p)))).
    { destruct (HG (gid, who T c p)) as [(-> & _ & -> & _)|(ck0 & s & rest & seed & _ & _ & _ & _ & _ & _ & _ & _ & _ & _ & H9 & _)]; [reflexivity|exact H9]. }
    cbn [jrun jspec] in *. destruct (nth_error (n_dist net (gid, who T c p)) k) as [b|] eqn:EB; destruct (nth_error (cv_dist (m (gid, who T c p))) k) as [z|] eqn:EZ.
    + assert (Hb : (length b < 100)%nat) by (eapply HX; eapply nth_error_In; exact EB).
      apply (reworded C T n c p [] (wrap F (Invitation gid b))) in HI; [|exact Hc|exact (HW c p gid k b (or_introl eq_refl) Hb)].
      destruct (step_say C L T n HName HTwo HPair HKeys HPid _ _ _ _ _ _ _ Hc HI) as (w' & wire' & E & HI'). rewrite E.
      eapply IH; [exact (fair_all_tail _ _ _ _ _ HF)|exact HI'|apply sync_said; [exact HS|exists b; split; [exact EB|reflexivity]]|exact HG|exact HX|exact HT|exact Hs|exact Hj|exact HP|exact HW'].
    + exfalso. apply nth_error_None in EZ. assert (k < length (n_dist net (gid, who T c p)))%nat by (apply nth_error_Some; rewrite EB; discriminate). lia.
    + exfalso. apply nth_error_None in EB. assert (k < length (cv_dist (m (gid, who T c p))))%nat by (apply nth_error_Some; rewrite EZ; discriminate). lia.
    + eapply IH; [exact (fair_all_tail _ _ _ _ _ HF)|eapply unsent; [exact HPid|exact Hc|exact HI]|exact HS|exact HG|exact HX|exact HT|exact Hs|exact Hj|exact HP|exact HW'].
  - change (pair_events F (JDeliver c p i g :: evs)) with (Talk c (Deliver p i g) :: pair_events F evs) in *.
    assert (Hc : (c < n)%nat) by (destruct HF as (_ & F2 & _); inversion F2; assumption).
    pose proof (step_hear C L T n HName HTwo HPair HKeys HPid _ _ _ _ _ _ _ _ Hc HI) as HH. pose proof (fair_all_tail _ _ _ _ _ HF) as HF'.
    pose proof (sync_nth net js st c (other p) i HS) as HN. cbn [jrun jspec] in *. destruct (js c) as [[v a]|] eqn:EJ.
    2:{ rewrite HN in HH. destruct HH as [HH HI']. rewrite HH. eapply IH; [exact HF'|exact HI'|exact HS|exact HG|exact HX|exact HT|exact Hs|exact Hj|exact HP|exact HW']. }
    destruct HN as (b & ES & HN). rewrite ES in HH. destruct (nth_error (a (other p)) i) as [[[e q] x]|] eqn:EA.
    2:{ rewrite HN in HH. destruct HH as [HH HI']. rewrite HH. eapply IH; [exact HF'|exact HI'|exact HS|exact HG|exact HX|exact HT|exact Hs|exact Hj|exact HP|exact HW']. }
    destruct HN as (pt & EB & HNote). rewrite EB in HH. destruct HH as (k & o & w' & v0 & b0 & E0 & EK & ER & HH).
    assert (Ev : v = v0) by exact (f_equal (fun z => match z with Some (y, _) => y | None => v end) E0).
    assert (Eb : b = b0) by exact (f_equal (fun z => match z with Some (_, y) => y | None => b end) E0). subst v0 b0.
    rewrite EK, ER. rewrite cdeliver_pt in HH. destruct (cdeliver (v p) e q []) as [y v'] eqn:ED. cbn [fst snd] in HH.
    pose proof (sync_view net js st c v a b (upd_party v p v') HS EJ ES) as HS'.
    destruct y as [z| |].
    + destruct HH as [-> HI']. destruct x as [tx|gid k'].
      * cbn [note_is] in HNote. subst pt. unfold handle at 1. rewrite unwrap_wrap. apply JC_text.
        eapply IH; [exact HF'|exact HI'|exact HS'|exact HG|exact HX|exact HT|exact Hs|exact Hj|exact HP|exact HW'].
      * destruct HNote as (bb & ENd & ->).
        match type of Hj with context [invited (JReads ?c0 ?p0 ?i0 ?x0 :: ?r)] => change (invited (JReads c0 p0 i0 x0 :: r)) with (S (invited r)) in Hj end.
        destruct (handle_invitation joins net m c p gid k' bb HG) as (net' & EH & ENN & HG').
        { unfold max_group_keys. lia. }
        { specialize (HT (gid, who T c (other p))). unfold u32_modulus. lia. }
        { exact ENd. }
        rewrite EH. apply JC_invited.
        eapply (IH _ _ (S joins)); [exact HF'|exact HI'| |exact HG'| | |exact Hs| |exact HP|exact HW'].
        -- eapply sync_grows; [|exact HS']. intros ch kk b1 HB1. rewrite ENN. exact HB1.
        -- unfold short. rewrite ENN. exact HX.
        -- pose proof (rstep_total (name T) HName (MJoin (gid, who T c (other p)) (who T c p) k') m t HT) as HT'. change (sends_in [MJoin (gid, who T c (other p)) (who T c p) k']) with 0%nat in HT'. rewrite Nat.add_0_r in HT'. exact HT'.
        -- change (group_events (JDeliver c p i g :: evs)) with (group_events evs) in Hj. match type of Hj with (_ + S (invited ?a) < _)%nat => match goal with |- (_ + invited ?b < _)%nat => change a with b in Hj end end. lia.
    + destruct HH as [(er & ->) HI']. apply JC_refused. eapply IH; [exact HF'|exact HI'|exact HS'|exact HG|exact HX|exact HT|exact Hs|exact Hj|exact HP|exact HW'].
    + destruct HH as [(z & ->)|[(er & ->) HI']].
      * destruct (handle F T c p z net) as [r net'] eqn:EH. apply JC_collision. intros er D. subst r. unfold handle in EH.
        destruct (unwrap F z) as [[tx|gid b1]|]; [discriminate EH| |discriminate EH]. destruct (skd_from_bytes b1); discriminate EH.
      * apply JC_forgotten. eapply IH; [exact HF'|exact HI'|exact HS'|exact HG|exact HX|exact HT|exact Hs|exact Hj|exact HP|exact HW'].
  - change (pair_events F (JGroup e :: evs)) with (pair_events F evs) in *. change (group_events (JGroup e :: evs)) with (e :: group_events evs) in *.
    rewrite sends_cons in Hs. rewrite joins_cons in Hj. inversion HP as [|? ? P1 P2]; subst. pose proof (rstep_total (name T) HName e m t HT) as HT'.
    assert (HB : forall ch, (N.of_nat (length (cv_sent (m ch))) < u32_modulus)%N) by (intros ch; specialize (HT ch); unfold u32_modulus; lia).
    cbn [jrun jspec] in *. destruct (rstep e m) as [xs m'] eqn:ER. cbn [snd] in HT'. rewrite invited_heard in Hj.
    assert (HGO : forall o net' jn, mstep C (name T) e net = (o, net') -> (jn + joins_in (group_events evs) + invited (jspec T js m' evs) < 2000)%nat -> Forall2 meets o xs ->
      GroupConvProofs.inv C (name T) jn net' m' -> jconforms (map JHeard o ++ jrun C F T w wire net' evs) (map JHears xs ++ jspec T js m' evs)).
    { intros o net' jn E HJ HM HG'. apply jconforms_heard; [exact HM|]. destruct (mstep_keeps _ _ _ _ _ _ _ _ HG E HS HX) as [HS' HX'].
      eapply IH; [exact HF|exact HI|exact HS'|exact HG'|exact HX'|exact HT'| |exact HJ|exact P2|exact HW']. lia. }
    destruct e as [ch g|ch j k|ch pt g|ch j k|ch j b].
    + destruct (step_create C L (name T) HName joins net m ch g HG (HB ch) P1) as (net' & E & HG'). rewrite E. rewrite ER in HG'. assert (xs = []) as -> by (cbn [rstep] in ER; injection ER as <- _; reflexivity).
      apply (HGO [] net' joins E); [change (joins_in [MCreate ch g]) with 0%nat in Hj; lia|constructor|exact HG'].
    + change (joins_in [MJoin ch j k]) with 1%nat in Hj. destruct (step_join C (name T) HName joins net m ch j k HG) as (net' & E & HG' & EX); [unfold max_group_keys; lia|apply HB|].
      rewrite E. rewrite ER in HG', EX. cbn [fst snd] in HG', EX. subst xs. apply (HGO [] net' (S joins) E); [lia|constructor|exact HG'].
    + destruct (step_send C L (name T) HName joins net m ch pt g HG (HB ch) P1) as (o & net' & E & HM & HG'). rewrite E. rewrite ER in HG', HM. cbn [fst snd] in HG', HM.
      apply (HGO o net' joins E); [change (joins_in [MSend ch pt g]) with 0%nat in Hj; lia|exact HM|exact HG'].
    + destruct (step_deliver C L (name T) HName joins net m ch j k HG (HB ch)) as (o & net' & E & HM & HG'). rewrite E. rewrite ER in HG', HM. cbn [fst snd] in HG', HM.
      apply (HGO o net' joins E); [change (joins_in [MDeliver ch j k]) with 0%nat in Hj; lia|exact HM|exact HG'].
    + cbn [rstep] in ER. assert (xs = [EInjected] /\ m = m') as [-> <-] by (split; [exact (f_equal fst (eq_sym ER))|exact (f_equal snd ER)]).
      destruct (step_inject C (name T) HName joins net m ch j b HG) as (o & net' & E & [(pt & ->)|(HN & HG')]).
      * rewrite E. cbn [map app]. apply JC_forged.
      * rewrite E. apply (HGO [o] net' joins E); [change (joins_in [MInject ch j b]) with 0%nat in Hj; lia|constructor; [exact HN|constructor]|exact HG'].
Qed.
End Joint.

Lemma joint_start : forall C, crypto_laws C -> forall F T n w evs, well_cast C T n (fun j => credulous (w j)) -> jfair C F T n evs ->
  (forall c p, (c < n)%nat -> first_use (w_policy (w (who T c p))) /\ knows_no_other (w (who T c p)) (address_in T c (other p)) (w (who T c (other p)))) ->
  jconforms (jrun C F T w (fun _ _ => []) quiet evs) (jspec T (fun _ => None) (fun _ => fresh_chan) evs).
Proof.
  intros C L F T n w evs [H1 H2 H3 H4 H5 H6 H7] (J1 & J2 & J3 & J4 & J5) HU.
  eapply (joint C L F T n H1 H2 H3 H4 H7 _ evs (fun _ => None) (fun _ => fresh_chan) 0 0 (fun _ => None)); [exact J1| | |apply inv_quiet| | |exact J3|exact J4|exact J2|exact J5].
  - intros c Hc. split; [exact (H5 c Hc)|]. split; [intros p; apply HU; exact Hc|reflexivity].
  - intros c. exact I.
  - intros ch b [].
  - intros ch. apply le_n.
  Unshelve. intros c Hc. destruct (H5 c Hc). repeat split; assumption.
Qed.

(** * No message is read twice *)

Definition reads_of (c : nat) (x : list jverdict) : list (party * nat) :=
  flat_map (fun y => match y with JReads d p i _ => if Nat.eqb c d then [(p, i)] else [] | _ => [] end) x.

Lemma reads_heard : forall c a x, reads_of c (map JHears a ++ x) = reads_of c x.
Proof. intros c a x. induction a as [|y a IH]; [reflexivity|exact IH]. Qed.

Definition erase (x : nat * N * note) : nat * N * bytes := (fst x, []).

Lemma note_in_other : forall c p x js d, c <> d -> note_in c p x js d = js d.
Proof. intros c p x js d HN. unfold note_in. destruct (js c) as [[v a]|]; [|reflexivity]. destruct (pv_epoch (v p)); [reflexivity|]. apply upd_nat_diff. exact HN. Qed.

Lemma nth_erase : forall a i, nth_error (map erase a) i = match nth_error a i with Some (e, m, _) => Some (e, m, []) | None => None end.
Proof. induction a as [|[[e m] x] a IH]; intros [|i]; cbn; [reflexivity|reflexivity|reflexivity|apply IH]. Qed.

Lemma reads_cspec : forall T c evs js m v a sent, js c = Some (v, a) -> (forall p, sent p = map erase (a p)) -> ~ In c (flat_map (fun e => match e with JBegin d _ => [d] | _ => [] end) evs) ->
  exists l, reads_of c (jspec T js m evs) = plains (cspec v sent l).
Proof.
  intros T c. induction evs as [|ev evs IH]; intros js m v a sent EJ ES HB; [exists []; reflexivity|].
  assert (HSend : forall d p x m', exists l, reads_of c (jspec T (note_in d p x js) m' evs) = plains (cspec v sent l)).
  { intros d p x m'. destruct (Nat.eq_dec d c) as [->|HN].
    - destruct (pv_epoch (v p)) as [|z] eqn:EV.
      + destruct (IH (note_in c p x js) m' v a sent) as (l & E); [unfold note_in; rewrite EJ, EV; exact EJ|exact ES|destruct ev; try exact HB; intros D; apply HB; right; exact D|]. exists l. exact E.
      + edestruct (IH (note_in c p x js) m') as (l & E); [unfold note_in; rewrite EJ, EV; apply upd_nat_same| |destruct ev; try exact HB; intros D; apply HB; right; exact D|].
        2:{ exists (Send p [] :: l). cbn [cspec]. rewrite EV. exact E. }
        intros q. destruct (party_cases p q) as [-> | ->]; [rewrite !upd_same, ES, map_app; reflexivity|rewrite !upd_diff; apply ES].
    - destruct (IH (note_in d p x js) m' v a sent) as (l & E); [rewrite note_in_other by exact HN; exact EJ|exact ES|destruct ev; try exact HB; intros D; apply HB; right; exact D|]. exists l. exact E. }
  destruct ev as [d g|d p tx|d p gid k|d p i g|e]; cbn [jspec].
  - destruct (Nat.eq_dec d c) as [->|HN]; [exfalso; apply HB; left; reflexivity|]. cbn [reads_of flat_map app]. eapply IH; [rewrite upd_nat_diff by exact HN; exact EJ|exact ES|intros D; apply HB; right; exact D].
  - apply HSend.
  - destruct (nth_error (cv_dist (m (gid, who T d p))) k).
    + apply HSend.
    + eapply IH; [exact EJ|exact ES|exact HB].
  - destruct (Nat.eq_dec d c) as [->|HN].
    + rewrite EJ. pose proof (nth_erase (a (other p)) i) as HE. rewrite <- ES in HE. destruct (nth_error (a (other p)) i) as [[[e q] x]|].
      2:{ eapply IH; [exact EJ|exact ES|exact HB]. }
      destruct (cdeliver (v p) e q []) as [y v'] eqn:ED.
      assert (HC : forall m', exists l, reads_of c (jspec T (upd_nat js c (Some (upd_party v p v', a))) m' evs) = plains (cspec (upd_party v p v') sent l))
        by (intros m'; eapply IH; [apply upd_nat_same|exact ES|exact HB]).
      destruct y as [z| |].
      * match goal with |- context [jspec T _ ?mm evs] => destruct (HC mm) as (l & E) end. exists (Deliver p i g :: l). cbn [cspec]. rewrite HE, ED.
        cbn [reads_of flat_map plains app]. rewrite Nat.eqb_refl. fold (reads_of c). cbn [app]. f_equal. exact E.
      * destruct (HC m) as (l & E). exists (Deliver p i g :: l). cbn [cspec]. rewrite HE, ED. exact E.
      * destruct (HC m) as (l & E). exists (Deliver p i g :: l). cbn [cspec]. rewrite HE, ED. exact E.
    + destruct (js d) as [[v1 a1]|]; [|eapply IH; [exact EJ|exact ES|exact HB]]. destruct (nth_error (a1 (other p)) i) as [[[e q] x]|]; [|eapply IH; [exact EJ|exact ES|exact HB]].
      assert (HC : forall z m', exists l, reads_of c (jspec T (upd_nat js d z) m' evs) = plains (cspec v sent l))
        by (intros z m'; eapply IH; [rewrite upd_nat_diff by exact HN; exact EJ|exact ES|exact HB]).
      destruct (cdeliver (v1 p) e q []) as [[z| |] v']; cbn [reads_of flat_map app]; fold (reads_of c).
      * apply Nat.eqb_neq in HN. rewrite Nat.eqb_sym, HN. cbn [app]. apply HC.
      * apply HC.
      * apply HC.
  - destruct (rstep e m) as [o m']. rewrite reads_heard. eapply IH; [exact EJ|exact ES|exact HB].
Qed.

Lemma reads_once_at : forall T c evs js m, js c = None -> NoDup (flat_map (fun e => match e with JBegin d _ => [d] | _ => [] end) evs) -> NoDup (reads_of c (jspec T js m evs)).
Proof.
  intros T c. induction evs as [|ev evs IH]; intros js m EJ HB; [constructor|].
  assert (HNote : forall d p x, note_in d p x js c = None) by (intros d p x; destruct (Nat.eq_dec d c) as [->|HN]; [unfold note_in; rewrite EJ; exact EJ|rewrite note_in_other by exact HN; exact EJ]).
  destruct ev as [d g|d p tx|d p gid k|d p i g|e]; cbn [jspec].
  - cbn [flat_map app] in HB. inversion HB as [|? ? B1 B2]; subst. cbn [reads_of flat_map app]. fold (reads_of c). destruct (Nat.eq_dec d c) as [->|HN].
    + destruct (reads_cspec T c evs (upd_nat js c (Some (start_view, fun _ => []))) m start_view (fun _ => []) (fun _ => []) (upd_nat_same _ _ _ _) (fun _ => eq_refl) B1) as (l & E).
      change (NoDup (reads_of c (jspec T (upd_nat js c (Some (start_view, fun _ => []))) m evs))). rewrite E. apply once_start.
    + apply IH; [rewrite upd_nat_diff by exact HN; exact EJ|exact B2].
  - apply IH; [apply HNote|exact HB].
  - destruct (nth_error (cv_dist (m (gid, who T d p))) k); (apply IH; [first [apply HNote|exact EJ]|exact HB]).
  - destruct (Nat.eq_dec d c) as [->|HN]; [rewrite EJ; apply IH; [exact EJ|exact HB]|].
    destruct (js d) as [[v1 a1]|]; [|apply IH; [exact EJ|exact HB]]. destruct (nth_error (a1 (other p)) i) as [[[e q] x]|]; [|apply IH; [exact EJ|exact HB]].
    assert (HC : forall z m', NoDup (reads_of c (jspec T (upd_nat js d z) m' evs))) by (intros z m'; apply IH; [rewrite upd_nat_diff by exact HN; exact EJ|exact HB]).
    destruct (cdeliver (v1 p) e q []) as [[z| |] v']; cbn [reads_of flat_map app]; fold (reads_of c).
    + apply Nat.eqb_neq in HN. rewrite Nat.eqb_sym, HN. cbn [app]. apply HC.
    + apply HC.
    + apply HC.
  - destruct (rstep e m) as [o m']. rewrite reads_heard. apply IH; [exact EJ|exact HB].
Qed.

Lemma begun_pairs : forall F evs, begun (pair_events F evs) = flat_map (fun e => match e with JBegin d _ => [d] | _ => [] end) evs.
Proof.
  intros F. induction evs as [|e evs IH]; [reflexivity|]. unfold begun, pair_events in *. cbn [flat_map]. rewrite flat_map_app. rewrite IH. destruct e; reflexivity.
Qed.

(** No injected group message is accepted. *)
Lemma jconforms_contents : forall c o x, jconforms o x -> jtame x -> ~ In EInjected (hears x) -> contents_of c o = reads_of c x.
Proof.
  intros c o x H. induction H as [|d o x H IH|d p i t o x H IH|d p i gid b k o x H IH|d p i e o x H IH|d p i e o x H IH|d p i r o x HR|r y o x HM H IH|pt o x]; intros HT HN.
  - reflexivity.
  - apply IH; [intros d1 p1 i1 D; apply (HT d1 p1 i1); right; exact D|exact HN].
  - cbn [contents_of reads_of flat_map]. f_equal. apply IH; [intros d1 p1 i1 D; apply (HT d1 p1 i1); right; exact D|exact HN].
  - cbn [contents_of reads_of flat_map]. f_equal. apply IH; [intros d1 p1 i1 D; apply (HT d1 p1 i1); right; exact D|exact HN].
  - apply IH; [intros d1 p1 i1 D; apply (HT d1 p1 i1); right; exact D|exact HN].
  - apply IH; [intros d1 p1 i1 D; apply (HT d1 p1 i1); right; exact D|exact HN].
  - exfalso. apply (HT d p i). left. reflexivity.
  - apply IH; [intros d1 p1 i1 D; apply (HT d1 p1 i1); right; exact D|intros D; apply HN; right; exact D].
  - exfalso. apply HN. left. reflexivity.
Qed.

Lemma jconforms_heard_all : forall o x, jconforms o x -> jtame x -> as_prescribed (heard o) (hears x).
Proof.
  intros o x H. induction H as [|d o x H IH|d p i t o x H IH|d p i gid b k o x H IH|d p i e o x H IH|d p i e o x H IH|d p i r o x HR|r y o x HM H IH|pt o x]; intros HT.
  - constructor.
  - apply IH; intros d1 p1 i1 D; apply (HT d1 p1 i1); right; exact D.
  - apply IH; intros d1 p1 i1 D; apply (HT d1 p1 i1); right; exact D.
  - apply IH; intros d1 p1 i1 D; apply (HT d1 p1 i1); right; exact D.
  - apply IH; intros d1 p1 i1 D; apply (HT d1 p1 i1); right; exact D.
  - apply IH; intros d1 p1 i1 D; apply (HT d1 p1 i1); right; exact D.
  - exfalso. apply (HT d p i). left. reflexivity.
  - cbn [heard hears flat_map app]. apply AP_cons; [exact HM|]. apply IH; intros d1 p1 i1 D; apply (HT d1 p1 i1); right; exact D.
  - cbn [heard hears flat_map app]. apply AP_forged.
Qed.
