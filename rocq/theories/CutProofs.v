(** CutProofs.v: conversations with calls that die in the middle (C81). *)
From Verif Require Import Base Labels Crypto Bytehelper Ecc Cbc Wire Itoa Keys X3dh Messages SessionState SessionRecord
  SessionBuilder SessionCipher Address World CryptoProofs SessionProofs SerialProofs SessionSpec
  OpsProofs GroupSpec GroupProofs ConvSpec ConvProofs ConvProofs2 ConvProofs3 ThreadSpec CutSpec.
From Coq Require Import Lia ZifyBool ZifyN ZifyNat.

Section Writes.
Context (C : crypto).

Lemma receive_writes : forall a k g w o w', receive C a k g w = (o, w') -> o <> Panic ->
  commit a (snd (run_call C (view_of w a) (DoReceive k g))) w = (w', true) /\
  match o with
  | Ok _ => exists id r rest, snd (run_call C (view_of w a) (DoReceive k g)) = SaveIdentity id :: StoreSession r :: rest /\
              (rest = [] \/ exists i, rest = [RemovePreKey i])
  | _ => snd (run_call C (view_of w a) (DoReceive k g)) = [] \/ exists id, snd (run_call C (view_of w a) (DoReceive k g)) = [SaveIdentity id]
  end.
Proof.
  intros a k g w o w' H HN. unfold receive in H. unfold run_call. destruct k as [b|b].
  - destruct (sig_from_bytes b) as [m|e|]; [|injection H as <- <-; split; [reflexivity|left; reflexivity]|injection H as <- <-; congruence].
    unfold w_decrypt in H. destruct (decrypt_and_get_key C (view_of w a) m g) as [[[o1 r1] es] g1] eqn:E. cbn [snd].
    destruct (commit a es w) as [w1 ok] eqn:EC. injection H as <- <-. destruct ok; [|exfalso; apply HN; reflexivity]. cbn [seal] in *. split; [reflexivity|].
    unfold decrypt_and_get_key in E. destruct (negb _); [injection E as <- _ <- _; left; reflexivity|].
    destruct (decrypt_with_record C (v_load (view_of w a)) m g) as [[[x|e|] r'] g2].
    + destruct (s_remote_id (r_cur r')) as [rid|]; [|injection E as <- _ _ _; exfalso; apply HN; reflexivity].
      injection E as <- _ <- _. destruct x as [x1 x2]. cbn [plain]. exists rid, r', []. split; [reflexivity|left; reflexivity].
    + injection E as <- _ <- _. left. reflexivity.
    + injection E as <- _ _ _. exfalso. apply HN. reflexivity.
  - destruct (pk_from_bytes b) as [m|e|]; [|injection H as <- <-; split; [reflexivity|left; reflexivity]|injection H as <- <-; congruence].
    unfold w_decrypt_message in H. destruct (decrypt_message C (view_of w a) m g) as [[[o1 r1] es] g1] eqn:E. cbn [snd].
    destruct (commit a es w) as [w1 ok] eqn:EC. injection H as <- <-. destruct ok; [|exfalso; apply HN; reflexivity]. cbn [seal] in *. split; [reflexivity|].
    unfold decrypt_message in E. destruct (process C (view_of w a) (v_load (view_of w a)) m) as [[op rp] ef] eqn:EP.
    unfold process in EP. destruct (negb _); [injection EP as <- _ <-; injection E as <- _ <- _; left; reflexivity|].
    destruct (process_v3 C (view_of w a) (v_load (view_of w a)) m) as [[id|e|] r'].
    + injection EP as <- <- <-. destruct (decrypt_with_record C r' (pm_message m) g) as [[[x|e|] r2] g2].
      * destruct id as [o2|]; [|injection E as <- _ _ _; exfalso; apply HN; reflexivity].
        injection E as <- _ <- _. destruct x as [x1 x2]. cbn [plain app]. exists (pm_identity m), r2. destruct (ou_empty o2); eexists; (split; [reflexivity|]);
          [left; reflexivity|right; eexists; reflexivity].
      * injection E as <- _ <- _. right. eexists. reflexivity.
      * injection E as <- _ _ _. exfalso. apply HN. reflexivity.
    + injection EP as <- <- <-. injection E as <- _ <- _. left. reflexivity.
    + injection EP as <- <- <-. injection E as <- _ _ _. exfalso. apply HN. reflexivity.
Qed.

Lemma encrypt_writes : forall a pt w ct w', w_encrypt C a pt w = (Ok ct, w') ->
  exists id r, snd (run_call C (view_of w a) (DoEncrypt pt)) = [SaveIdentity id; StoreSession r] /\ commit a [SaveIdentity id; StoreSession r] w = (w', true).
Proof.
  intros a pt w ct w' H. unfold w_encrypt in H. unfold run_call. destruct (encrypt C (view_of w a) pt) as [[o1 r1] es] eqn:E. cbn [snd].
  destruct (commit a es w) as [w1 ok] eqn:EC. injection H as H1 H2. destruct ok; [|discriminate H1]. cbn [seal] in H1. subst o1 w1.
  unfold encrypt in E. destruct (s_sender _) as [sc|]; [|discriminate E].
  destruct (encrypt_cbc C _ _ pt) as [body|e|]; [|discriminate E|discriminate E].
  destruct (s_local_id _) as [lid|]; [|discriminate E]. destruct (s_remote_id _) as [rid|]; [|discriminate E].
  destruct (new_signal_message C _ _ _ _ _ _ _ _) as [sm|e|]; [|discriminate E|discriminate E].
  match type of E with (match ?t with _ => _ end) = _ => destruct t as [c|e|]; [|discriminate E|discriminate E] end.
  injection E as _ _ <-. eexists. eexists. split; [reflexivity|exact EC].
Qed.

(** The stores after the first writes. *)
Lemma saved_only : forall a id w, only_saved w (fst (commit a [SaveIdentity id] w)).
Proof. intros. repeat split. Qed.

Definition same_but_prekeys (w w' : world) : Prop := w_sessions w' = w_sessions w /\ w_self w' = w_self w /\ w_policy w' = w_policy w.

(** A call that returned a plaintext, cut. *)
Lemma cut_ok : forall a k g w q w' n, receive C a k g w = (Ok q, w') ->
  match n with
  | S (S _) => existsb is_store (first_writes C a (DoReceive k g) n w) = true /\ same_but_prekeys w' (cut_call C a (DoReceive k g) n w)
  | _ => existsb is_store (first_writes C a (DoReceive k g) n w) = false /\ only_saved w (cut_call C a (DoReceive k g) n w)
  end.
Proof.
  intros a k g w q w' n H. destruct (receive_writes _ _ _ _ _ _ H) as (HC & id & r & rest & HE & HR); [discriminate|].
  unfold cut_call, first_writes. rewrite HE in *. destruct n as [|[|n]].
  - split; [reflexivity|apply only_saved_refl].
  - split; [reflexivity|]. cbn [firstn]. apply saved_only.
  - cbn [firstn existsb is_store orb]. split; [reflexivity|]. cbn [commit apply_effect] in *. destruct (persist r) as [r3|e|]; [|discriminate HC|discriminate HC].
    destruct HR as [->|(i & ->)].
    + destruct n; cbn [firstn commit] in *; injection HC as <-; repeat split.
    + destruct n as [|n]; [|destruct n]; cbn [firstn commit apply_effect] in *; injection HC as <-; repeat split.
Qed.

Lemma cut_err : forall a k g w e w' n, receive C a k g w = (Err e, w') ->
  existsb is_store (first_writes C a (DoReceive k g) n w) = false /\ only_saved w (cut_call C a (DoReceive k g) n w).
Proof.
  intros a k g w e w' n H. destruct (receive_writes _ _ _ _ _ _ H) as (_ & [HE|(id & HE)]); [discriminate| |]; unfold cut_call, first_writes; rewrite HE.
  - rewrite firstn_nil. split; [reflexivity|apply only_saved_refl].
  - destruct n as [|n]; [split; [reflexivity|apply only_saved_refl]|]. cbn [firstn]. rewrite firstn_nil. split; [reflexivity|apply saved_only].
Qed.

Lemma cut_send : forall a pt w ct w' n, w_encrypt C a pt w = (Ok ct, w') ->
  match n with
  | S (S _) => cut_call C a (DoEncrypt pt) n w = w'
  | _ => only_saved w (cut_call C a (DoEncrypt pt) n w)
  end.
Proof.
  intros a pt w ct w' n H. destruct (encrypt_writes _ _ _ _ _ H) as (id & r & HE & HC). unfold cut_call, first_writes. rewrite HE.
  destruct n as [|[|n]]; [apply only_saved_refl|apply saved_only|]. cbn [firstn]. rewrite firstn_nil, HC. reflexivity.
Qed.
End Writes.

(** * Whole runs *)

Section Sim.
Context (C : crypto) (L : crypto_laws C).
Context (addr : party -> address) (priv : party -> arr32) (base signed otk : arr32) (i sid : N).
Context (Hi : (i < 2 ^ 32)%N) (Hsid : (sid < 2 ^ 32)%N) (Him : i <> medium_max).
Notation inv := (ginv C addr priv base signed otk i sid).

Lemma inv_unsent : forall E v sent w wire p pt evs, inv E v sent w wire (Send p pt :: evs) -> inv E v sent w wire evs.
Proof.
  intros E v sent w wire p pt evs HI. destruct HI as [I1 I2 I3 I4 I13 I5 I6 I7 I8 I9 I10 I11 I12]. constructor; auto.
  - intros q. specialize (I11 q). unfold sends in *. cbn [plaintexts flat_map app length] in I11. fold (plaintexts evs) in I11. lia.
  - intros q Hq. apply I12. right. exact Hq.
Qed.

Lemma inv_saved : forall E v sent w wire p evs w', inv E v sent w wire evs -> only_saved (w p) w' -> inv E v sent (upd_party w p w') wire evs.
Proof.
  intros E v sent w wire p evs w' [I1 I2 I3 I4 I13 I5 I6 I7 I8 I9 I10 I11 I12] HO. constructor; auto.
  intros q. destruct (party_cases p q) as [->| ->]; [rewrite upd_same; eapply only_saved_party; [exact HO|apply I7]|rewrite upd_diff; apply I7].
Qed.

Lemma inv_swap : forall E v sent w wire p evs w1 w2, inv E v sent (upd_party w p w1) wire evs -> same_but_prekeys w1 w2 ->
  v p <> no_view -> inv E v sent (upd_party w p w2) wire evs.
Proof.
  intros E v sent w wire p evs w1 w2 [I1 I2 I3 I4 I13 I5 I6 I7 I8 I9 I10 I11 I12] (S1 & S2 & S3) HN. constructor; auto.
  intros q. specialize (I7 q). destruct (party_cases p q) as [->| ->]; [rewrite upd_same in *|rewrite upd_diff in *; exact I7].
  destruct I7 as [HT HP]. split; [unfold trusting; rewrite S3; exact HT|].
  assert (HS : session_rel C addr priv base i sid E p (v p) w1 -> session_rel C addr priv base i sid E p (v p) w2) by (unfold session_rel; rewrite S1; auto).
  destruct p; [destruct (pv_epoch (v Alice)); [destruct HP|exact (HS HP)]|]. destruct (pv_epoch (v Bob)); [destruct HP as [HP _]; exfalso; exact (HN HP)|exact (HS HP)].
Qed.

Lemma inv_lost : forall E v sent w wire p x k evs, inv E v (upd_party sent p (sent p ++ [x])) w (upd_party wire p (wire p ++ [k])) evs ->
  Forall2 (wire_rel C priv base i sid E p) (wire p) (sent p) -> inv E v sent w wire evs.
Proof.
  intros E v sent w wire p x k evs [I1 I2 I3 I4 I13 I5 I6 I7 I8 I9 I10 I11 I12] HW. constructor; auto.
  - intros q. specialize (I8 q). destruct (party_cases p q) as [->| ->]; [exact HW|rewrite !upd_diff in I8; exact I8].
  - intros q e n pt HI. apply (I9 q e n pt). destruct (party_cases p q) as [->| ->]; [rewrite upd_same; apply in_or_app; left; exact HI|rewrite upd_diff; exact HI].
Qed.

Lemma plain_view : forall v e n pt q v', cdeliver v e n pt = (Plain q, v') -> v' <> no_view.
Proof.
  intros v e n pt q v' H. unfold cdeliver in H. destruct (cfind e (pv_chains v)) as [c|] eqn:EF.
  - destruct (caccept c n); [|discriminate H]. injection H as _ <-. intros D. apply (f_equal pv_chains) in D. cbn in D.
    destruct (cfind_in _ _ _ EF) as [F1 _]. destruct (pv_chains v); [destruct F1|discriminate D].
  - destruct (Nat.eqb e (S (pv_epoch v))); [|discriminate H]. destruct (caccept _ n); [|discriminate H]. injection H as _ <-.
    intros D. apply (f_equal pv_epoch) in D. discriminate D.
Qed.

Theorem cut_simulation : forall evs E v sent w wire, inv E v sent w wire (map event_of evs) -> xconforms (xrun C addr w wire evs) (xspec v sent evs).
Proof.
  induction evs as [|ev evs IH]; intros E v sent w wire HI; [constructor|]. cbn [map event_of] in HI. destruct ev as [[p pt|p j g]|[p pt|p j g] n]; cbn [event_of] in HI; cbn [xrun xspec].
  - destruct (pv_epoch (v p)) as [|z] eqn:EV.
    + destruct (send_nothing C addr priv base signed otk i sid Hi Hsid Him _ _ _ _ _ _ _ _ HI EV) as [-> HI']. exact (IH _ _ _ _ _ HI').
    + destruct (send_step C L addr priv base signed otk i sid Hi Hsid Him _ _ _ _ _ _ _ _ _ HI EV) as (ct & k & w' & -> & -> & -> & _ & _ & HI'). rewrite EV in HI'. exact (IH _ _ _ _ _ HI').
  - assert (HND : inv E v sent w wire (map event_of evs)) by (eapply deliver_nothing; eassumption).
    pose proof (nth_rel _ _ _ _ _ j (g_wire _ _ _ _ _ _ _ _ _ _ _ _ _ _ HI (other p))) as HJ.
    destruct (nth_error (wire (other p)) j) as [k|] eqn:EK; destruct (nth_error (sent (other p)) j) as [[[e c] pt]|] eqn:ES; [|destruct HJ|destruct HJ|].
    2:{ exact (IH _ _ _ _ _ HND). }
    destruct (deliver_step C L addr priv base signed otk i sid Hi Hsid Him _ _ _ _ _ _ _ _ _ _ _ _ _ HI EK ES) as (o & w' & -> & _ & HO). destruct (cdeliver (v p) e c pt) as [[q| |] v'].
    + destruct HO as (-> & _ & F & _ & HI'). apply XC_plain. exact (IH _ _ _ _ _ HI').
    + destruct HO as ((er & ->) & _ & HI'). apply XC_refused. exact (IH _ _ _ _ _ HI').
    + destruct HO as [(q & ->)|((er & ->) & _ & HI')]; [apply XC_collision|]. apply XC_forgotten. exact (IH _ _ _ _ _ HI').
  - destruct (pv_epoch (v p)) as [|z] eqn:EV.
    + destruct (send_nothing C addr priv base signed otk i sid Hi Hsid Him _ _ _ _ _ _ _ _ HI EV) as [-> HI']. exact (IH _ _ _ _ _ HI').
    + destruct (send_step C L addr priv base signed otk i sid Hi Hsid Him _ _ _ _ _ _ _ _ _ HI EV) as (ct & k & w' & -> & HE & _ & _ & _ & HI').
      pose proof (cut_send C _ _ _ _ _ n HE) as HC. destruct n as [|[|n]].
      * apply (IH E). apply inv_saved; [exact (inv_unsent _ _ _ _ _ _ _ _ HI)|exact HC].
      * apply (IH E). apply inv_saved; [exact (inv_unsent _ _ _ _ _ _ _ _ HI)|exact HC].
      * rewrite HC. rewrite EV in HI'. apply (IH E). eapply inv_lost; [exact HI'|]. exact (g_wire _ _ _ _ _ _ _ _ _ _ _ _ _ _ HI p).
  - assert (HND : inv E v sent w wire (map event_of evs)) by (eapply deliver_nothing; eassumption).
    pose proof (nth_rel _ _ _ _ _ j (g_wire _ _ _ _ _ _ _ _ _ _ _ _ _ _ HI (other p))) as HJ.
    destruct (nth_error (wire (other p)) j) as [k|] eqn:EK; destruct (nth_error (sent (other p)) j) as [[[e c] pt]|] eqn:ES; [|destruct HJ|destruct HJ|].
    2:{ exact (IH _ _ _ _ _ HND). }
    assert (STAY := deliver_nothing _ _ _ _ _ _ _ _ _ _ _ _ _ _ _ _ _ HI).
    destruct (deliver_step C L addr priv base signed otk i sid Hi Hsid Him _ _ _ _ _ _ _ _ _ _ _ _ _ HI EK ES) as (o & w' & HR & _ & HO).
    destruct (cdeliver (v p) e c pt) as [[q| |] v'] eqn:ECD.
    + destruct HO as (-> & _ & F & _ & HI'). pose proof (cut_ok C _ _ _ _ _ _ n HR) as HC. destruct n as [|[|n]]; destruct HC as [-> HC].
      * apply XC_nothing. apply (IH E). apply inv_saved; assumption.
      * apply XC_nothing. apply (IH E). apply inv_saved; assumption.
      * apply XC_gone. apply (IH (E ++ F)). eapply inv_swap; [exact HI'|exact HC|]. rewrite upd_same. eapply plain_view. exact ECD.
    + destruct HO as ((er & ->) & _ & HI'). destruct (cut_err C _ _ _ _ _ _ n HR) as [-> HC].
      destruct n as [|[|n]]; apply XC_nothing; apply (IH E); apply inv_saved; assumption.
    + destruct HO as [(q & ->)|((er & ->) & _ & HI')].
      * pose proof (cut_ok C _ _ _ _ _ _ n HR) as HC. destruct n as [|[|n]]; destruct HC as [-> HC].
        -- apply XC_nothing. apply (IH E). apply inv_saved; assumption.
        -- apply XC_nothing. apply (IH E). apply inv_saved; assumption.
        -- apply XC_collision_unseen.
      * destruct (cut_err C _ _ _ _ _ _ n HR) as [-> HC]. destruct n as [|[|n]]; [apply XC_nothing|apply XC_nothing|apply XC_strange]; apply (IH E); apply inv_saved; assumption.
Qed.
End Sim.

(** * At most once *)

Definition xplains (x : list (party * nat * xverdict)) : list (party * nat) :=
  flat_map (fun y => match y with (p, i, Seen (Plain _)) | (p, i, Gone) => [(p, i)] | _ => [] end) x.


Lemma tame_cons : forall y x, tame (y :: x) -> tame x.
Proof. intros y x H p i. destruct (H p i) as [A B]. split; intros HI; [apply A|apply B]; right; exact HI. Qed.

Lemma once_send : forall v sent acc p l, once_inv v sent acc -> (l = sent p \/ exists pt, l = sent p ++ [(pv_epoch (v p), pv_count (v p), pt)]) ->
  once_inv (upd_party v p {| pv_epoch := pv_epoch (v p); pv_count := pv_count (v p) + 1; pv_chains := pv_chains (v p) |}) (upd_party sent p l) acc.
Proof.
  intros v sent acc p l [I1 I2 I3] HL. constructor.
  - intros q. destruct (party_cases p q) as [->| ->]; [rewrite upd_same|rewrite upd_diff; apply I1]. exact (I1 p).
  - intros q e n x. destruct (party_cases p q) as [->| ->]; [rewrite !upd_same|rewrite !upd_diff; apply I2]. cbn [pv_epoch pv_count]. intros HI.
    destruct HL as [->|(pt & ->)]; [apply I2 in HI; lia|]. apply in_app_or in HI.
    destruct HI as [HI|[HI|[]]]; [apply I2 in HI; lia|]. injection HI as <- <- _. right. lia.
  - intros q j HI. destruct (I3 _ _ HI) as (e & n & x & H1 & H2). exists e, n, x. split.
    + destruct (party_cases p (other q)) as [E|E]; rewrite E in *; [rewrite upd_same|rewrite upd_diff; exact H1].
      destruct HL as [->|(pt & ->)]; [exact H1|apply nth_mono; exact H1].
    + destruct (party_cases p q) as [->| ->]; [rewrite upd_same; exact H2|rewrite upd_diff; exact H2].
Qed.

Lemma once_read : forall v sent acc p j e n pt q v', once_inv v sent acc -> nth_error (sent (other p)) j = Some (e, n, pt) ->
  cdeliver (v p) e n pt = (Plain q, v') -> once_inv (upd_party v p v') sent ((p, j) :: acc) /\ ~ In (p, j) acc.
Proof.
  intros v sent acc p j e n pt q v' [I1 I2 I3] EN EC. destruct (cdeliver_plain _ _ _ _ _ _ (I1 p) EC) as (-> & P1 & P2 & P3 & P4). split.
  - constructor.
    + intros r. destruct (party_cases p r) as [->| ->]; [rewrite upd_same; exact P1|rewrite upd_diff; apply I1].
    + intros r e' n' x HI. apply I2 in HI. destruct (party_cases p r) as [->| ->]; [rewrite upd_same|rewrite upd_diff; exact HI].
      destruct (cdeliver_epoch _ _ _ _ _ _ EC) as [[Q1 Q2]|Q]; [rewrite Q1, Q2; exact HI|lia].
    + intros r k [HI|HI]; [injection HI as <- <-; exists e, n, pt; rewrite upd_same; auto|].
      destruct (I3 _ _ HI) as (e' & n' & x & H1 & H2). exists e', n', x. split; [exact H1|].
      destruct (party_cases p r) as [->| ->]; [rewrite upd_same; apply P4; exact H2|rewrite upd_diff; exact H2].
  - intros HI. destruct (I3 _ _ HI) as (e' & n' & x & H1 & H2). rewrite EN in H1. injection H1 as <- <- <-. eapply used_refused; eauto.
Qed.

Lemma once_same : forall v sent acc p v', once_inv v sent acc -> v' = v p -> once_inv (upd_party v p v') sent acc.
Proof.
  intros v sent acc p v' [I1 I2 I3] ->. constructor.
  - intros q. destruct (party_cases p q) as [->| ->]; [rewrite upd_same|rewrite upd_diff]; apply I1.
  - intros q. destruct (party_cases p q) as [->| ->]; [rewrite upd_same|rewrite upd_diff]; apply I2.
  - intros q k HI. destruct (I3 _ _ HI) as (e' & n' & x & H1 & H2). exists e', n', x. split; [exact H1|].
    destruct (party_cases p q) as [->| ->]; [rewrite upd_same|rewrite upd_diff]; exact H2.
Qed.

Lemma once_count : forall v sent acc p, once_inv v sent acc ->
  once_inv (upd_party v p {| pv_epoch := pv_epoch (v p); pv_count := pv_count (v p) + 1; pv_chains := pv_chains (v p) |}) sent acc.
Proof.
  intros v sent acc p H. pose proof (once_send v sent acc p (sent p) H (or_introl eq_refl)) as [I1 I2 I3].
  assert (HU : forall q, upd_party sent p (sent p) q = sent q) by (intros [|]; destruct p; reflexivity). constructor.
  - exact I1.
  - intros q e n x HI. apply (I2 q e n x). rewrite HU. exact HI.
  - intros q j HI. destruct (I3 q j HI) as (e & n & x & A & B). rewrite HU in A. eauto.
Qed.

Lemma xonce : forall evs v sent acc, once_inv v sent acc ->
  NoDup (xplains (xspec v sent evs)) /\ forall p i, In (p, i) acc -> ~ In (p, i) (xplains (xspec v sent evs)).
Proof.
  assert (READ : forall x v sent acc p j e n pt q v', once_inv v sent acc -> nth_error (sent (other p)) j = Some (e, n, pt) ->
    cdeliver (v p) e n pt = (Plain q, v') ->
    (once_inv (upd_party v p v') sent ((p, j) :: acc) -> NoDup (xplains x) /\ forall p0 i, In (p0, i) ((p, j) :: acc) -> ~ In (p0, i) (xplains x)) ->
    NoDup ((p, j) :: xplains x) /\ forall p0 i, In (p0, i) acc -> ~ In (p0, i) ((p, j) :: xplains x)).
  { intros x v sent acc p j e n pt q v' HI EN EC IH. destruct (once_read _ _ _ _ _ _ _ _ _ _ HI EN EC) as [H1 H2]. destruct (IH H1) as [J1 J2]. split.
    - constructor; [apply J2; left; reflexivity|exact J1].
    - intros p0 i0 HA [HE|HE]; [injection HE as <- <-; exact (H2 HA)|exact (J2 p0 i0 (or_intror HA) HE)]. }
  induction evs as [|ev evs IH]; intros v sent acc HI; [split; [constructor|intros p i _ []]|]. destruct ev as [[p pt|p j g]|[p pt|p j g] n]; cbn [xspec].
  - destruct (pv_epoch (v p)) as [|z] eqn:EV; [apply IH; exact HI|]. rewrite <- EV. apply IH. apply once_send; [exact HI|right; eexists; reflexivity].
  - destruct (nth_error (sent (other p)) j) as [[[e c] pt]|] eqn:EN; [|apply IH; exact HI]. destruct (cdeliver (v p) e c pt) as [x v'] eqn:EC. destruct x as [q| |].
    + cbn [xplains flat_map app]. eapply READ; [exact HI|exact EN|exact EC|]. intros H1. exact (IH _ _ _ H1).
    + cbn [xplains flat_map app]. apply IH. apply once_same; [exact HI|]. eapply cdeliver_other; [exact EC|discriminate].
    + cbn [xplains flat_map app]. apply IH. apply once_same; [exact HI|]. eapply cdeliver_other; [exact EC|discriminate].
  - destruct (pv_epoch (v p)) as [|z] eqn:EV; [apply IH; exact HI|]. destruct n as [|[|n]]; [apply IH; exact HI|apply IH; exact HI|]. rewrite <- EV. apply IH. apply once_count. exact HI.
  - destruct (nth_error (sent (other p)) j) as [[[e c] pt]|] eqn:EN; [|apply IH; exact HI]. destruct (cdeliver (v p) e c pt) as [x v'] eqn:EC. destruct x as [q| |].
    + destruct n as [|[|n]]; cbn [xplains flat_map app]; [apply IH; exact HI|apply IH; exact HI|].
      eapply READ; [exact HI|exact EN|exact EC|]. intros H1. exact (IH _ _ _ H1).
    + destruct n as [|[|n]]; cbn [xplains flat_map app]; apply IH; exact HI.
    + destruct n as [|[|n]]; cbn [xplains flat_map app]; apply IH; exact HI.
Qed.

Lemma xonce_start : forall evs, NoDup (xplains (xspec start_view (fun _ => []) evs)).
Proof.
  intros evs. apply (xonce evs _ _ []). constructor.
  - intros [|]; cbn; split; cbn; repeat constructor; auto; intros n [].
  - intros p e n pt [].
  - intros p i [].
Qed.

Lemma xconforms_used : forall o x, xconforms o x -> tame x -> used_up o = xplains x.
Proof.
  intros o x H. induction H; intros HT; [reflexivity| | | | | | | |]; unfold used_up, xplains in *; cbn [flat_map app].
  - f_equal. apply IHxconforms. exact (tame_cons _ _ HT).
  - apply IHxconforms. exact (tame_cons _ _ HT).
  - apply IHxconforms. exact (tame_cons _ _ HT).
  - f_equal. apply IHxconforms. exact (tame_cons _ _ HT).
  - apply IHxconforms. exact (tame_cons _ _ HT).
  - apply IHxconforms. exact (tame_cons _ _ HT).
  - exfalso. apply (proj1 (HT p i)). left. reflexivity.
  - exfalso. apply (proj2 (HT p i)). left. reflexivity.
Qed.

(** * Calls that die early change nothing *)

Definition xreturns (x : list (party * nat * xverdict)) : list (party * nat * option bytes) :=
  flat_map (fun y => match y with (p, i, Seen (Plain pt)) => [(p, i, Some pt)] | (p, i, Seen _) => [(p, i, None)] | _ => [] end) x.

Lemma xconforms_returned : forall o x, xconforms o x -> tame x -> returned o = xreturns x.
Proof.
  intros o x H. induction H; intros HT; [reflexivity| | | | | | | |]; unfold returned, xreturns in *; cbn [flat_map app].
  - f_equal. apply IHxconforms. exact (tame_cons _ _ HT).
  - f_equal. apply IHxconforms. exact (tame_cons _ _ HT).
  - f_equal. apply IHxconforms. exact (tame_cons _ _ HT).
  - apply IHxconforms. exact (tame_cons _ _ HT).
  - apply IHxconforms. exact (tame_cons _ _ HT).
  - apply IHxconforms. exact (tame_cons _ _ HT).
  - exfalso. apply (proj1 (HT p i)). left. reflexivity.
  - exfalso. apply (proj2 (HT p i)). left. reflexivity.
Qed.

Definition is_nothing (y : party * nat * xverdict) : bool := match y with (_, _, Nothing) => true | _ => false end.

Lemma spec_without_early : forall evs v sent,
  xreturns (xspec v sent (without_early evs)) = xreturns (xspec v sent evs) /\
  (forall y, is_nothing y = false -> In y (xspec v sent (without_early evs)) -> In y (xspec v sent evs)).
Proof.
  induction evs as [|ev evs IH]; intros v sent; [split; [reflexivity|auto]|].
  destruct ev as [[p pt|p j g]|[p pt|p j g] n]; unfold without_early in *; cbn [filter early negb].
  - cbn [xspec]. destruct (pv_epoch (v p)); apply IH.
  - cbn [xspec]. destruct (nth_error (sent (other p)) j) as [[[e c] pt]|]; [|apply IH]. destruct (cdeliver (v p) e c pt) as [x v'].
    destruct (IH (upd_party v p v') sent) as [H1 H2]. split.
    + unfold xreturns in *. cbn [flat_map]. rewrite H1. reflexivity.
    + intros y Hy [HI|HI]; [left; exact HI|right; apply H2; assumption].
  - destruct n as [|[|n]]; cbn [Nat.leb negb].
    + cbn [xspec]. destruct (pv_epoch (v p)); apply IH.
    + cbn [xspec]. destruct (pv_epoch (v p)); apply IH.
    + cbn [xspec]. destruct (pv_epoch (v p)); apply IH.
  - destruct n as [|[|n]]; cbn [Nat.leb negb].
    + cbn [xspec]. destruct (nth_error (sent (other p)) j) as [[[e c] pt]|]; [|apply IH]. destruct (IH v sent) as [H1 H2].
      destruct (cdeliver (v p) e c pt) as [[q| |] v']; (split; [exact H1|intros y Hy HI; right; apply H2; assumption]).
    + cbn [xspec]. destruct (nth_error (sent (other p)) j) as [[[e c] pt]|]; [|apply IH]. destruct (IH v sent) as [H1 H2].
      destruct (cdeliver (v p) e c pt) as [[q| |] v']; (split; [exact H1|intros y Hy HI; right; apply H2; assumption]).
    + cbn [xspec]. destruct (nth_error (sent (other p)) j) as [[[e c] pt]|]; [|apply IH].
      destruct (cdeliver (v p) e c pt) as [[q| |] v'].
      * destruct (IH (upd_party v p v') sent) as [H1 H2]. split; [exact H1|intros y Hy [HI|HI]; [left; exact HI|right; apply H2; assumption]].
      * destruct (IH v sent) as [H1 H2]. split; [exact H1|intros y Hy [HI|HI]; [left; exact HI|right; apply H2; assumption]].
      * destruct (IH v sent) as [H1 H2]. split; [exact H1|intros y Hy [HI|HI]; [left; exact HI|right; apply H2; assumption]].
Qed.

Lemma tame_without_early : forall evs v sent, tame (xspec v sent evs) -> tame (xspec v sent (without_early evs)).
Proof.
  intros evs v sent H p i. destruct (H p i) as [A B]. destruct (spec_without_early evs v sent) as [_ HI].
  split; intros X; apply HI in X; try reflexivity; auto.
Qed.

(** * In order, with gaps left by messages that were never sent *)

(** [l]: increasing numbers from [a] up to [b], at most [k] missing. *)
Fixpoint rising (a : N) (l : list N) (b : N) : Prop :=
  match l with
  | [] => (a <= b)%N
  | n :: r => (a <= n)%N /\ rising (n + 1) r b
  end.
Definition gapped (k : nat) (a : N) (l : list N) (b : N) : Prop := rising a l b /\ (b <= a + N.of_nat (length l) + N.of_nat k)%N.

Lemma rising_len : forall l a b, rising a l b -> (a + N.of_nat (length l) <= b)%N.
Proof. induction l as [|n l IH]; intros a b H; cbn [rising length] in *; [lia|]. destruct H as [H1 H2]. apply IH in H2. lia. Qed.
Lemma rising_snoc : forall l a b, rising a l b -> rising a (l ++ [b]) (b + 1).
Proof. induction l as [|n l IH]; intros a b H; cbn [rising app] in *; [lia|]. destruct H as [H1 H2]. auto. Qed.
Lemma rising_up : forall l a b, rising a l b -> rising a l (b + 1).
Proof. induction l as [|n l IH]; intros a b H; cbn [rising] in *; [lia|]. destruct H as [H1 H2]. auto. Qed.
Lemma gapped_head : forall k a n l b, gapped k a (n :: l) b -> (a <= n)%N /\ (n - a <= N.of_nat k)%N /\ gapped k (n + 1) l b.
Proof. intros k a n l b [[H1 H2] H3]. pose proof (rising_len _ _ _ H2). cbn [length] in H3. split; [exact H1|]. split; [lia|]. split; [exact H2|lia]. Qed.
Lemma gapped_snoc : forall k a l b, gapped k a l b -> gapped k a (l ++ [b]) (b + 1).
Proof. intros k a l b [H1 H2]. split; [apply rising_snoc; exact H1|]. rewrite app_length. cbn [length]. lia. Qed.
Lemma gapped_up : forall k a l b, gapped k a l b -> gapped (S k) a l (b + 1).
Proof. intros k a l b [H1 H2]. split; [apply rising_up; exact H1|]. lia. Qed.
Lemma gapped_more : forall k a l b, gapped k a l b -> gapped (S k) a l b.
Proof. intros k a l b [H1 H2]. split; [exact H1|]. lia. Qed.

(** What party [p] has still to receive: the rest of its newest chain, then the other's next epoch. *)
Definition gap_inv (k : nat) (v : party -> pview) (sent : party -> list (nat * N * bytes)) (r : party -> nat) (p : party) : Prop :=
  pview_ok (v p) /\ (length (pv_chains (v p)) <= 5)%nat /\ (r p <= length (sent (other p)))%nat /\
  exists nx l1 l2,
    (pv_epoch (v p) = 0%nat /\ l1 = [] \/ exists c, cfind (pred (pv_epoch (v p))) (pv_chains (v p)) = Some c /\ cv_next c = nx) /\
    map key (skipn (r p) (sent (other p))) = map (pair (pred (pv_epoch (v p)))) l1 ++ map (pair (S (pv_epoch (v p)))) l2 /\
    ((pv_epoch (v (other p)) = S (pv_epoch (v p)) /\ (exists b, gapped k nx l1 b) /\ gapped k 0 l2 (pv_count (v (other p)))) \/
     (S (pv_epoch (v (other p))) = pv_epoch (v p) /\ l2 = [] /\ gapped k nx l1 (pv_count (v (other p))))).

Lemma gap_more : forall k v sent r p, gap_inv k v sent r p -> gap_inv (S k) v sent r p.
Proof.
  intros k v sent r p (P1 & P2 & P3 & nx & l1 & l2 & P4 & P5 & P6). split; [exact P1|]. split; [exact P2|]. split; [exact P3|]. exists nx, l1, l2. split; [exact P4|].
  split; [exact P5|]. destruct P6 as [(Q1 & (b & Q2) & Q3)|(Q1 & Q2 & Q3)]; [left|right].
  - split; [exact Q1|]. split; [exists b|]; apply gapped_more; assumption.
  - split; [exact Q1|]. split; [exact Q2|]. apply gapped_more. exact Q3.
Qed.

(** A party sends, or dies after storing the next chain key. *)
Lemma gap_send : forall k v sent r p pt, (forall q, gap_inv k v sent r q) -> pv_epoch (v p) <> 0%nat ->
  forall q, gap_inv k (upd_party v p {| pv_epoch := pv_epoch (v p); pv_count := pv_count (v p) + 1; pv_chains := pv_chains (v p) |})
    (upd_party sent p (sent p ++ [(pv_epoch (v p), pv_count (v p), pt)])) r q.
Proof.
  intros k v sent r p pt HI EV q. destruct (party_cases p q) as [->| ->].
  - destruct (HI p) as (P1 & P2 & P3 & nx & l1 & l2 & P4 & P5 & P6). unfold gap_inv. rewrite !upd_same, !upd_diff. cbn [pv_epoch pv_chains].
    split; [exact P1|]. split; [exact P2|]. split; [exact P3|]. exists nx, l1, l2. split; [exact P4|]. split; assumption.
  - destruct (HI (other p)) as (P1 & P2 & P3 & nx & l1 & l2 & P4 & P5 & P6). unfold gap_inv.
    assert (Hoo : other (other p) = p) by (destruct p; reflexivity). rewrite Hoo in *. rewrite !upd_same, !upd_diff. cbn [pv_epoch pv_count pv_chains].
    split; [exact P1|]. split; [exact P2|]. split; [rewrite app_length; lia|].
    assert (HSk : skipn (r (other p)) (sent p ++ [(pv_epoch (v p), pv_count (v p), pt)]) = skipn (r (other p)) (sent p) ++ [(pv_epoch (v p), pv_count (v p), pt)]).
    { rewrite skipn_app. replace (r (other p) - length (sent p))%nat with 0%nat by lia. reflexivity. }
    rewrite HSk, map_app, P5. cbn [map key]. destruct P6 as [(Q1 & Q2 & Q3)|(Q1 & Q2 & Q3)].
    + exists nx, l1, (l2 ++ [pv_count (v p)]). split; [exact P4|]. rewrite map_app, <- app_assoc. cbn [map]. rewrite Q1. split; [reflexivity|]. left. split; [reflexivity|].
      split; [exact Q2|]. apply gapped_snoc. exact Q3.
    + exists nx, (l1 ++ [pv_count (v p)]), []. split; [destruct P4 as [[P4 _]|P4]; [exfalso; lia|right; exact P4]|]. subst l2. split; [cbn [map]; rewrite !app_nil_r, map_app; cbn [map]; rewrite <- Q1; reflexivity|].
      right. split; [exact Q1|]. split; [reflexivity|]. apply gapped_snoc. exact Q3.
Qed.

Lemma gap_lost : forall k v sent r p, (forall q, gap_inv k v sent r q) ->
  forall q, gap_inv (S k) (upd_party v p {| pv_epoch := pv_epoch (v p); pv_count := pv_count (v p) + 1; pv_chains := pv_chains (v p) |}) sent r q.
Proof.
  intros k v sent r p HI q. destruct (party_cases p q) as [->| ->].
  - pose proof (gap_more _ _ _ _ _ (HI p)) as (P1 & P2 & P3 & nx & l1 & l2 & P4 & P5 & P6). unfold gap_inv. rewrite !upd_same, !upd_diff. cbn [pv_epoch pv_chains].
    split; [exact P1|]. split; [exact P2|]. split; [exact P3|]. exists nx, l1, l2. split; [exact P4|]. split; assumption.
  - destruct (HI (other p)) as (P1 & P2 & P3 & nx & l1 & l2 & P4 & P5 & P6). unfold gap_inv.
    assert (Hoo : other (other p) = p) by (destruct p; reflexivity). rewrite Hoo in *. rewrite !upd_same, !upd_diff. cbn [pv_epoch pv_count pv_chains].
    split; [exact P1|]. split; [exact P2|]. split; [exact P3|]. exists nx, l1, l2. split; [exact P4|]. split; [exact P5|].
    destruct P6 as [(Q1 & (b & Q2) & Q3)|(Q1 & Q2 & Q3)]; [left|right].
    + split; [exact Q1|]. split; [exists b; apply gapped_more; exact Q2|apply gapped_up; exact Q3].
    + split; [exact Q1|]. split; [exact Q2|]. apply gapped_up. exact Q3.
Qed.

(** The next message is accepted. *)
Lemma gap_read : forall k v sent r p e n pt, (k <= 5000)%nat -> (forall q, gap_inv k v sent r q) -> nth_error (sent (other p)) (r p) = Some (e, n, pt) ->
  exists v', cdeliver (v p) e n pt = (Plain pt, v') /\ forall q, gap_inv k (upd_party v p v') sent (upd_party r p (S (r p))) q.
Proof.
  intros k v sent r p e n pt HK HI EN.
  destruct (HI p) as (P1 & P2 & P3 & nx & l1 & l2 & P4 & P5 & P6). destruct (HI (other p)) as (O1 & O2 & O3 & nx' & l1' & l2' & O4 & O5 & O6).
  assert (Hoo : other (other p) = p) by (destruct p; reflexivity). rewrite Hoo in *.
  assert (HSk : exists rest, skipn (r p) (sent (other p)) = (e, n, pt) :: rest /\ rest = skipn (S (r p)) (sent (other p))).
  { exists (skipn (S (r p)) (sent (other p))). split; [|reflexivity]. clear - EN. revert EN. generalize (sent (other p)). intros l. generalize (r p). intros j. revert l.
    induction j as [|j IH]; intros [|y l] H; cbn in H |- *; try discriminate; [injection H as ->; reflexivity|]. apply IH. exact H. }
  destruct HSk as (rest & HSk & HRest).
  assert (HLen : (S (r p) <= length (sent (other p)))%nat) by (apply nth_error_Some; rewrite EN; discriminate).
  rewrite HSk in P5. cbn [map key] in P5. destruct l1 as [|n1 l1].
  - cbn [map app] in P5. destruct l2 as [|n2 l2]; [discriminate P5|]. cbn [map] in P5. injection P5 as -> -> P5.
    destruct P6 as [(Q1 & Q2 & Q3)|(_ & D & _)]; [|discriminate D].
    destruct (gapped_head _ _ _ _ _ Q3) as (G1 & G2 & G3).
    destruct P1 as [P1 P1']. rewrite Forall_forall in P1'.
    destruct (cfind (S (pv_epoch (v p))) (pv_chains (v p))) as [c|] eqn:EF.
    { exfalso. apply cfind_in in EF. destruct EF as [EF1 EF2]. apply P1' in EF1. destruct EF1 as [EF1 _]. lia. }
    assert (HAcc : exists c1, caccept {| cv_epoch := S (pv_epoch (v p)); cv_next := 0; cv_kept := [] |} n2 = Some c1 /\ cv_next c1 = (n2 + 1)%N /\ cv_epoch c1 = S (pv_epoch (v p))).
    { unfold caccept. cbn [cv_next cv_kept cv_epoch]. replace (n2 <? 0)%N with false by lia. replace (5000 <? n2 - 0)%N with false by lia.
      eexists. split; [reflexivity|]. split; reflexivity. }
    destruct HAcc as (c1 & HAcc & HNx & HEp).
    assert (HPl : cdeliver (v p) (S (pv_epoch (v p))) n2 pt = (Plain pt, {| pv_epoch := S (S (pv_epoch (v p))); pv_count := 0; pv_chains := last_n 5 (pv_chains (v p) ++ [c1]) |})).
    { unfold cdeliver. rewrite EF, Nat.eqb_refl, HAcc. reflexivity. }
    eexists. split; [exact HPl|].
    assert (HPV : pview_ok (v p)) by (split; [exact P1|apply Forall_forall; exact P1']).
    destruct (cdeliver_plain _ _ _ _ _ _ HPV HPl) as (_ & HV' & _).
    intros q'. destruct (party_cases p q') as [->| ->].
    + unfold gap_inv. rewrite !upd_same, !upd_diff. cbn [pv_epoch pv_count pv_chains pred]. split; [exact HV'|].
      split; [eapply Nat.le_trans; [apply last_n_length|]; lia|]. split; [exact HLen|]. exists (n2 + 1)%N, l2, []. split; [|split].
      * right. exists c1. split; [|exact HNx].
        assert (HIn : In c1 (last_n 5 (pv_chains (v p) ++ [c1]))).
        { rewrite last_n_five by exact P2. destruct (Nat.ltb_spec 5 (length (pv_chains (v p) ++ [c1]))) as [B|B]; [|apply in_or_app; right; left; reflexivity].
          destruct (pv_chains (v p)) as [|y l]; [cbn in B; lia|]. cbn [app tl]. apply in_or_app. right. left. reflexivity. }
        destruct (cfind (S (pv_epoch (v p))) (last_n 5 (pv_chains (v p) ++ [c1]))) as [d|] eqn:EF2.
        -- apply cfind_in in EF2. destruct EF2 as [F1 F2]. apply last_n_in' in F1. apply in_app_or in F1. destruct F1 as [F1|[F1|[]]]; [|congruence].
           exfalso. apply P1' in F1. destruct F1 as [F1 _]. lia.
        -- exfalso. apply (cfind_none_epochs _ _ EF2). apply in_map_iff. exists c1. split; [exact HEp|exact HIn].
      * rewrite <- HRest, P5. cbn [map]. rewrite app_nil_r. reflexivity.
      * right. split; [rewrite Q1; reflexivity|]. split; [reflexivity|exact G3].
    + unfold gap_inv. rewrite Hoo, !upd_same, !upd_diff. cbn [pv_epoch pv_count pv_chains]. split; [exact O1|]. split; [exact O2|]. split; [exact O3|].
      exists nx', l1', []. split; [exact O4|]. destruct O6 as [(Q4 & _)|(Q4 & -> & Q5)]; [lia|]. split; [exact O5|]. left. split; [rewrite Q1; reflexivity|].
      split; [exists (pv_count (v p)); exact Q5|]. split; cbn; lia.
  - cbn [map app] in P5. injection P5 as -> -> P5. destruct P4 as [[_ D]|(c & F1 & F3)]; [discriminate D|].
    assert (HG : exists b, gapped k nx (n1 :: l1) b) by (destruct P6 as [(_ & Q & _)|(_ & _ & Q)]; eauto).
    destruct HG as (b & HG). destruct (gapped_head _ _ _ _ _ HG) as (G1 & G2 & _).
    assert (HAcc : exists c1, caccept c n1 = Some c1 /\ cv_next c1 = (n1 + 1)%N /\ cv_epoch c1 = cv_epoch c).
    { unfold caccept. rewrite F3. replace (n1 <? nx)%N with false by lia. replace (5000 <? n1 - nx)%N with false by lia.
      eexists. split; [reflexivity|]. split; reflexivity. }
    destruct HAcc as (c1 & HAcc & HNx & HEp). destruct (cfind_in _ _ _ F1) as [H1 H2].
    assert (HPl : cdeliver (v p) (pred (pv_epoch (v p))) n1 pt = (Plain pt, {| pv_epoch := pv_epoch (v p); pv_count := pv_count (v p); pv_chains := creplace c1 (pv_chains (v p)) |})).
    { unfold cdeliver. rewrite F1, HAcc. reflexivity. }
    eexists. split; [exact HPl|]. destruct (cdeliver_plain _ _ _ _ _ _ P1 HPl) as (_ & HV' & _).
    intros q'. destruct (party_cases p q') as [->| ->].
    + unfold gap_inv. rewrite !upd_same, !upd_diff. cbn [pv_epoch pv_count pv_chains]. split; [exact HV'|].
      split; [unfold creplace; rewrite map_length; exact P2|]. split; [exact HLen|]. exists (n1 + 1)%N, l1, l2. split; [|split].
      * right. exists c1. split; [|exact HNx].
        assert (HE1 : cv_epoch c1 = pred (pv_epoch (v p))) by congruence.
        revert F1. clear - HE1. generalize (pv_chains (v p)). revert HE1. generalize (pred (pv_epoch (v p))). intros j HE1 l. unfold cfind, creplace.
        induction l as [|y l IH]; intros H; [discriminate|]. cbn [find map] in *. rewrite HE1 in *. destruct (Nat.eqb_spec (cv_epoch y) j) as [E|E].
        -- rewrite HE1, Nat.eqb_refl. reflexivity.
        -- destruct (Nat.eqb_spec (cv_epoch y) j); [contradiction|]. apply IH. exact H.
      * rewrite <- HRest. exact P5.
      * destruct P6 as [(Q1 & (b' & Q2) & Q3)|(Q1 & Q2 & Q3)]; [left|right].
        -- split; [exact Q1|]. split; [exists b'; apply (gapped_head _ _ _ _ _ Q2)|exact Q3].
        -- split; [exact Q1|]. split; [exact Q2|]. apply (gapped_head _ _ _ _ _ Q3).
    + unfold gap_inv. rewrite Hoo, !upd_same, !upd_diff. cbn [pv_epoch pv_count pv_chains]. split; [exact O1|]. split; [exact O2|]. split; [exact O3|].
      exists nx', l1', l2'. split; [exact O4|]. split; assumption.
Qed.

Definition reads (y : party * nat * xverdict) : Prop := match snd y with Seen (Plain _) => True | Gone => True | _ => False end.

Lemma gap_fifo : forall evs k v sent r, forallb (fun x => negb (early x)) evs = true -> (k + lost_sends evs <= 5000)%nat -> (forall p, gap_inv k v sent r p) ->
  (forall p, delivered p (xspec v sent evs) = seq (r p) (length (delivered p (xspec v sent evs)))) ->
  Forall reads (xspec v sent evs).
Proof.
  induction evs as [|ev evs IH]; intros k v sent r HE HK HI HD; [constructor|]. cbn [forallb] in HE. apply andb_true_iff in HE. destruct HE as [HE0 HE].
  assert (STEP : forall p j y (x : list (party * nat * xverdict)) (z : xverdict), delivered y ((p, j, z) :: x) = (if party_eqb y p then [j] else []) ++ delivered y x) by reflexivity.
  destruct ev as [[p pt|p j g]|[p pt|p j g] n]; cbn [xspec] in *.
  - destruct (pv_epoch (v p)) as [|z] eqn:EV; [apply (IH k v sent r); auto|]. rewrite <- EV in *. apply (IH k _ _ r); [exact HE|exact HK| |exact HD].
    apply gap_send; [exact HI|]. intros D. rewrite D in EV. discriminate EV.
  - destruct (nth_error (sent (other p)) j) as [[[e c] pt]|] eqn:EN; [|apply (IH k v sent r); auto].
    destruct (cdeliver (v p) e c pt) as [x v'] eqn:EC.
    assert (Hj : j = r p).
    { specialize (HD p). rewrite STEP in HD. replace (party_eqb p p) with true in HD by (destruct p; reflexivity).
      cbn [app length seq] in HD. injection HD as HD _. exact HD. }
    subst j. destruct (gap_read k v sent r p e c pt ltac:(lia) HI EN) as (v1 & EC1 & HNext). rewrite EC1 in EC. injection EC as <- <-.
    constructor; [exact I|]. apply (IH k _ _ (upd_party r p (S (r p)))); [exact HE|exact HK|exact HNext|].
    intros q'. specialize (HD q'). rewrite STEP in HD. destruct (party_cases p q') as [->| ->].
    + rewrite upd_same. replace (party_eqb p p) with true in HD by (destruct p; reflexivity). cbn [app length seq] in HD. injection HD as HD. exact HD.
    + rewrite upd_diff. replace (party_eqb (other p) p) with false in HD by (destruct p; reflexivity). cbn [app] in HD. exact HD.
  - destruct n as [|[|n]]; [discriminate HE0|discriminate HE0|]. change (lost_sends (Cut (Send p pt) (S (S n)) :: evs)) with (S (lost_sends evs)) in HK.
    destruct (pv_epoch (v p)) as [|z] eqn:EV; [apply (IH k v sent r); auto; lia|]. rewrite <- EV in *. apply (IH (S k) _ _ r); [exact HE|lia| |exact HD].
    apply gap_lost. exact HI.
  - destruct n as [|[|n]]; [discriminate HE0|discriminate HE0|]. change (lost_sends (Cut (Deliver p j g) (S (S n)) :: evs)) with (lost_sends evs) in HK.
    destruct (nth_error (sent (other p)) j) as [[[e c] pt]|] eqn:EN; [|apply (IH k v sent r); auto].
    assert (Hj : j = r p).
    { specialize (HD p). destruct (cdeliver (v p) e c pt) as [[q| |] v']; rewrite STEP in HD; replace (party_eqb p p) with true in HD by (destruct p; reflexivity);
      cbn [app length seq] in HD; injection HD as HD _; exact HD. }
    subst j. destruct (gap_read k v sent r p e c pt ltac:(lia) HI EN) as (v1 & EC1 & HNext). rewrite EC1 in HD |- *.
    constructor; [exact I|]. apply (IH k _ _ (upd_party r p (S (r p)))); [exact HE|exact HK|exact HNext|].
    intros q'. specialize (HD q'). rewrite STEP in HD. destruct (party_cases p q') as [->| ->].
    + rewrite upd_same. replace (party_eqb p p) with true in HD by (destruct p; reflexivity). cbn [app length seq] in HD. injection HD as HD. exact HD.
    + rewrite upd_diff. replace (party_eqb (other p) p) with false in HD by (destruct p; reflexivity). cbn [app] in HD. exact HD.
Qed.

Lemma gap_start : forall evs, forallb (fun x => negb (early x)) evs = true -> (lost_sends evs <= 5000)%nat ->
  (forall p, delivered p (xspec start_view (fun _ => []) evs) = seq 0 (length (delivered p (xspec start_view (fun _ => []) evs)))) ->
  Forall reads (xspec start_view (fun _ => []) evs).
Proof.
  intros evs HE HK H. apply (gap_fifo evs 0 _ _ (fun _ => 0%nat)); [exact HE|exact HK| |exact H]. intros p.
  assert (HV : pview_ok (start_view p)) by (destruct p; cbn; split; cbn; repeat constructor; auto; intros n []).
  split; [exact HV|]. split; [destruct p; cbn; lia|]. split; [cbn; lia|]. exists 0%N, [], []. destruct p; cbn; (split; [|split; [reflexivity|]]).
  - right. eexists. split; reflexivity.
  - right. split; [reflexivity|]. split; [reflexivity|]. split; cbn; lia.
  - left. auto.
  - left. split; [reflexivity|]. split; [exists 0%N|]; split; cbn; lia.
Qed.

(** * The schedule without the early deaths is fair too *)

Lemma nodup_keep : forall (A : Type) (l m k : list A), (forall x, In x k -> In x m) -> NoDup k -> NoDup (l ++ m) -> NoDup (l ++ k).
Proof.
  induction l as [|x l IH]; intros m k HS HK H; [exact HK|]. cbn [app] in *. inversion H; subst. constructor; [|eapply IH; eauto].
  intros HI. apply H2. apply in_app_or in HI. apply in_or_app. destruct HI as [HI|HI]; auto.
Qed.

Lemma nodup_app_split : forall (A : Type) (l m : list A), NoDup (l ++ m) -> NoDup l /\ NoDup m /\ True.
Proof.
  induction l as [|x l IH]; intros m H; [split; [constructor|]; auto|]. cbn [app] in H. inversion H; subst. destruct (IH _ H3) as (A1 & A2 & _).
  split; [|auto]. constructor; [|exact A1]. intros HI. apply H2. apply in_or_app. left. exact HI.
Qed.

Lemma rngs_keep : forall (B : Type) (f : rng -> B) evs,
  (forall x, In x (delivery_rngs (map event_of (without_early evs))) -> In x (delivery_rngs (map event_of evs))) /\
  (NoDup (map f (delivery_rngs (map event_of evs))) -> NoDup (map f (delivery_rngs (map event_of (without_early evs))))).
Proof.
  intros B f evs. induction evs as [|x evs [IH1 IH2]]; [split; auto|]. unfold without_early in *. cbn [filter]. destruct (negb (early x)).
  - cbn [map]. unfold delivery_rngs in *. cbn [flat_map]. split.
    + intros y HI. apply in_app_or in HI. apply in_or_app. destruct HI as [HI|HI]; auto.
    + rewrite !map_app. intros H. eapply nodup_keep; [|apply IH2|exact H].
      * intros y HI. apply in_map_iff in HI. destruct HI as (z & <- & HI). apply in_map. apply IH1. exact HI.
      * apply (proj1 (proj2 (nodup_app_split _ _ _ H))).
  - cbn [map]. unfold delivery_rngs in *. cbn [flat_map]. split.
    + intros y HI. apply in_or_app. right. apply IH1. exact HI.
    + rewrite map_app. intros H. apply IH2. apply (proj1 (proj2 (nodup_app_split _ _ _ H))).
Qed.

Lemma texts_keep : forall evs,
  (forall x, In x (plaintexts (map event_of (without_early evs))) -> In x (plaintexts (map event_of evs))) /\
  (length (plaintexts (map event_of (without_early evs))) <= length (plaintexts (map event_of evs)))%nat.
Proof.
  intros evs. induction evs as [|x evs [IH1 IH2]]; [split; auto|]. unfold without_early in *. cbn [filter]. destruct (negb (early x)).
  - cbn [map]. unfold plaintexts in *. cbn [flat_map]. split.
    + intros y HI. apply in_app_or in HI. apply in_or_app. destruct HI as [HI|HI]; auto.
    + rewrite !app_length. lia.
  - cbn [map]. unfold plaintexts in *. cbn [flat_map]. split.
    + intros y HI. apply in_or_app. right. apply IH1. exact HI.
    + rewrite app_length. lia.
Qed.

Lemma fair_without_early : forall C signed ratchet evs, fair C signed ratchet (map event_of evs) -> fair C signed ratchet (map event_of (without_early evs)).
Proof.
  intros C signed ratchet evs (F1 & F2 & F3 & F4). destruct (texts_keep evs) as [T1 T2]. destruct (rngs_keep _ (new_pub C) evs) as [R1 R2]. split; [|split; [|split]].
  - change (NoDup ([Some (x_base C signed); Some (kp_pub ratchet)] ++ map (new_pub C) (delivery_rngs (map event_of (without_early evs))))).
    change (NoDup ([Some (x_base C signed); Some (kp_pub ratchet)] ++ map (new_pub C) (delivery_rngs (map event_of evs)))) in F1.
    eapply nodup_keep; [|apply R2; exact (proj1 (proj2 (nodup_app_split _ _ _ F1)))|exact F1].
    intros y HI. apply in_map_iff in HI. destruct HI as (z & <- & HI). apply in_map. apply R1. exact HI.
  - intros g HI. apply F2. apply R1. exact HI.
  - lia.
  - intros pt HI. apply F4. apply T1. exact HI.
Qed.

(** * From the first message on *)

Section Start.
Context (C : crypto) (L : crypto_laws C).

Lemma cut_bundle : forall a b g w w' g' n, w_process_bundle C a b g w = (Ok tt, w', g') -> (1 <= n)%nat ->
  same_but_prekeys w' (cut_call C a (DoBundle b g) n w).
Proof.
  intros a b g w w' g' n H Hn. unfold cut_call, first_writes, w_process_bundle in *. cbn [run_call].
  destruct (process_bundle C (view_of w a) b g) as [[[o r] es] g2] eqn:EP.
  assert (HE : o = Ok tt -> exists r2 id, es = [StoreSession r2; SaveIdentity id]).
  { intros ->. unfold process_bundle in EP. destruct (negb _); [discriminate EP|]. destruct (b_signed b); [|discriminate EP]. destruct (negb _); [discriminate EP|].
    destruct (generate_key_pair C g) as [[p|e|] g1]; try discriminate EP. destruct (calculate_sender_session _ _) as [d|e|]; try discriminate EP.
    destruct (generate_key_pair C g1) as [[q|e|] g3]; try discriminate EP. destruct (create_chain _ _ _ _) as [c|e|]; try discriminate EP.
    apply (f_equal (fun z => snd (fst z))) in EP. cbn [fst snd] in EP. subst es. eexists _, _. reflexivity. }
  destruct (commit a es w) as [w1 ok] eqn:EC. assert (HO : o = Ok tt) by (destruct ok, o as [[]|e|]; cbn in H; congruence).
  destruct (HE HO) as (r2 & id & ->). assert (HW1 : w1 = w') by exact (f_equal (fun z => snd (fst z)) H).
  assert (HW : fst (commit a [StoreSession r2; SaveIdentity id] w) = w1) by exact (f_equal fst EC). rewrite HW1 in HW. rewrite <- HW. cbn [snd]. clear -Hn.
  destruct n as [|[|n]]; [lia| |]; cbn; destruct (persist r2); repeat split; rewrite ?firstn_nil; reflexivity.
Qed.

Lemma inv_first : forall addr priv base signed otk i sid E sent wa1 wa2 wb wire evs,
  ginv C addr priv base signed otk i sid E start_view sent (both wa1 wb) wire evs -> same_but_prekeys wa1 wa2 ->
  ginv C addr priv base signed otk i sid E start_view sent (both wa2 wb) wire evs.
Proof.
  intros addr priv base signed otk i sid E sent wa1 wa2 wb wire evs [I1 I2 I3 I4 I13 I5 I6 I7 I8 I9 I10 I11 I12] (S1 & S2 & S3). constructor; auto.
  intros q. specialize (I7 q). destruct q; cbn [both] in *; [|exact I7].
  destruct I7 as [HT HP]. split; [unfold trusting in *; rewrite S3; exact HT|]. cbn [start_view pv_epoch] in *. unfold session_rel in *. rewrite S1. exact HP.
Qed.

Lemma any_cut_schedule : forall addr wa wb b i sid signed otk g g1 g2 eph ratchet wa1 g' wa2 evs,
  strangers C addr wa wb b i sid signed otk -> generate_key_pair C g = (Ok eph, g1) -> generate_key_pair C g1 = (Ok ratchet, g2) ->
  w_process_bundle C (addr Bob) b g wa = (Ok tt, wa1, g') -> same_but_prekeys wa1 wa2 -> fair C signed ratchet (map event_of evs) ->
  xconforms (xrun C addr (both wa2 wb) (fun _ => []) evs) (xspec start_view (fun _ => []) evs).
Proof.
  intros addr wa wb b i sid signed otk g g1 g2 eph ratchet wa1 g' wa2 evs H HG1 HG2 HP HS HF.
  destruct (start_of_strangers C L _ _ _ _ _ _ _ _ _ _ _ _ _ _ _ _ H HG1 HG2 HP HF) as (E & k1 & k2 & _ & _ & _ & HI). destruct H.
  eapply (cut_simulation C L); [exact st_i|exact st_sid|exact st_i_max|eapply inv_first; [exact HI|exact HS]].
Qed.
End Start.

(** * In order, early deaths included *)

Lemma spec_with_early : forall evs v sent y, is_nothing y = false -> In y (xspec v sent evs) -> In y (xspec v sent (without_early evs)).
Proof.
  induction evs as [|ev evs IH]; intros v sent y Hy HI; [exact HI|].
  destruct ev as [[p pt|p j g]|[p pt|p j g] n]; unfold without_early in *; cbn [filter early negb].
  - cbn [xspec] in *. destruct (pv_epoch (v p)); apply IH; assumption.
  - cbn [xspec] in *. destruct (nth_error (sent (other p)) j) as [[[e c] pt]|]; [|apply IH; assumption]. destruct (cdeliver (v p) e c pt) as [x v'].
    destruct HI as [HI|HI]; [left; exact HI|right; apply IH; assumption].
  - destruct n as [|[|n]]; cbn [Nat.leb negb]; cbn [xspec] in *; destruct (pv_epoch (v p)); apply IH; assumption.
  - destruct n as [|[|n]]; cbn [Nat.leb negb]; cbn [xspec] in *; (destruct (nth_error (sent (other p)) j) as [[[e c] pt]|]; [|apply IH; assumption]).
    + destruct (cdeliver (v p) e c pt) as [[q| |] v']; (destruct HI as [HI|HI]; [subst y; discriminate Hy|apply IH; assumption]).
    + destruct (cdeliver (v p) e c pt) as [[q| |] v']; (destruct HI as [HI|HI]; [subst y; discriminate Hy|apply IH; assumption]).
    + destruct (cdeliver (v p) e c pt) as [[q| |] v']; (destruct HI as [HI|HI]; [left; exact HI|right; apply IH; assumption]).
Qed.

Lemma xconforms_seen : forall o x, xconforms o x -> (forall y, In y x -> is_nothing y = false -> reads y) ->
  map seen o = x /\ Forall (fun y => match snd y with Returned o => exists pt, o = Ok pt | Died _ => True end) o.
Proof.
  intros o x H. induction H; intros HR; cbn [map].
  - split; [reflexivity|constructor].
  - destruct IHxconforms as [A B]; [intros y HI; apply HR; right; exact HI|]. rewrite A. split; [reflexivity|]. constructor; [exists pt; reflexivity|exact B].
  - exfalso. exact (HR _ (or_introl eq_refl) eq_refl).
  - exfalso. exact (HR _ (or_introl eq_refl) eq_refl).
  - destruct IHxconforms as [A B]; [intros y HI; apply HR; right; exact HI|]. rewrite A. split; [reflexivity|]. constructor; [exact I|exact B].
  - destruct IHxconforms as [A B]; [intros y HI; apply HR; right; exact HI|]. rewrite A. split; [reflexivity|]. constructor; [exact I|exact B].
  - exfalso. exact (HR _ (or_introl eq_refl) eq_refl).
  - exfalso. exact (HR _ (or_introl eq_refl) eq_refl).
  - exfalso. exact (HR _ (or_introl eq_refl) eq_refl).
Qed.

Lemma lost_without_early : forall evs, lost_sends (without_early evs) = lost_sends evs.
Proof.
  induction evs as [|[[p pt|p j g]|[p pt|p j g] n] evs IH]; [reflexivity| | | |]; unfold lost_sends, without_early in *; cbn [filter early negb].
  - exact IH.
  - exact IH.
  - destruct n as [|[|n]]; cbn [Nat.leb negb filter length]; [exact IH|exact IH|f_equal; exact IH].
  - destruct n as [|[|n]]; cbn [Nat.leb negb filter length]; exact IH.
Qed.

Lemma in_order_reads : forall evs, (lost_sends evs <= 5000)%nat ->
  (forall p, delivered p (xspec start_view (fun _ => []) (without_early evs)) = seq 0 (length (delivered p (xspec start_view (fun _ => []) (without_early evs))))) ->
  forall y, In y (xspec start_view (fun _ => []) evs) -> is_nothing y = false -> reads y.
Proof.
  intros evs HL HD y HI HN. assert (HF : Forall reads (xspec start_view (fun _ => []) (without_early evs))).
  { apply gap_start; [|rewrite lost_without_early; exact HL|exact HD]. unfold without_early. clear. induction evs as [|x evs IH]; [reflexivity|].
    cbn [filter]. destruct (negb (early x)) eqn:E; [cbn [forallb]; rewrite E; exact IH|exact IH]. }
  rewrite Forall_forall in HF. apply HF. apply spec_with_early; assumption.
Qed.
