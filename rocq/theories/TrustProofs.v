(** TrustProofs.v: conversations under trust on first use (C85). *)
From Verif Require Import Base Labels Crypto Bytehelper Ecc Cbc Wire Itoa Keys X3dh Messages SessionState SessionRecord
  SessionBuilder SessionCipher Address World CryptoProofs SessionProofs SerialProofs SessionSpec
  OpsProofs OpsProofs3 GroupSpec GroupProofs ConvSpec ConvProofs ConvProofs2 ConvProofs3 ThreadSpec CutSpec CutProofs AttackSpec AttackProofs ManySpec ManyProofs TrustSpec.
From Coq Require Import Lia ZifyBool ZifyN ZifyNat.

(** * The same call with another policy *)

Lemma commit_credulous : forall a es w, commit a es (credulous w) = (credulous (fst (commit a es w)), snd (commit a es w)).
Proof.
  intros a es. induction es as [|e es IH]; intros w; [reflexivity|]. cbn [commit]. destruct e as [r|k|i]; cbn [apply_effect].
  - destruct (persist r) as [r'|e|]; [|reflexivity|reflexivity]. match goal with |- _ = (credulous (fst (commit a es ?w1)), _) => exact (IH w1) end.
  - match goal with |- _ = (credulous (fst (commit a es ?w1)), _) => exact (IH w1) end.
  - match goal with |- _ = (credulous (fst (commit a es ?w1)), _) => exact (IH w1) end.
Qed.

Section Same.
Context (C : crypto).

(** The trust check a packet meets. *)
Definition passes (a : address) (k : packet) (w : world) : Prop :=
  match k with PSignal _ => True | PPreKey b => forall m, pk_from_bytes b = Ok m -> w_policy w (w_saved w) a (pm_identity m) = true end.

Lemma run_call_credulous : forall a k g w, passes a k w -> run_call C (view_of (credulous w) a) (DoReceive k g) = run_call C (view_of w a) (DoReceive k g).
Proof.
  intros a k g w H. unfold run_call. destruct k as [b|b]; [reflexivity|]. cbn [passes] in H. destruct (pk_from_bytes b) as [m|e|]; [|reflexivity|reflexivity].
  unfold decrypt_message, process. specialize (H m eq_refl). change (v_trusted (view_of w a) (pm_identity m)) with (w_policy w (w_saved w) a (pm_identity m)). rewrite H. reflexivity.
Qed.

Lemma receive_call : forall a k g w, receive C a k g w =
  ((let '(o, es) := run_call C (view_of w a) (DoReceive k g) in match (if snd (commit a es w) then o else Panic) with Ok (APlain q) => Ok q | Ok _ => Panic | Err e => Err e | Panic => Panic end),
   fst (commit a (snd (run_call C (view_of w a) (DoReceive k g))) w)).
Proof.
  intros a k g w. unfold receive, run_call. destruct k as [b|b].
  - destruct (sig_from_bytes b) as [m|e|]; [|reflexivity|reflexivity]. unfold w_decrypt. destruct (decrypt_and_get_key C (view_of w a) m g) as [[[o r] es] g1]. cbn [snd].
    destruct (commit a es w) as [w' ok]. cbn [fst snd]. destruct ok, o as [[x y]|e|]; reflexivity.
  - destruct (pk_from_bytes b) as [m|e|]; [|reflexivity|reflexivity]. unfold w_decrypt_message. destruct (decrypt_message C (view_of w a) m g) as [[[o r] es] g1]. cbn [snd].
    destruct (commit a es w) as [w' ok]. cbn [fst snd]. destruct ok, o as [[x y]|e|]; reflexivity.
Qed.

Lemma receive_credulous : forall a k g w o e', passes a k w -> receive C a k g (credulous w) = (o, e') -> exists w', receive C a k g w = (o, w') /\ e' = credulous w'.
Proof.
  intros a k g w o e' HP H. rewrite receive_call in H. rewrite run_call_credulous in H by exact HP. rewrite receive_call.
  destruct (run_call C (view_of w a) (DoReceive k g)) as [x es]. cbn [snd] in *. rewrite commit_credulous in H. cbn [fst snd] in H.
  eexists. split; [|symmetry; exact (f_equal snd H)]. f_equal. exact (f_equal fst H).
Qed.

Lemma encrypt_credulous : forall a pt w o e', w_encrypt C a pt (credulous w) = (o, e') -> exists w', w_encrypt C a pt w = (o, w') /\ e' = credulous w'.
Proof.
  intros a pt w o e' H. unfold w_encrypt in *. change (encrypt C (view_of (credulous w) a) pt) with (encrypt C (view_of w a) pt) in H.
  destruct (encrypt C (view_of w a) pt) as [[x r] es]. rewrite commit_credulous in H. destruct (commit a es w) as [w' ok]. cbn [fst snd] in H.
  exists w'. split; [f_equal; exact (f_equal fst H)|symmetry; exact (f_equal snd H)].
Qed.

Lemma bundle_credulous : forall a b g w o e' g', w_policy w (w_saved w) a (b_identity b) = true -> w_process_bundle C a b g (credulous w) = (o, e', g') ->
  exists w', w_process_bundle C a b g w = (o, w', g') /\ e' = credulous w'.
Proof.
  intros a b g w o e' g' HP H. unfold w_process_bundle in *.
  assert (E : process_bundle C (view_of (credulous w) a) b g = process_bundle C (view_of w a) b g).
  { unfold process_bundle. change (v_trusted (view_of w a) (b_identity b)) with (w_policy w (w_saved w) a (b_identity b)). rewrite HP. reflexivity. }
  rewrite E in H. destruct (process_bundle C (view_of w a) b g) as [[[x r] es] g1]. rewrite commit_credulous in H. destruct (commit a es w) as [w' ok]. cbn [fst snd] in H.
  exists w'. assert (H1 : seal ok x = o) by exact (f_equal (fun z => fst (fst z)) H). assert (H2 : credulous w' = e') by exact (f_equal (fun z => snd (fst z)) H).
  assert (H3 : g1 = g') by exact (f_equal snd H). rewrite H1, H2, H3. split; [|reflexivity]. reflexivity.
Qed.

Lemma bundle_uncredulous : forall a b g w w' g', w_process_bundle C a b g w = (Ok tt, w', g') -> w_process_bundle C a b g (credulous w) = (Ok tt, credulous w', g').
Proof.
  intros a b g w w' g' H. unfold w_process_bundle in *.
  assert (E : process_bundle C (view_of (credulous w) a) b g = process_bundle C (view_of w a) b g).
  { unfold process_bundle in *. change (v_trusted (view_of (credulous w) a) (b_identity b)) with true. cbn [negb].
    destruct (v_trusted (view_of w a) (b_identity b)); [reflexivity|]. cbn [negb commit seal] in H. discriminate H. }
  rewrite E. destruct (process_bundle C (view_of w a) b g) as [[[x r] es] g1]. rewrite commit_credulous. destruct (commit a es w) as [w1 ok]. cbn [fst snd].
  assert (H1 : seal ok x = Ok tt) by exact (f_equal (fun z => fst (fst z)) H). assert (H2 : w1 = w') by exact (f_equal (fun z => snd (fst z)) H).
  assert (H3 : g1 = g') by exact (f_equal snd H). rewrite H1, H2, H3. reflexivity.
Qed.

(** * Which identity keys are saved *)

Lemma commit_saved : forall a es w, w_saved (fst (commit a es w)) a = w_saved w a \/ exists id, In (SaveIdentity id) es /\ w_saved (fst (commit a es w)) a = Some id.
Proof.
  intros a es. induction es as [|e es IH]; intros w; [left; reflexivity|]. cbn [commit]. destruct e as [r|k|i]; cbn [apply_effect].
  - destruct (persist r) as [r'|e|]; [|left; reflexivity|left; reflexivity].
    match goal with |- context [commit a es ?w1] => destruct (IH w1) as [->|(id & H1 & ->)] end; [left; reflexivity|right; exists id; split; [right; exact H1|reflexivity]].
  - match goal with |- context [commit a es ?w1] => destruct (IH w1) as [->|(id & H1 & ->)] end.
    + right. exists k. split; [left; reflexivity|]. cbn [w_saved]. apply upd_addr_here.
    + right. exists id. split; [right; exact H1|reflexivity].
  - match goal with |- context [commit a es ?w1] => destruct (IH w1) as [->|(id & H1 & ->)] end; [left; reflexivity|right; exists id; split; [right; exact H1|reflexivity]].
Qed.

Lemma firstn_in : forall A n (l : list A) x, In x (firstn n l) -> In x l.
Proof. intros A n l x H. rewrite <- (firstn_skipn n l). apply in_or_app. left. exact H. Qed.

Lemma prekey_saves : forall (v : view) b g id, In (SaveIdentity id) (snd (run_call C v (DoReceive (PPreKey b) g))) ->
  exists m, pk_from_bytes b = Ok m /\ id = pm_identity m /\ v_trusted v id = true.
Proof.
  intros v b g id H. unfold run_call in H. destruct (pk_from_bytes b) as [m|e|]; [|destruct H|destruct H]. exists m. split; [reflexivity|].
  destruct (decrypt_message C v m g) as [[[o r] es] g1] eqn:E. cbn [snd] in H. unfold decrypt_message in E.
  destruct (process C v (v_load v) m) as [[op rp] ef] eqn:EP.
  assert (HEF : forall x, In x ef -> x = SaveIdentity (pm_identity m) /\ v_trusted v (pm_identity m) = true).
  { unfold process in EP. destruct (v_trusted v (pm_identity m)); cbn [negb] in EP; [|injection EP as _ _ <-; intros x []].
    destruct (process_v3 C v (v_load v) m) as [[i|e|] r']; injection EP as _ _ <-; [intros x [<-|[]]; split; reflexivity|intros x []|intros x []]. }
  assert (HES : es = ef \/ exists x rest, es = ef ++ StoreSession x :: rest /\ forall y, In y rest -> forall j, y <> SaveIdentity j).
  { destruct op as [oid|e|]; [|left; injection E as _ _ <- _; reflexivity|left; injection E as _ _ <- _; reflexivity].
    destruct (decrypt_with_record C rp (pm_message m) g) as [[[x|e|] r2] g2]; [|left; injection E as _ _ <- _; reflexivity|left; injection E as _ _ <- _; reflexivity].
    right. destruct oid as [o2|].
    - exists r2, (if ou_empty o2 then [] else [RemovePreKey (ou_value o2)]). split; [injection E as _ _ <- _; reflexivity|].
      intros y Hy j ->. destruct (ou_empty o2); [destruct Hy|destruct Hy as [D|[]]; discriminate D].
    - exists r2, []. split; [injection E as _ _ <- _; reflexivity|]. intros y []. }
  assert (HI : In (SaveIdentity id) ef).
  { destruct HES as [->|(x & rest & -> & HR)]; [exact H|]. apply in_app_or in H. destruct H as [H|[D|H]]; [exact H|discriminate D|exfalso; exact (HR _ H id eq_refl)]. }
  destruct (HEF _ HI) as [D HT]. injection D as ->. split; [reflexivity|exact HT].
Qed.

Lemma signal_saves : forall w a b g id, In (SaveIdentity id) (snd (run_call C (view_of w a) (DoReceive (PSignal b) g))) ->
  exists m r x r' g', sig_from_bytes b = Ok m /\ w_sessions w a = Some r /\ decrypt_with_record C r m g = (Ok x, r', g') /\ s_remote_id (r_cur r') = Some id.
Proof.
  intros w a b g id H. unfold run_call in H. destruct (sig_from_bytes b) as [m|e|]; [|destruct H|destruct H].
  destruct (decrypt_and_get_key C (view_of w a) m g) as [[[o r] es] g1] eqn:E. cbn [snd] in H. unfold decrypt_and_get_key in E. cbn [view_of v_contains v_load] in E.
  destruct (w_sessions w a) as [r0|]; cbn [negb] in E; [|injection E as _ _ <- _; destruct H].
  destruct (decrypt_with_record C r0 m g) as [[[x|e|] r'] g2] eqn:ED; [|injection E as _ _ <- _; destruct H|injection E as _ _ <- _; destruct H].
  destruct (s_remote_id (r_cur r')) as [rid|] eqn:ER; injection E as _ _ <- _; [|destruct H]. destruct H as [D|[D|[]]]; [|discriminate D]. injection D as ->.
  exists m, r0, x, r', g2. repeat split; assumption.
Qed.

Lemma encrypt_saves : forall w a pt id, In (SaveIdentity id) (snd (run_call C (view_of w a) (DoEncrypt pt))) ->
  exists r, w_sessions w a = Some r /\ s_remote_id (r_cur r) = Some id.
Proof.
  intros w a pt id H. unfold run_call in H. destruct (encrypt C (view_of w a) pt) as [[o r] es] eqn:E. cbn [snd] in H.
  unfold encrypt in E. cbn [view_of v_load] in E. destruct (w_sessions w a) as [r0|].
  - destruct (s_sender _) as [sc|]; [|injection E as _ _ <-; destruct H].
    destruct (encrypt_cbc C _ _ pt) as [body|e|]; [|injection E as _ _ <-; destruct H|injection E as _ _ <-; destruct H].
    destruct (s_local_id _) as [lid|]; [|injection E as _ _ <-; destruct H]. destruct (s_remote_id _) as [rid|] eqn:ER; [|injection E as _ _ <-; destruct H].
    destruct (new_signal_message C _ _ _ _ _ _ _ _) as [sm|e|]; [|injection E as _ _ <-; destruct H|injection E as _ _ <-; destruct H].
    match type of E with (match ?t with _ => _ end) = _ => destruct t as [c|e|]; [|injection E as _ _ <-; destruct H|injection E as _ _ <-; destruct H] end.
    injection E as _ _ <-. destruct H as [D|[D|[]]]; [|discriminate D]. injection D as ->. exists r0. split; [reflexivity|exact ER].
  - cbn in E. injection E as _ _ <-. destruct H.
Qed.
End Same.

Section Sim.
Context (C : crypto) (L : crypto_laws C).
Context (addr : party -> address) (priv : party -> arr32) (base signed otk : arr32) (i sid : N).
Context (Hi : (i < 2 ^ 32)%N) (Hsid : (sid < 2 ^ 32)%N) (Him : i <> medium_max).
Definition cinv E v sent (w : party -> world) wire evs := ginv C addr priv base signed otk i sid E v sent (fun p => credulous (w p)) wire evs.
Notation idk := (idk C priv).

(** Bob's saved identity key of Alice. *)
Definition right (w : party -> world) : Prop := first_use (w_policy (w Bob)) /\ (w_saved (w Bob) (addr Alice) = None \/ w_saved (w Bob) (addr Alice) = Some (idk Alice)).

Lemma cinv_upd : forall E v sent (w : party -> world) p w' wire evs,
  ginv C addr priv base signed otk i sid E v sent (upd_party (fun q => credulous (w q)) p (credulous w')) wire evs -> cinv E v sent (upd_party w p w') wire evs.
Proof. intros E v sent w p w' wire evs H. unfold cinv. eapply keeps_inv; [exact H|]. intros q. destruct p, q; apply kept_for_refl. Qed.

Lemma passes_wire : forall E (w : party -> world) p k x, right w -> wire_rel C priv base i sid E (other p) k x -> passes (addr (other p)) k (w p).
Proof.
  intros E w p k [[e n] pt] [HF HS] (m & _ & HK). destruct k as [b|b]; [exact I|]. destruct HK as (HA & pm & K1 & _ & _ & K4 & _). destruct p; [discriminate HA|].
  intros m' Hm'. rewrite K1 in Hm'. injection Hm' as <-. rewrite K4. cbn [other]. apply HF. exact HS.
Qed.

(** Genuine packets and sends save the right key. *)
Lemma wire_saves : forall E v (w : party -> world) k x g id, party_rel C addr priv base signed otk i sid E Bob v (credulous (w Bob)) -> wire_rel C priv base i sid E Alice k x ->
  In (SaveIdentity id) (snd (run_call C (view_of (w Bob) (addr Alice)) (DoReceive k g))) -> id = idk Alice.
Proof.
  intros E v w k [[e n] pt] g id [_ HP] (m & HM & HK) HI. destruct k as [b|b].
  - destruct HK as [HK _]. destruct (signal_saves C _ _ _ _ _ HI) as (m' & r & x & r' & g' & Q1 & Q2 & Q3 & Q4). rewrite HK in Q1. injection Q1 as <-.
    destruct (pv_epoch v) as [|z].
    + destruct HP as (_ & HB & _). cbn [credulous w_sessions] in HB. rewrite HB in Q2. discriminate Q2.
    + destruct HP as (s & S1 & S2 & S3 & _). cbn [credulous w_sessions other] in S1. rewrite S1 in Q2. injection Q2 as <-.
      destruct (decrypt_with_state C s m g) as [[o s'] g2] eqn:ED. pose proof (dwr_single C (record_from_state s) m g o s' g2 eq_refl ED) as HD.
      destruct o as [y|er|].
      * rewrite HD in Q3. assert (E1 : set_cur s' (record_from_state s) = r') by exact (f_equal (fun z => snd (fst z)) Q3). subst r'. cbn [set_cur r_cur] in Q4.
        destruct (dws_ok_init C i sid Hi Hsid Him _ _ _ _ _ _ _ _ _ _ _ _ _ _ S2 S3 HM ED) as [HR _]. cbn [other] in HR. rewrite HR in Q4. injection Q4 as <-. reflexivity.
      * destruct HD as (r'' & HD). rewrite HD in Q3. discriminate Q3.
      * unfold decrypt_with_record in Q3. cbn [record_from_state r_cur] in Q3. rewrite ED in Q3. discriminate Q3.
  - destruct HK as (_ & pm & K1 & _ & _ & K4 & _). destruct (prekey_saves C _ _ _ _ HI) as (m' & Q1 & -> & _). rewrite K1 in Q1. injection Q1 as <-. exact K4.
Qed.

Lemma send_saves : forall E v (w : party -> world) pt id, party_rel C addr priv base signed otk i sid E Bob v (credulous (w Bob)) ->
  In (SaveIdentity id) (snd (run_call C (view_of (w Bob) (addr Alice)) (DoEncrypt pt))) -> id = idk Alice.
Proof.
  intros E v w pt id [_ HP] HI. destruct (encrypt_saves C _ _ _ _ HI) as (r & Q1 & Q2). destruct (pv_epoch v) as [|z].
  - destruct HP as (_ & HB & _). cbn [credulous w_sessions] in HB. rewrite HB in Q1. discriminate Q1.
  - destruct HP as (s & S1 & S2 & _). cbn [credulous w_sessions other] in S1. rewrite S1 in Q1. injection Q1 as <-. cbn [record_from_state r_cur] in Q2.
    destruct S2 as (_ & _ & HR & _). cbn [other] in HR. rewrite HR in Q2. injection Q2 as <-. reflexivity.
Qed.

Lemma commit_policy : forall a es w, w_policy (fst (commit a es w)) = w_policy w.
Proof. intros a es w. destruct (commit a es w) as [w' ok] eqn:E. destruct (commit_sessions _ _ _ _ _ E) as (_ & _ & _ & _ & H). exact H. Qed.

(** Saved keys stay right. *)
Lemma right_commit : forall (w : party -> world) p es, right w -> (p = Bob -> forall id, In (SaveIdentity id) es -> id = idk Alice) ->
  right (upd_party w p (fst (commit (addr (other p)) es (w p)))).
Proof.
  intros w p es [HF HS] HI. unfold right. destruct p; cbn [upd_party party_eqb other]; [split; assumption|]. split; [rewrite commit_policy; exact HF|].
  destruct (commit_saved (addr Alice) es (w Bob)) as [->|(id & H1 & ->)]; [exact HS|]. right. f_equal. exact (HI eq_refl id H1).
Qed.

Lemma right_receive : forall E v (w : party -> world) p k x g o w', right w -> party_rel C addr priv base signed otk i sid E p v (credulous (w p)) ->
  wire_rel C priv base i sid E (other p) k x -> receive C (addr (other p)) k g (w p) = (o, w') -> right (upd_party w p w').
Proof.
  intros E v w p k x g o w' HR HP HW H. rewrite receive_call in H. assert (E1 : fst (commit (addr (other p)) (snd (run_call C (view_of (w p) (addr (other p))) (DoReceive k g))) (w p)) = w') by exact (f_equal snd H).
  rewrite <- E1. apply right_commit; [exact HR|]. intros -> id HI. eapply wire_saves; [exact HP|exact HW|exact HI].
Qed.
Lemma right_cut_receive : forall E v (w : party -> world) p k x g n, right w -> party_rel C addr priv base signed otk i sid E p v (credulous (w p)) ->
  wire_rel C priv base i sid E (other p) k x -> right (upd_party w p (cut_call C (addr (other p)) (DoReceive k g) n (w p))).
Proof.
  intros E v w p k x g n HR HP HW. unfold cut_call. apply right_commit; [exact HR|]. intros -> id HI. apply firstn_in in HI. eapply wire_saves; [exact HP|exact HW|exact HI].
Qed.
Lemma right_cut_send : forall E v (w : party -> world) p pt n, right w -> party_rel C addr priv base signed otk i sid E p v (credulous (w p)) ->
  right (upd_party w p (cut_call C (addr (other p)) (DoEncrypt pt) n (w p))).
Proof.
  intros E v w p pt n HR HP. unfold cut_call. apply right_commit; [exact HR|]. intros -> id HI. apply firstn_in in HI. eapply send_saves; [exact HP|exact HI].
Qed.
Lemma right_send : forall E v (w : party -> world) p pt o w', right w -> party_rel C addr priv base signed otk i sid E p v (credulous (w p)) ->
  w_encrypt C (addr (other p)) pt (w p) = (o, w') -> right (upd_party w p w').
Proof.
  intros E v w p pt o w' HR HP H.
  assert (E1 : fst (commit (addr (other p)) (snd (run_call C (view_of (w p) (addr (other p))) (DoEncrypt pt))) (w p)) = w').
  { unfold w_encrypt in H. unfold run_call. destruct (encrypt C (view_of (w p) (addr (other p))) pt) as [[x r] es]. cbn [snd]. destruct (commit (addr (other p)) es (w p)) as [w1 ok]. exact (f_equal snd H). }
  rewrite <- E1. apply right_commit; [exact HR|]. intros -> id HI. eapply send_saves; [exact HP|exact HI].
Qed.

Lemma credulous_saved : forall w w', only_saved w w' -> only_saved (credulous w) (credulous w').
Proof. intros w w' (O1 & O2 & O3 & O4 & _). repeat split; assumption. Qed.
Lemma credulous_prekeys : forall w w', same_but_prekeys w w' -> same_but_prekeys (credulous w) (credulous w').
Proof. intros w w' (O1 & O2 & _). repeat split; assumption. Qed.

(** Packets from elsewhere: nobody hands Bob any, or he knows Alice's key and accepts no other. *)
Definition guarded (w : party -> world) (evs : list aevent) : Prop :=
  ~ injected_to Bob evs \/ no_change (w_policy (w Bob)) /\ w_saved (w Bob) (addr Alice) = Some (idk Alice).

Lemma guarded_upd : forall (w w' : party -> world) evs ev, guarded w (ev :: evs) -> right w' -> w_policy (w' Bob) = w_policy (w Bob) ->
  (w_saved (w Bob) (addr Alice) <> None -> w_saved (w' Bob) (addr Alice) <> None) -> guarded w' evs.
Proof.
  intros w w' evs ev [H|[H1 H2]] [_ HR] HP HN.
  - left. intros (k & g & D). apply H. exists k, g. right. exact D.
  - right. rewrite HP. split; [exact H1|]. destruct HR as [HR|HR]; [exfalso; apply HN; [rewrite H2; discriminate|exact HR]|exact HR].
Qed.
Lemma commit_some : forall a es w, w_saved w a <> None -> w_saved (fst (commit a es w)) a <> None.
Proof. intros a es w H. destruct (commit_saved a es w) as [->|(id & _ & ->)]; [exact H|discriminate]. Qed.

Lemma guarded_commit : forall (w : party -> world) p es evs ev, guarded w (ev :: evs) -> right (upd_party w p (fst (commit (addr (other p)) es (w p)))) ->
  guarded (upd_party w p (fst (commit (addr (other p)) es (w p)))) evs.
Proof.
  intros w p es evs ev HG HR. eapply guarded_upd; [exact HG|exact HR| |]; destruct p; cbn [upd_party party_eqb other].
  - reflexivity.
  - apply commit_policy.
  - intros H; exact H.
  - apply commit_some.
Qed.

(** A real event, from the credulous one. *)
Lemma real_receive : forall E v sent (w : party -> world) wire p j g evs k e c pt, cinv E v sent w wire (Deliver p j g :: evs) -> right w ->
  nth_error (wire (other p)) j = Some k -> nth_error (sent (other p)) j = Some (e, c, pt) ->
  exists o w', receive C (addr (other p)) k g (w p) = (o, w') /\ right (upd_party w p w') /\
    (forall n, right (upd_party w p (cut_call C (addr (other p)) (DoReceive k g) n (w p)))) /\
    match cdeliver (v p) e c pt with
    | (Plain q, v') => o = Ok q /\ exists F, cinv (E ++ F) (upd_party v p v') sent (upd_party w p w') wire evs
    | (Refused, v') => (exists er, o = Err er) /\ cinv E (upd_party v p v') sent (upd_party w p w') wire evs
    | (Forgotten, v') => (exists q, o = Ok q) \/ ((exists er, o = Err er) /\ cinv E (upd_party v p v') sent (upd_party w p w') wire evs)
    end.
Proof.
  intros E v sent w wire p j g evs k e c pt HI HR EK ES. pose proof (nth_rel _ _ _ _ _ j (g_wire _ _ _ _ _ _ _ _ _ _ _ _ _ _ HI (other p))) as HJ.
  rewrite EK, ES in HJ. destruct HJ as [HJ _]. pose proof (g_party _ _ _ _ _ _ _ _ _ _ _ _ _ _ HI p) as HP. cbv beta in HP.
  destruct (deliver_step C L addr priv base signed otk i sid Hi Hsid Him _ _ _ _ _ _ _ _ _ _ _ _ _ HI EK ES) as (o & e' & E1 & _ & HO).
  destruct (receive_credulous C _ _ _ _ _ _ (passes_wire E w p k _ HR HJ) E1) as (w' & E2 & ->).
  exists o, w'. split; [exact E2|]. split; [eapply right_receive; [exact HR|exact HP|exact HJ|exact E2]|]. split; [intros n; eapply right_cut_receive; [exact HR|exact HP|exact HJ]|].
  destruct (cdeliver (v p) e c pt) as [[q| |] v'].
  - destruct HO as (-> & _ & F & _ & HI'). split; [reflexivity|]. exists F. apply cinv_upd. exact HI'.
  - destruct HO as (HE & _ & HI'). split; [exact HE|]. apply cinv_upd. exact HI'.
  - destruct HO as [HO|(HE & _ & HI')]; [left; exact HO|right]. split; [exact HE|]. apply cinv_upd. exact HI'.
Qed.

Lemma real_send : forall E v sent (w : party -> world) wire p pt evs z, cinv E v sent w wire (Send p pt :: evs) -> right w -> pv_epoch (v p) = S z ->
  exists ct k w', has_session (addr (other p)) (w p) = true /\ w_encrypt C (addr (other p)) pt (w p) = (Ok ct, w') /\ pack ct = Ok k /\ right (upd_party w p w') /\
    (forall n, right (upd_party w p (cut_call C (addr (other p)) (DoEncrypt pt) n (w p)))) /\
    cinv E (upd_party v p {| pv_epoch := pv_epoch (v p); pv_count := pv_count (v p) + 1; pv_chains := pv_chains (v p) |})
      (upd_party sent p (sent p ++ [(pv_epoch (v p), pv_count (v p), pt)])) (upd_party w p w') (upd_party wire p (wire p ++ [k])) evs.
Proof.
  intros E v sent w wire p pt evs z HI HR EV. pose proof (g_party _ _ _ _ _ _ _ _ _ _ _ _ _ _ HI p) as HP. cbv beta in HP.
  destruct (send_step C L addr priv base signed otk i sid Hi Hsid Him _ _ _ _ _ _ _ _ _ HI EV) as (ct & k & e' & E1 & E2 & E3 & _ & _ & HI').
  destruct (encrypt_credulous C _ _ _ _ _ E2) as (w' & E4 & ->). exists ct, k, w'. split; [exact E1|]. split; [exact E4|]. split; [exact E3|].
  split; [eapply right_send; [exact HR|exact HP|exact E4]|]. split; [intros n; eapply right_cut_send; [exact HR|exact HP]|]. apply cinv_upd. exact HI'.
Qed.

Lemma world_of_receive : forall a k g w o w', receive C a k g w = (o, w') -> w' = fst (commit a (snd (run_call C (view_of w a) (DoReceive k g))) w).
Proof. intros a k g w o w' H. rewrite receive_call in H. symmetry. exact (f_equal snd H). Qed.
Lemma world_of_encrypt : forall a pt w o w', w_encrypt C a pt w = (o, w') -> w' = fst (commit a (snd (run_call C (view_of w a) (DoEncrypt pt))) w).
Proof.
  intros a pt w o w' H. unfold w_encrypt in H. unfold run_call. destruct (encrypt C (view_of w a) pt) as [[x r] es]. cbn [snd].
  destruct (commit a es w) as [w1 ok]. symmetry. exact (f_equal snd H).
Qed.

(** An injected packet that is not taken. *)
Lemma injected_right : forall (w : party -> world) p k g o w' evs, right w -> guarded w (Inject p k g :: evs) -> receive C (addr (other p)) k g (w p) = (o, w') ->
  takes C (addr (other p)) k g (w p) = false -> right (upd_party w p w').
Proof.
  intros w p k g o w' evs HR HG H HT. rewrite (world_of_receive _ _ _ _ _ _ H). apply right_commit; [exact HR|]. intros -> id HI. cbn [other] in *.
  destruct HG as [HG|[HG1 HG2]]; [exfalso; apply HG; exists k, g; left; reflexivity|]. destruct k as [b|b].
  - exfalso. unfold takes, run_call in *. destruct (sig_from_bytes b) as [m|e|]; [|destruct HI|destruct HI].
    destruct (decrypt_and_get_key C (view_of (w Bob) (addr Alice)) m g) as [[[o1 r1] es] g1] eqn:E. cbn [snd] in *.
    unfold decrypt_and_get_key in E. destruct (negb _); [injection E as _ _ <- _; destruct HI|].
    destruct (decrypt_with_record C _ m g) as [[[x|e|] r'] g2]; [|injection E as _ _ <- _; destruct HI|injection E as _ _ <- _; destruct HI].
    destruct (s_remote_id (r_cur r')) as [rid|]; injection E as _ _ <- _; [discriminate HT|destruct HI].
  - destruct (prekey_saves C _ _ _ _ HI) as (m & _ & -> & HV). change (v_trusted (view_of (w Bob) (addr Alice)) (pm_identity m)) with (w_policy (w Bob) (w_saved (w Bob)) (addr Alice) (pm_identity m)) in HV.
    destruct (HG1 _ _ _ HV) as [D|D]; [rewrite HG2 in D; discriminate D|]. rewrite HG2 in D. injection D as <-. reflexivity.
Qed.

Lemma guarded_tail : forall w ev evs, guarded w (ev :: evs) -> guarded w evs.
Proof. intros w ev evs [H|H]; [left|right; exact H]. intros (k & g & D). apply H. exists k, g. right. exact D. Qed.

Lemma cinv_saved : forall E v sent (w : party -> world) wire p evs w', cinv E v sent w wire evs -> only_saved (w p) w' -> cinv E v sent (upd_party w p w') wire evs.
Proof. intros E v sent w wire p evs w' H HO. apply cinv_upd. apply inv_saved; [exact H|apply credulous_saved; exact HO]. Qed.

Theorem trust_simulation : forall evs E v sent w wire, cinv E v sent w wire (map event_of (reals evs)) -> right w -> guarded w evs ->
  none_taken (arun C addr w wire evs) -> xconforms (genuine (arun C addr w wire evs)) (xspec v sent (reals evs)).
Proof.
  induction evs as [|ev evs IH]; intros E v sent w wire HI HR HG HT; [constructor|]. destruct ev as [x|p k g].
  2:{ cbn [arun reals flat_map real_of app] in *. destruct (receive C (addr (other p)) k g (w p)) as [o w'] eqn:ER. inversion HT as [|y l T1 T2]; subst.
      destruct (not_taken C _ _ _ _ _ _ ER T1) as [HO _]. unfold genuine. cbn [flat_map app].
      pose proof (injected_right _ _ _ _ _ _ _ HR HG ER T1) as HR'.
      apply (IH E); [apply cinv_saved; assumption|exact HR'| |exact T2].
      rewrite (world_of_receive _ _ _ _ _ _ ER) in HR' |- *. eapply guarded_commit; [exact HG|exact HR']. }
  change (reals (Real x :: evs)) with (x :: reals evs) in *. cbn [map event_of] in HI. cbn [arun] in *.
  destruct x as [[p pt|p j g]|[p pt|p j g] n]; cbn [event_of] in HI; cbn [arun_real xspec] in *.
  - destruct (pv_epoch (v p)) as [|z] eqn:EV.
    + destruct (send_nothing C addr priv base signed otk i sid Hi Hsid Him _ _ _ _ _ _ _ _ HI EV) as [EH HI'].
      change (has_session (addr (other p)) (w p) = false) in EH. rewrite EH in *. exact (IH _ _ _ _ _ HI' HR (guarded_tail _ _ _ HG) HT).
    + destruct (real_send _ _ _ _ _ _ _ _ _ HI HR EV) as (ct & k & w' & E1 & E2 & E3 & HR' & _ & HI').
      rewrite E1, E2, E3 in *. rewrite EV in HI'. refine (IH _ _ _ _ _ HI' HR' _ HT).
      rewrite (world_of_encrypt _ _ _ _ _ E2) in HR' |- *. eapply guarded_commit; [exact HG|exact HR'].
  - assert (HND : cinv E v sent w wire (map event_of (reals evs))) by (eapply deliver_nothing; eassumption).
    pose proof (nth_rel _ _ _ _ _ j (g_wire _ _ _ _ _ _ _ _ _ _ _ _ _ _ HI (other p))) as HJ.
    destruct (nth_error (wire (other p)) j) as [k|] eqn:EK; destruct (nth_error (sent (other p)) j) as [[[e c] pt]|] eqn:ES; [|destruct HJ|destruct HJ|].
    2:{ exact (IH _ _ _ _ _ HND HR (guarded_tail _ _ _ HG) HT). }
    destruct (real_receive _ _ _ _ _ _ _ _ _ _ _ _ _ HI HR EK ES) as (o & w' & E1 & HR' & _ & HO). rewrite E1 in *.
    assert (HG' : guarded (upd_party w p w') evs) by (rewrite (world_of_receive _ _ _ _ _ _ E1) in HR' |- *; eapply guarded_commit; [exact HG|exact HR']).
    rewrite genuine_app. apply none_taken_app in HT. cbn [app]. destruct (cdeliver (v p) e c pt) as [[q| |] v'].
    + destruct HO as (-> & F & HI'). apply XC_plain. exact (IH _ _ _ _ _ HI' HR' HG' HT).
    + destruct HO as ((er & ->) & HI'). apply XC_refused. exact (IH _ _ _ _ _ HI' HR' HG' HT).
    + destruct HO as [(q & ->)|((er & ->) & HI')]; [apply XC_collision|]. apply XC_forgotten. exact (IH _ _ _ _ _ HI' HR' HG' HT).
  - destruct (pv_epoch (v p)) as [|z] eqn:EV.
    + destruct (send_nothing C addr priv base signed otk i sid Hi Hsid Him _ _ _ _ _ _ _ _ HI EV) as [EH HI'].
      change (has_session (addr (other p)) (w p) = false) in EH. rewrite EH in *. exact (IH _ _ _ _ _ HI' HR (guarded_tail _ _ _ HG) HT).
    + destruct (real_send _ _ _ _ _ _ _ _ _ HI HR EV) as (ct & k & w' & E1 & HE & _ & _ & HR' & HI'). specialize (HR' n).
      rewrite E1 in *. pose proof (cut_send C _ _ _ _ _ n HE) as HC.
      assert (HG' : guarded (upd_party w p (cut_call C (addr (other p)) (DoEncrypt pt) n (w p))) evs) by (eapply guarded_commit; [exact HG|exact HR']).
      destruct n as [|[|n]].
      * apply (IH E); [|exact HR'|exact HG'|exact HT]. apply cinv_saved; [eapply inv_unsent; [exact Hi|exact Hsid|exact Him|exact HI]|exact HC].
      * apply (IH E); [|exact HR'|exact HG'|exact HT]. apply cinv_saved; [eapply inv_unsent; [exact Hi|exact Hsid|exact Him|exact HI]|exact HC].
      * rewrite HC in *. rewrite EV in HI'. apply (IH E); [|exact HR'|exact HG'|exact HT]. eapply inv_lost; [exact HI'|]. exact (g_wire _ _ _ _ _ _ _ _ _ _ _ _ _ _ HI p).
  - assert (HND : cinv E v sent w wire (map event_of (reals evs))) by (eapply deliver_nothing; eassumption).
    pose proof (nth_rel _ _ _ _ _ j (g_wire _ _ _ _ _ _ _ _ _ _ _ _ _ _ HI (other p))) as HJ.
    destruct (nth_error (wire (other p)) j) as [k|] eqn:EK; destruct (nth_error (sent (other p)) j) as [[[e c] pt]|] eqn:ES; [|destruct HJ|destruct HJ|].
    2:{ exact (IH _ _ _ _ _ HND HR (guarded_tail _ _ _ HG) HT). }
    rewrite genuine_app. apply none_taken_app in HT. cbn [app].
    destruct (real_receive _ _ _ _ _ _ _ _ _ _ _ _ _ HI HR EK ES) as (o & w' & HV & _ & HR' & HO). specialize (HR' n).
    assert (HG' : guarded (upd_party w p (cut_call C (addr (other p)) (DoReceive k g) n (w p))) evs) by (eapply guarded_commit; [exact HG|exact HR']).
    destruct (cdeliver (v p) e c pt) as [[q| |] v'] eqn:ECD.
    + destruct HO as (-> & F & HI'). pose proof (cut_ok C _ _ _ _ _ _ n HV) as HC. destruct n as [|[|n]]; destruct HC as [HB HC]; rewrite HB in *.
      * apply XC_nothing. apply (IH E); [|exact HR'|exact HG'|exact HT]. apply cinv_saved; assumption.
      * apply XC_nothing. apply (IH E); [|exact HR'|exact HG'|exact HT]. apply cinv_saved; assumption.
      * apply XC_gone. apply (IH (E ++ F)); [|exact HR'|exact HG'|exact HT]. apply cinv_upd. eapply inv_swap; [|apply credulous_prekeys; exact HC|].
        -- eapply keeps_inv; [exact HI'|]. intros q'. destruct p, q'; apply kept_for_refl.
        -- rewrite upd_same. eapply plain_view. exact ECD.
    + destruct HO as ((er & ->) & HI'). destruct (cut_err C _ _ _ _ _ _ n HV) as [HB HC]. rewrite HB in *.
      destruct n as [|[|n]]; apply XC_nothing; (apply (IH E); [|exact HR'|exact HG'|exact HT]); apply cinv_saved; assumption.
    + destruct HO as [(q & ->)|((er & ->) & HI')].
      * pose proof (cut_ok C _ _ _ _ _ _ n HV) as HC. destruct n as [|[|n]]; destruct HC as [HB HC]; rewrite HB in *.
        -- apply XC_nothing. apply (IH E); [|exact HR'|exact HG'|exact HT]. apply cinv_saved; assumption.
        -- apply XC_nothing. apply (IH E); [|exact HR'|exact HG'|exact HT]. apply cinv_saved; assumption.
        -- apply XC_collision_unseen.
      * destruct (cut_err C _ _ _ _ _ _ n HV) as [HB HC]. rewrite HB in *. destruct n as [|[|n]]; [apply XC_nothing|apply XC_nothing|apply XC_strange]; (apply (IH E); [|exact HR'|exact HG'|exact HT]); apply cinv_saved; assumption.
Qed.
End Sim.

(** * Without injections *)

Lemma conforms_last : forall pre p q X, xconforms (pre ++ [(p, O, Returned Panic)]) X -> xconforms (pre ++ [(q, O, Returned Panic)]) X.
Proof.
  induction pre as [|y pre IH]; intros p q X H; cbn [app] in *.
  - inversion H.
  - inversion H; subst; constructor; eapply IH; eassumption.
Qed.

Lemma xrun_arun : forall C addr evs w wire, xrun C addr w wire evs = genuine (arun C addr w wire (map Real evs)) \/
  exists pre p, xrun C addr w wire evs = pre ++ [(p, O, Returned Panic)] /\ genuine (arun C addr w wire (map Real evs)) = pre ++ [(Alice, O, Returned Panic)].
Proof.
  intros C addr. induction evs as [|x evs IH]; intros w wire; [left; reflexivity|]. cbn [map arun]. pose proof (arun_real_xrun C addr w wire x evs) as H.
  destruct (arun_real C addr w wire x) as [[[w' wire'] out]|].
  - rewrite H, genuine_app. destruct (IH w' wire') as [->|(pre & p & -> & ->)]; [left; reflexivity|right]. exists (out ++ pre), p. rewrite !app_assoc. split; reflexivity.
  - destruct H as (p & ->). right. exists [], p. split; reflexivity.
Qed.

Lemma xconforms_arun : forall C addr evs w wire X, xconforms (genuine (arun C addr w wire (map Real evs))) X -> xconforms (xrun C addr w wire evs) X.
Proof.
  intros C addr evs w wire X H. destruct (xrun_arun C addr evs w wire) as [->|(pre & p & -> & HA)]; [exact H|]. rewrite HA in H. eapply conforms_last. exact H.
Qed.

Lemma none_injected : forall C addr evs w wire, none_taken (arun C addr w wire (map Real evs)).
Proof.
  intros C addr. induction evs as [|x evs IH]; intros w wire; [constructor|]. cbn [map arun]. destruct (arun_real C addr w wire x) as [[[w' wire'] out]|]; [|repeat constructor].
  unfold none_taken. apply Forall_app. split; [|apply IH]. apply Forall_forall. intros y Hy. apply in_map_iff in Hy. destruct Hy as (z & <- & _). exact I.
Qed.

Lemma reals_map : forall evs, reals (map Real evs) = evs.
Proof. induction evs as [|x evs IH]; [reflexivity|]. cbn. f_equal. exact IH. Qed.

Section Start.
Context (C : crypto) (L : crypto_laws C).

Lemma trust_attack : forall addr wa wb b i sid signed otk g g1 g2 eph ratchet wa1 g' evs,
  strangers C addr (credulous wa) (credulous wb) b i sid signed otk -> generate_key_pair C g = (Ok eph, g1) -> generate_key_pair C g1 = (Ok ratchet, g2) ->
  w_process_bundle C (addr Bob) b g wa = (Ok tt, wa1, g') -> fair C signed ratchet (map event_of (reals evs)) ->
  first_use (w_policy wb) -> knows_no_other wb (addr Alice) wa ->
  ~ injected_to Bob evs \/ (no_change (w_policy wb) /\ w_saved wb (addr Alice) = Some (ip_pub (w_self wa))) ->
  none_taken (arun C addr (both wa1 wb) (fun _ => []) evs) ->
  xconforms (genuine (arun C addr (both wa1 wb) (fun _ => []) evs)) (xspec start_view (fun _ => []) (reals evs)).
Proof.
  intros addr wa wb b i sid signed otk g g1 g2 eph ratchet wa1 g' evs H HG1 HG2 HP HF HU HK HJ HT.
  destruct (start_of_strangers C L _ _ _ _ _ _ _ _ _ _ _ _ _ _ _ _ H HG1 HG2 (bundle_uncredulous C _ _ _ _ _ _ HP) HF) as (E & k1 & k2 & _ & _ & _ & HI).
  assert (HA : idk C (privs (credulous wa) (credulous wb)) Alice = ip_pub (w_self wa)) by (symmetry; exact (st_alice _ _ _ _ _ _ _ _ _ H)).
  destruct H. eapply (trust_simulation C L addr _ _ _ _ _ _ st_i st_sid st_i_max _ E).
  - unfold cinv. eapply keeps_inv; [exact HI|]. intros [|]; apply kept_for_refl.
  - split; [exact HU|]. rewrite HA. exact HK.
  - unfold guarded. rewrite HA. exact HJ.
  - exact HT.
Qed.

Lemma trust_schedule : forall addr wa wb b i sid signed otk g g1 g2 eph ratchet wa1 g' evs,
  strangers C addr (credulous wa) (credulous wb) b i sid signed otk -> generate_key_pair C g = (Ok eph, g1) -> generate_key_pair C g1 = (Ok ratchet, g2) ->
  w_process_bundle C (addr Bob) b g wa = (Ok tt, wa1, g') -> fair C signed ratchet (map event_of evs) ->
  first_use (w_policy wb) -> knows_no_other wb (addr Alice) wa ->
  xconforms (xrun C addr (both wa1 wb) (fun _ => []) evs) (xspec start_view (fun _ => []) evs).
Proof.
  intros addr wa wb b i sid signed otk g g1 g2 eph ratchet wa1 g' evs H HG1 HG2 HP HF HU HK.
  assert (HF' : fair C signed ratchet (map event_of (reals (map Real evs)))) by (rewrite reals_map; exact HF).
  assert (HJ : ~ injected_to Bob (map Real evs)) by (intros (k & gg & HI); apply in_map_iff in HI; destruct HI as (x & D & _); discriminate D).
  pose proof (trust_attack _ _ _ _ _ _ _ _ _ _ _ _ _ _ _ (map Real evs) H HG1 HG2 HP HF' HU HK (or_introl HJ) (none_injected C addr evs _ _)) as X.
  rewrite reals_map in X. apply xconforms_arun. exact X.
Qed.
End Start.

(** * Many conversations *)

Lemma commit_saved_other : forall a es w b, b <> a -> w_saved (fst (commit a es w)) b = w_saved w b.
Proof. intros a es w b Hb. destruct (commit a es w) as [w' ok] eqn:E. destruct (commit_sessions _ _ _ _ _ E) as (H & _). exact (proj2 (H b Hb)). Qed.
Lemma commit_self : forall a es w, w_self (fst (commit a es w)) = w_self w.
Proof. intros a es w. destruct (commit a es w) as [w' ok] eqn:E. destruct (commit_sessions _ _ _ _ _ E) as (_ & _ & H & _). exact H. Qed.
Lemma world_of_bundle : forall C a b g w o w' g', w_process_bundle C a b g w = (o, w', g') -> w' = fst (commit a (snd (run_call C (view_of w a) (DoBundle b g))) w).
Proof.
  intros C a b g w o w' g' H. unfold w_process_bundle in H. unfold run_call. destruct (process_bundle C (view_of w a) b g) as [[[x r] es] g1]. cbn [snd].
  destruct (commit a es w) as [w1 ok]. symmetry. exact (f_equal (fun z => snd (fst z)) H).
Qed.

Section Many.
Context (C : crypto) (L : crypto_laws C) (T : cast) (n : nat).
Context (HName : forall i j, name T i = name T j -> i = j).
Context (HTwo : forall c, (c < n)%nat -> who T c Alice <> who T c Bob).
Context (HPair : forall c d p q, (c < n)%nat -> (d < n)%nat -> who T c p = who T d q -> who T c (other p) = who T d (other q) -> c = d).
Context (HKeys : forall c d, (c < n)%nat -> (d < n)%nat -> who T c Bob = who T d Bob -> pid T c = pid T d -> c = d).
Context (HSig : forall c, (c < n)%nat -> verify_signature C (b_identity (kit T c)) (ser_pub (x_base C (skey T c))) (b_sig (kit T c)) = true).
Context (HPid : forall c, (c < n)%nat -> (pid T c < 2 ^ 32)%N /\ pid T c <> 16777215%N /\ (sid T c < 2 ^ 32)%N).

Definition tinv (s : option cstate) (c : nat) (w : nat -> world) (wire : party -> list packet) (evs : list nevent) : Prop :=
  match s with
  | None => strangers C (address_in T c) (credulous (w (who T c Alice))) (credulous (w (who T c Bob))) (kit T c) (pid T c) (sid T c) (skey T c) (otkey T c) /\
      (forall p, first_use (w_policy (w (who T c p))) /\ knows_no_other (w (who T c p)) (address_in T c (other p)) (w (who T c (other p)))) /\ forall p, wire p = []
  | Some (v, sent) => ~ In c (begun evs) /\ exists priv base E,
      cinv C (address_in T c) priv base (skey T c) (otkey T c) (pid T c) (sid T c) E v sent (fun p => w (who T c p)) wire (talk_of c evs) /\
      right C (address_in T c) priv (fun p => w (who T c p))
  end.

(** Writes of another conversation. *)
Lemma foreign_saved : forall c d p (w : nat -> world) es q, (c < n)%nat -> (d < n)%nat -> c <> d ->
  let w' := upd_nat w (who T d p) (fst (commit (address_in T d (other p)) es (w (who T d p)))) in
  w_saved (w' (who T c q)) (address_in T c (other q)) = w_saved (w (who T c q)) (address_in T c (other q)).
Proof.
  intros c d p w es q Hc Hd HN w'. subst w'. destruct (Nat.eq_dec (who T d p) (who T c q)) as [E|E]; [|rewrite upd_nat_diff by exact E; reflexivity].
  rewrite E, upd_nat_same. rewrite <- E at 1 2. rewrite commit_saved_other; [rewrite E; reflexivity|].
  intros HA. apply HName in HA. apply HN. eapply (HPair c d q p); [exact Hc|exact Hd|symmetry; exact E|exact HA].
Qed.
Lemma same_policy : forall k (w : nat -> world) a es j, w_policy (upd_nat w k (fst (commit a es (w k))) j) = w_policy (w j).
Proof. intros k w a es j. destruct (Nat.eq_dec k j) as [<-|E]; [rewrite upd_nat_same; apply commit_policy|rewrite upd_nat_diff by exact E; reflexivity]. Qed.
Lemma same_self : forall k (w : nat -> world) a es j, w_self (upd_nat w k (fst (commit a es (w k))) j) = w_self (w j).
Proof. intros k w a es j. destruct (Nat.eq_dec k j) as [<-|E]; [rewrite upd_nat_same; apply commit_self|rewrite upd_nat_diff by exact E; reflexivity]. Qed.

Lemma kept_credulous : forall addr i q w w', kept_for addr i q w w' -> kept_for addr i q (credulous w) (credulous w').
Proof. intros addr i q w w' (K1 & K2 & K3 & K4 & _ & K6). repeat split; assumption. Qed.

Lemma foreign_tinv : forall s c d p w es wire evs evs' (ids : N -> Prop), (c < n)%nat -> (d < n)%nat -> c <> d ->
  frame (address_in T d (other p)) ids (w (who T d p)) (fst (commit (address_in T d (other p)) es (w (who T d p)))) -> (forall j, ids j -> p = Bob /\ j = pid T d) ->
  (In c (begun evs') -> In c (begun evs)) -> talk_of c evs' = talk_of c evs ->
  tinv s c w wire evs -> tinv s c (upd_nat w (who T d p) (fst (commit (address_in T d (other p)) es (w (who T d p))))) wire evs'.
Proof.
  intros s c d p w es wire evs evs' ids Hc Hd HN HF HI HB HE H. pose proof (foreign_kept T n HName HPair HKeys c d p w _ ids Hc Hd HN HF HI) as HK.
  pose proof (fun q => foreign_saved c d p w es q Hc Hd HN) as HV. cbv zeta in HV. destruct s as [[v sent]|].
  - destruct H as [HNB (priv & base & E & HG & HR)]. split; [intros HX; exact (HNB (HB HX))|]. exists priv, base, E. rewrite HE. split.
    + unfold cinv. eapply keeps_inv; [exact HG|]. intros q. apply kept_credulous. apply HK.
    + destruct HR as [R1 R2]. split; [rewrite same_policy; exact R1|]. specialize (HV Bob). cbn [other] in HV. rewrite HV. exact R2.
  - destruct H as (HS & HT & HW). split; [eapply keeps_strangers; [exact HS|apply kept_credulous; apply HK|apply kept_credulous; apply HK]|]. split; [|exact HW].
    intros q. destruct (HT q) as [T1 T2]. split; [rewrite same_policy; exact T1|]. unfold knows_no_other. rewrite HV, same_self. exact T2.
Qed.

Lemma other_tinv : forall s c w wire evs evs', (In c (begun evs') -> In c (begun evs)) -> talk_of c evs' = talk_of c evs ->
  tinv s c w wire evs -> tinv s c w wire evs'.
Proof.
  intros s c w wire evs evs' HB HE H. destruct s as [[v sent]|]; [|exact H]. destruct H as [HNB H]. split; [intros HX; exact (HNB (HB HX))|]. rewrite HE. exact H.
Qed.

Lemma own_tinv : forall c priv base E v sent p (w : nat -> world) w' wire evs, (c < n)%nat ->
  cinv C (address_in T c) priv base (skey T c) (otkey T c) (pid T c) (sid T c) E v sent (upd_party (fun q => w (who T c q)) p w') wire evs ->
  cinv C (address_in T c) priv base (skey T c) (otkey T c) (pid T c) (sid T c) E v sent (fun q => upd_nat w (who T c p) w' (who T c q)) wire evs.
Proof.
  intros c priv base E v sent p w w' wire evs Hc H. unfold cinv in *. eapply keeps_inv; [exact H|]. intros q. cbv beta. rewrite <- (own_ext T n HTwo) by exact Hc. apply kept_for_refl.
Qed.
Lemma own_right : forall c priv p (w : nat -> world) w', (c < n)%nat -> right C (address_in T c) priv (upd_party (fun q => w (who T c q)) p w') ->
  right C (address_in T c) priv (fun q => upd_nat w (who T c p) w' (who T c q)).
Proof. intros c priv p w w' Hc [R1 R2]. unfold right. rewrite <- (own_ext T n HTwo) by exact Hc. split; assumption. Qed.

Theorem trust_many : forall evs st w wire, fair_all C T n evs -> (forall c, (c < n)%nat -> tinv (st c) c w (wire c) evs) ->
  nconforms (nrun C T w wire evs) (nspec st evs).
Proof.
  induction evs as [|ev evs IH]; intros st w wire HF HI; [constructor|]. pose proof (fair_all_tail _ _ _ _ _ HF) as HF'. destruct HF as (F1 & F2 & F3).
  inversion F2 as [|? ? Hc _]; subst. destruct ev as [c g|c x]; cbn [conversation_of] in Hc.
  - pose proof (HI c Hc) as HIc. destruct (st c) as [[v sent]|] eqn:ES.
    { destruct HIc as [D _]. exfalso. apply D. left. reflexivity. }
    destruct HIc as (HS & HT & HW). destruct (F3 c g (or_introl eq_refl)) as (eph & g1 & ratchet & g2 & G1 & G2 & HFC).
    change (talk_of c (Begin c g :: evs)) with (talk_of c evs) in HFC.
    destruct (bundle_accepted C L _ _ _ _ _ _ _ _ _ _ _ _ _ HS (fun _ => eq_refl) (HSig c Hc) G1 G2) as (ea1 & g' & HP).
    destruct (start_of_strangers C L _ _ _ _ _ _ _ _ _ _ _ _ _ _ _ _ HS G1 G2 HP HFC) as (E & k1 & k2 & _ & _ & _ & HG).
    destruct (bundle_credulous C _ _ _ _ _ _ _ (ltac:(destruct (HT Alice) as [T1 T2]; apply T1; rewrite (st_b_identity _ _ _ _ _ _ _ _ _ HS); exact T2)) HP) as (wa1 & HP' & ->).
    cbn [other] in HP'. cbn [nrun nspec]. rewrite HP'. apply NC_begins. apply IH; [exact HF'|]. intros d Hd. destruct (Nat.eq_dec c d) as [<-|HN].
    + rewrite upd_nat_same. split; [cbn [begun flat_map app] in F1; inversion F1; assumption|].
      exists (privs (credulous (w (who T c Alice))) (credulous (w (who T c Bob)))), (kp_pub eph), E. split.
      * unfold cinv. eapply (keeps_inv C _ _ _ _ _ _ _ _ _ _ (both (credulous wa1) (credulous (w (who T c Bob))))).
        { destruct HG as [I1 I2 I3 I4 I13 I5 I6 I7 I8 I9 I10 I11 I12]. constructor; try assumption. intros q. rewrite HW. constructor. }
        intros q. destruct q; cbn [both].
        -- rewrite upd_nat_same. apply kept_for_refl.
        -- rewrite upd_nat_diff by (apply HTwo; exact Hc). apply kept_for_refl.
      * assert (HA : idk C (privs (credulous (w (who T c Alice))) (credulous (w (who T c Bob)))) Alice = ip_pub (w_self (w (who T c Alice)))) by (symmetry; exact (st_alice _ _ _ _ _ _ _ _ _ HS)).
        unfold right. rewrite upd_nat_diff by (apply HTwo; exact Hc). rewrite HA. exact (HT Bob).
    + rewrite upd_nat_diff by exact HN. pose proof (bundle_frame C _ _ _ _ _ _ _ HP') as HFr. rewrite (world_of_bundle _ _ _ _ _ _ _ _ HP') in HFr |- *.
      refine (foreign_tinv _ d c Alice _ _ _ _ _ _ Hd Hc (fun D => HN (eq_sym D)) HFr _ _ _ (HI d Hd)).
      * intros j [].
      * intros HB. right. exact HB.
      * reflexivity.
  - pose proof (HI c Hc) as HIc.
    assert (HSkip : (forall d, d <> c -> (d < n)%nat -> tinv (st d) d w (wire d) evs)).
    { intros d HN Hd. eapply other_tinv; [| |exact (HI d Hd)]; [intros HB; exact HB|symmetry; apply talk_foreign; exact HN]. }
    destruct (st c) as [[v sent]|] eqn:ES.
    + destruct HIc as [HNB (priv & base & E & HG & HR)]. change (begun (Talk c x :: evs)) with (begun evs) in HNB. rewrite talk_own in HG.
      destruct (HPid c Hc) as (P1 & P2 & P3). destruct x as [p pt|p j g].
      * cbn [nrun nspec]. rewrite ES. destruct (pv_epoch (v p)) as [|z] eqn:EV.
        -- destruct (send_nothing C (address_in T c) priv base (skey T c) (otkey T c) (pid T c) (sid T c) P1 P3 P2 _ _ _ _ _ _ _ _ HG EV) as [EH HG'].
           change (has_session (address_in T c (other p)) (w (who T c p)) = false) in EH.
           rewrite EH. apply IH; [exact HF'|]. intros d Hd. destruct (Nat.eq_dec c d) as [<-|HN].
           ++ rewrite ES. split; [exact HNB|]. exists priv, base, E. split; [exact HG'|exact HR].
           ++ apply HSkip; [intros D; exact (HN (eq_sym D))|exact Hd].
        -- destruct (real_send C L (address_in T c) priv base (skey T c) (otkey T c) (pid T c) (sid T c) P1 P3 P2 _ _ _ _ _ _ _ _ _ HG HR EV) as (ct & k & w' & E1 & E2 & E3 & HR' & _ & HG').
           rewrite E1, E2, E3. rewrite EV in HG'. apply IH; [exact HF'|]. intros d Hd. destruct (Nat.eq_dec c d) as [<-|HN].
           ++ rewrite !upd_nat_same. split; [exact HNB|]. exists priv, base, E. split; [apply own_tinv; [exact Hc|exact HG']|apply own_right; [exact Hc|exact HR']].
           ++ rewrite !(upd_nat_diff _ _ c) by exact HN. pose proof (encrypt_frame C _ _ _ _ _ E2) as HFr. rewrite (world_of_encrypt C _ _ _ _ _ E2) in HFr |- *.
              eapply (foreign_tinv _ d c p); [exact Hd|exact Hc|intros D; exact (HN (eq_sym D))|exact HFr| | | |exact (HI d Hd)].
              ** intros j [].
              ** intros HB. exact HB.
              ** symmetry. apply talk_foreign. intros D. exact (HN (eq_sym D)).
      * cbn [nrun nspec]. rewrite ES.
        assert (HND : cinv C (address_in T c) priv base (skey T c) (otkey T c) (pid T c) (sid T c) E v sent (fun q => w (who T c q)) (wire c) (talk_of c evs))
          by (eapply deliver_nothing; exact HG).
        pose proof (nth_rel _ _ _ _ _ j (g_wire _ _ _ _ _ _ _ _ _ _ _ _ _ _ HG (other p))) as HJ.
        destruct (nth_error (wire c (other p)) j) as [k|] eqn:EK; destruct (nth_error (sent (other p)) j) as [[[e m] pt]|] eqn:EN; [|destruct HJ|destruct HJ|].
        2:{ apply IH; [exact HF'|]. intros d Hd. destruct (Nat.eq_dec c d) as [<-|HN].
            - rewrite ES. split; [exact HNB|]. exists priv, base, E. split; [exact HND|exact HR].
            - apply HSkip; [intros D; exact (HN (eq_sym D))|exact Hd]. }
        destruct (real_receive C L (address_in T c) priv base (skey T c) (otkey T c) (pid T c) (sid T c) P1 P3 P2 _ _ _ _ _ _ _ _ _ _ _ _ _ HG HR EK EN) as (o & w' & E1 & HR' & _ & HO).
        rewrite E1.
        assert (HOther : forall d, d <> c -> (d < n)%nat -> tinv (st d) d (upd_nat w (who T c p) w') (wire d) evs).
        { intros d HN Hd. pose proof (receive_frame C _ _ _ _ _ _ E1) as HFr. rewrite (world_of_receive C _ _ _ _ _ _ E1) in HFr |- *.
          eapply (foreign_tinv _ d c p); [exact Hd|exact Hc|exact HN|exact HFr| | | |exact (HI d Hd)].
          - intros i0 Hi0. destruct HJ as [HJ _]. destruct (wire_prekey C _ _ _ _ _ _ _ _ _ HJ Hi0) as [A B]. split; [|exact B]. destruct p; [discriminate A|reflexivity].
          - intros HB. exact HB.
          - symmetry. apply talk_foreign. exact HN. }
        assert (HNext : forall E' v', cinv C (address_in T c) priv base (skey T c) (otkey T c) (pid T c) (sid T c) E' (upd_party v p v') sent (upd_party (fun q => w (who T c q)) p w') (wire c) (talk_of c evs) ->
          nconforms (nrun C T (upd_nat w (who T c p) w') wire evs) (nspec (upd_nat st c (Some (upd_party v p v', sent))) evs)).
        { intros E' v' HG'. apply IH; [exact HF'|]. intros d Hd. destruct (Nat.eq_dec c d) as [<-|HN].
          - rewrite upd_nat_same. split; [exact HNB|]. exists priv, base, E'. split; [apply own_tinv; [exact Hc|exact HG']|apply own_right; [exact Hc|exact HR']].
          - rewrite (upd_nat_diff _ _ c) by exact HN. apply HOther; [intros D; exact (HN (eq_sym D))|exact Hd]. }
        destruct (cdeliver (v p) e m pt) as [[q| |] v'].
        -- destruct HO as (-> & F & HG'). apply NC_plain. exact (HNext _ _ HG').
        -- destruct HO as ((er & ->) & HG'). apply NC_refused. exact (HNext _ _ HG').
        -- destruct HO as [(q & ->)|((er & ->) & HG')]; [apply NC_collision|]. apply NC_forgotten. exact (HNext _ _ HG').
    + assert (HAll : forall d, (d < n)%nat -> tinv (st d) d w (wire d) evs).
      { intros d Hd. destruct (Nat.eq_dec c d) as [<-|HN]; [rewrite ES; exact HIc|apply HSkip; [intros D; exact (HN (eq_sym D))|exact Hd]]. }
      destruct HIc as (HS & HT & HW). destruct x as [p pt|p j g]; cbn [nrun nspec]; rewrite ES.
      * assert (EH : has_session (address_in T c (other p)) (w (who T c p)) = false).
        { unfold has_session. pose proof (st_no_alice _ _ _ _ _ _ _ _ _ HS) as HA. pose proof (st_no_bob _ _ _ _ _ _ _ _ _ HS) as HB. cbn [credulous w_sessions] in HA, HB.
          destruct p; cbn [other]; [rewrite HA|rewrite HB]; reflexivity. }
        rewrite EH. apply IH; [exact HF'|exact HAll].
      * rewrite HW. destruct j; cbn [nth_error]; (apply IH; [exact HF'|exact HAll]).
Qed.
End Many.

Lemma trust_many_start : forall C, crypto_laws C -> forall T n w evs, well_cast C T n (fun j => credulous (w j)) -> fair_all C T n evs ->
  (forall c p, (c < n)%nat -> first_use (w_policy (w (who T c p))) /\ knows_no_other (w (who T c p)) (address_in T c (other p)) (w (who T c (other p)))) ->
  nconforms (nrun C T w (fun _ _ => []) evs) (nspec (fun _ => None) evs).
Proof.
  intros C L T n w evs [H1 H2 H3 H4 H5 H6 H7] HF HU.
  apply (trust_many C L T n H1 H2 H3 H4 H7); [|exact HF|].
  - intros c Hc. destruct (H5 c Hc). repeat split; assumption.
  - intros c Hc. split; [exact (H5 c Hc)|]. split; [intros p; apply HU; exact Hc|reflexivity].
Qed.
