(** ThreadProofs.v: threads for different addresses do not disturb each other (C65). *)
From Verif Require Import Base Labels Crypto Bytehelper Ecc Cbc Keys X3dh Messages SessionState SessionRecord
  SessionBuilder SessionCipher Address World SessionSpec HistoryProofs ConvSpec ThreadSpec MiscProofs.
From Coq Require Import Lia.

Section T.
Context (C : crypto).

(** * A call against a view *)

Lemma seal_map : forall A B (f : A -> B) ok o, seal ok (map_res f o) = map_res f (seal ok o).
Proof. intros A B f [] o; reflexivity. Qed.
Lemma seal_plain : forall ok (o : res (bytes * msg_keys)), plain (seal ok o) = seal ok (plain o).
Proof. intros [] o; reflexivity. Qed.

Lemma call_alone_run : forall a c w, call_alone C a c w =
  let '(o, es) := run_call C (view_of w a) c in let '(w', ok) := commit a es w in (seal ok o, w').
Proof.
  intros a c w. destruct c as [pt|k g|b g]; cbn [call_alone run_call].
  - unfold w_encrypt. destruct (encrypt C (view_of w a) pt) as [[o r] es]. destruct (commit a es w) as [w' ok]. rewrite seal_map. reflexivity.
  - destruct k as [b|b]; cbn [receive].
    + destruct (sig_from_bytes b) as [m| |]; [|reflexivity|reflexivity]. unfold w_decrypt. destruct (decrypt_and_get_key C (view_of w a) m g) as [[[o r] es] g'].
      destruct (commit a es w) as [w' ok]. rewrite seal_plain, seal_map. reflexivity.
    + destruct (pk_from_bytes b) as [m| |]; [|reflexivity|reflexivity]. unfold w_decrypt_message. destruct (decrypt_message C (view_of w a) m g) as [[[o r] es] g'].
      destruct (commit a es w) as [w' ok]. rewrite seal_plain, seal_map. reflexivity.
  - unfold w_process_bundle. destruct (process_bundle C (view_of w a) b g) as [[[o r] es] g']. destruct (commit a es w) as [w' ok]. rewrite seal_map. reflexivity.
Qed.

(** Two views between which a call cannot tell. *)
Definition alike (c : call) (v v' : view) : Prop :=
  v_load v = v_load v' /\ v_contains v = v_contains v' /\ v_identity v = v_identity v' /\ v_reg v = v_reg v' /\
  (forall k, v_trusted v k = v_trusted v' k) /\ (forall i, v_signed v i = v_signed v' i) /\
  (forall i, names c i -> v_prekey v i = v_prekey v' i).

Lemma process_v3_alike : forall v v' r m, v_identity v = v_identity v' -> v_reg v = v_reg v' -> (forall i, v_signed v i = v_signed v' i) ->
  (forall o, pk_prekey_id (pm_struct m) = Some o -> v_prekey v (ou_value o) = v_prekey v' (ou_value o)) ->
  process_v3 C v r m = process_v3 C v' r m.
Proof.
  intros v v' r m H1 H2 H3 H4. unfold process_v3. rewrite H1, H2, H3. destruct (has_session_state _ _ r); [reflexivity|].
  destruct (v_signed v' (pk_signed_id (pm_struct m))); [|reflexivity].
  destruct (pk_prekey_id (pm_struct m)) as [o|]; [rewrite (H4 o eq_refl)|]; reflexivity.
Qed.

Lemma run_call_alike : forall c v v', alike c v v' -> run_call C v c = run_call C v' c.
Proof.
  intros c v v' (H1 & H2 & H3 & H4 & H5 & H6 & H7). destruct c as [pt|[b|b] g|b g]; cbn [run_call].
  - unfold encrypt. rewrite H1. reflexivity.
  - destruct (sig_from_bytes b) as [m| |]; [|reflexivity|reflexivity]. unfold decrypt_and_get_key. rewrite H1, H2. reflexivity.
  - destruct (pk_from_bytes b) as [m| |] eqn:EB; [|reflexivity|reflexivity]. unfold decrypt_message, process. rewrite H1, H5.
    rewrite (process_v3_alike v v'); [reflexivity|exact H3|exact H4|exact H6|]. intros o Ho. apply H7. exists b, g, m, o. auto.
  - unfold process_bundle. rewrite H1, H3, H4, H5. reflexivity.
Qed.

Lemma process_id : forall v r m id r' ef, process C v r m = (Ok id, r', ef) ->
  (forall n, ~ In (RemovePreKey n) ef) /\ (forall o, id = Some o -> ou_empty o = true \/ pk_prekey_id (pm_struct m) = Some o).
Proof.
  intros v r m id r' ef H. unfold process in H. destruct (negb _); [discriminate|].
  destruct (process_v3 C v r m) as [[id0|e|] r1] eqn:E; [|discriminate|discriminate]. injection H as -> <- <-.
  split; [intros n [X|[]]; discriminate|]. intros o ->.
  apply process_v3_cases in E. destruct E as [(_ & [X|(X & _)])|[(X & _)|(signed & otk & keys & _ & _ & _ & _ & X & _)]].
  - destruct (X _ eq_refl).
  - injection X as ->. left. reflexivity.
  - destruct (X _ eq_refl).
  - right. destruct (pk_prekey_id (pm_struct m)) as [oo|]; [|discriminate]. destruct (_ =? _)%N; [discriminate|]. injection X as ->. reflexivity.
Qed.

Lemma run_call_removes : forall v c o es n, run_call C v c = (o, es) -> In (RemovePreKey n) es -> names c n.
Proof.
  intros v c o es n H HI. destruct c as [pt|[b|b] g|b g]; cbn [run_call] in H.
  - destruct (encrypt C v pt) as [[o1 r1] es1] eqn:E. injection H as _ <-. apply encrypt_cases in E.
    destruct E as [(_ & _ & ->)|(sc & body & lid & rid & sm & ct & E)]; [destruct HI|]. cbv zeta in E.
    destruct E as (_ & _ & _ & _ & _ & _ & _ & _ & ->). destruct HI as [HI|[HI|[]]]; discriminate.
  - destruct (sig_from_bytes b) as [m| |]; [|injection H as _ <-; destruct HI|injection H as _ <-; destruct HI].
    destruct (decrypt_and_get_key C v m g) as [[[o1 r1] es1] g1] eqn:E. injection H as _ <-. exfalso. unfold decrypt_and_get_key in E.
    destruct (negb _); [injection E as _ _ <- _; destruct HI|]. destruct (decrypt_with_record C (v_load v) m g) as [[[x|e|] r2] g2];
      [|injection E as _ _ <- _; destruct HI|injection E as _ _ <- _; destruct HI].
    destruct (s_remote_id (r_cur r2)); injection E as _ _ <- _; [|destruct HI]. destruct HI as [HI|[HI|[]]]; discriminate.
  - destruct (pk_from_bytes b) as [m| |] eqn:EB; [|injection H as _ <-; destruct HI|injection H as _ <-; destruct HI].
    destruct (decrypt_message C v m g) as [[[o1 r1] es1] g1] eqn:E. injection H as _ <-. unfold decrypt_message in E.
    destruct (process C v (v_load v) m) as [[[id|e|] r2] ef] eqn:EP.
    + destruct (process_id _ _ _ _ _ _ EP) as [A1 A2].
      destruct (decrypt_with_record C r2 (pm_message m) g) as [[[x|e|] r3] g2].
      * destruct id as [oo|].
        -- injection E as _ _ <- _. apply in_app_or in HI. destruct HI as [HI|HI]; [destruct (A1 n HI)|].
           destruct HI as [HI|HI]; [discriminate|]. destruct (ou_empty oo) eqn:EO; [destruct HI|]. destruct HI as [HI|[]]. injection HI as <-.
           destruct (A2 oo eq_refl) as [X|X]; [rewrite EO in X; discriminate|]. exists b, g, m, oo. auto.
        -- injection E as _ _ <- _. apply in_app_or in HI. destruct HI as [HI|[HI|[]]]; [destruct (A1 n HI)|discriminate].
      * injection E as _ _ <- _. destruct (A1 n HI).
      * injection E as _ _ <- _. destruct (A1 n HI).
    + injection E as _ _ <- _. exfalso. unfold process in EP. destruct (negb _); [injection EP as _ _ <-; destruct HI|].
      destruct (process_v3 C v (v_load v) m) as [[id|e'|] r3]; [discriminate|injection EP as _ _ <-; destruct HI|discriminate].
    + injection E as _ _ <- _. exfalso. unfold process in EP. destruct (negb _); [discriminate|].
      destruct (process_v3 C v (v_load v) m) as [[id|e'|] r3]; [discriminate|discriminate|injection EP as _ <-; destruct HI].
  - destruct (process_bundle C v b g) as [[[o1 r1] es1] g1] eqn:E. injection H as _ <-. apply process_bundle_cases in E.
    destruct E as [(_ & -> & _)|(signed & base & rp & derived & sending & g2 & _ & _ & _ & _ & _ & _ & _ & _ & _ & ->)]; [destruct HI|].
    destruct HI as [HI|[HI|[]]]; discriminate.
Qed.

(** * Worlds that agree on what one thread can see *)

Definition agree (a : address) (P : N -> Prop) (w wg : world) : Prop :=
  w_sessions w a = w_sessions wg a /\ w_saved w a = w_saved wg a /\ (forall i, P i -> w_prekeys w i = w_prekeys wg i) /\
  w_signed w = w_signed wg /\ w_self w = w_self wg /\ w_reg w = w_reg wg /\ w_policy w = w_policy wg.

Lemma agree_refl : forall a P w, agree a P w w.
Proof. intros a P w. repeat split. Qed.

Lemma address_eqb_refl : forall a, address_eqb a a = true.
Proof. intros a. apply address_eqb_eq. reflexivity. Qed.
Lemma address_eqb_neq : forall a b, a <> b -> address_eqb a b = false.
Proof. intros a b H. destruct (address_eqb a b) eqn:E; [|reflexivity]. apply address_eqb_eq in E. destruct (H E). Qed.

(** The write of another thread. *)
Lemma agree_other : forall a b P e w w' wg, a <> b -> (forall n, e = RemovePreKey n -> ~ P n) -> apply_effect b e w = Some w' ->
  agree a P w wg -> agree a P w' wg.
Proof.
  intros a b P e w w' wg Hab Hn H (A1 & A2 & A3 & A4 & A5 & A6 & A7). assert (HE := address_eqb_neq b a (fun E => Hab (eq_sym E))).
  destruct e as [r|k|i]; cbn [apply_effect] in H.
  - destruct (persist r); try discriminate. injection H as <-. repeat split; try assumption. cbn [w_sessions]. unfold upd_addr. rewrite HE. exact A1.
  - injection H as <-. repeat split; try assumption. cbn [w_saved]. unfold upd_addr. rewrite HE. exact A2.
  - injection H as <-. repeat split; try assumption. cbn [w_prekeys]. intros j Hj. unfold upd_id. destruct (i =? j)%N eqn:EI; [|apply A3; exact Hj].
    apply N.eqb_eq in EI. subst j. destruct (Hn i eq_refl Hj).
Qed.

(** The write of the thread itself. *)
Lemma agree_own : forall a P e w wg, agree a P w wg ->
  match apply_effect a e w with
  | Some w' => exists wg', apply_effect a e wg = Some wg' /\ agree a P w' wg'
  | None => apply_effect a e wg = None
  end.
Proof.
  intros a P e w wg (A1 & A2 & A3 & A4 & A5 & A6 & A7). destruct e as [r|k|i]; cbn [apply_effect].
  - destruct (persist r); try reflexivity. eexists. split; [reflexivity|]. repeat split; try assumption. cbn [w_sessions]. unfold upd_addr. rewrite address_eqb_refl. reflexivity.
  - eexists. split; [reflexivity|]. repeat split; try assumption. cbn [w_saved]. unfold upd_addr. rewrite address_eqb_refl. reflexivity.
  - eexists. split; [reflexivity|]. repeat split; try assumption. cbn [w_prekeys]. intros j Hj. unfold upd_id. destruct (i =? j)%N; [reflexivity|apply A3; exact Hj].
Qed.

(** * One thread *)

Definition known {A} (x : option A) (R : A -> Prop) : Prop := forall y, x = Some y -> R y.
Definition captured_ok (a : address) (c : call) (k : captured) (wg : world) : Prop :=
  let v := view_of wg a in
  known (c_session k) (fun r => r = v_load v) /\ known (c_contains k) (fun b => b = v_contains v) /\
  known (c_trust k) (fun f => forall x, f x = v_trusted v x) /\ known (c_signed k) (fun f => forall i, f i = v_signed v i) /\
  known (c_prekey k) (fun f => forall i, names c i -> f i = v_prekey v i).

(** The thread of address [a] with program [prog] has come as far as its run alone, which now is at [wg]. *)
Definition follows (a : address) (prog : list call) (P : N -> Prop) (w0 w : world) (t : thread) : Prop :=
  th_addr t = a /\
  exists done wg, alone C a done w0 = (th_outs t, wg) /\ w_policy wg = w_policy w0 /\
  match th_phase t with
  | Idle => prog = done ++ th_todo t /\ agree a P w wg
  | Reading c k => prog = done ++ c :: th_todo t /\ agree a P w wg /\ captured_ok a c k wg
  | Writing o es => exists c wm wg' ok, prog = done ++ c :: th_todo t /\ commit a es wm = (wg', ok) /\ call_alone C a c wg = (seal ok o, wg') /\
      agree a P w wm /\ w_policy wm = w_policy w0 /\ (forall n, In (RemovePreKey n) es -> names c n)
  end.

Lemma alone_snoc : forall a l c w outs w1, alone C a l w = (outs, w1) ->
  alone C a (l ++ [c]) w = (outs ++ [fst (call_alone C a c w1)], snd (call_alone C a c w1)).
Proof.
  intros a l. induction l as [|d l IH]; intros c w outs w1 H.
  - injection H as <- <-. cbn [app alone]. destruct (call_alone C a c w) as [o w2]. reflexivity.
  - cbn [app alone] in *. destruct (call_alone C a d w) as [o w2]. destruct (alone C a l w2) as [os w3] eqn:E.
    injection H as <- <-. rewrite (IH c w2 os w3 E). reflexivity.
Qed.

Lemma commit_policy : forall a es w w' ok, commit a es w = (w', ok) -> w_policy w' = w_policy w.
Proof.
  intros a es. induction es as [|e es IH]; intros w w' ok H; cbn [commit] in H; [injection H as <- _; reflexivity|].
  destruct (apply_effect a e w) as [w1|] eqn:E; [|injection H as <- _; reflexivity]. rewrite (IH _ _ _ H).
  destruct e as [r|k|i]; cbn [apply_effect] in E; [destruct (persist r); try discriminate|..]; injection E as <-; reflexivity.
Qed.

Lemma known_first : forall A (x : option A) y R, known x R -> R y -> known (first x y) R.
Proof. intros A x y R H1 H2 z. unfold first. destruct x as [u|]; [apply H1|]. intros E. injection E as <-. exact H2. Qed.

Lemma capture_ok : forall a (P : N -> Prop) c f w wg k, local_trust wg -> (forall i, names c i -> P i) -> agree a P w wg -> captured_ok a c k wg ->
  captured_ok a c (capture a f w k) wg.
Proof.
  intros a P c f w wg k HL HP (A1 & A2 & A3 & A4 & A5 & A6 & A7) (B1 & B2 & B3 & B4 & B5). unfold captured_ok, capture. cbv zeta in *.
  cbn [c_session c_contains c_trust c_signed c_prekey]. cbn [view_of v_load v_contains v_trusted v_signed v_prekey] in *.
  split; [destruct f; try exact B1; apply known_first; [exact B1|rewrite A1; reflexivity]|].
  split; [destruct f; try exact B2; apply known_first; [exact B2|rewrite A1; reflexivity]|].
  split; [destruct f; try exact B3; apply known_first; [exact B3|intros x; rewrite A7; apply HL; exact A2]|].
  split; [destruct f; try exact B4; apply known_first; [exact B4|rewrite A4; reflexivity]|].
  destruct f; try exact B5; apply known_first; [exact B5|]. intros i Hi. apply A3, HP, Hi.
Qed.

Lemma advance_follows : forall a prog (P : N -> Prop) w0 w t f w' t', local_trust w0 -> (forall c i, In c prog -> names c i -> P i) ->
  follows a prog P w0 w t -> advance C f w t = (w', t') ->
  follows a prog P w0 w' t' /\
  (w' = w \/ exists e, apply_effect a e w = Some w' /\ forall n, e = RemovePreKey n -> exists c, In c prog /\ names c n).
Proof.
  intros a prog P w0 w t f w' t' HL HP (Ha & done & wg & H1 & Hpol & H2) H. unfold advance in H. destruct (th_phase t) as [|c k|o es] eqn:EP.
  - destruct H2 as [H2 H3]. destruct (th_todo t) as [|c rest] eqn:ET.
    + injection H as <- <-. split; [|left; reflexivity]. split; [exact Ha|]. exists done, wg. rewrite EP, ET. auto.
    + injection H as <- <-. split; [|left; reflexivity]. split; [exact Ha|]. exists done, wg. cbn [th_outs th_phase th_todo].
      split; [exact H1|]. split; [exact Hpol|]. split; [exact H2|]. split; [exact H3|]. repeat split; intros y Y; discriminate Y.
  - destruct H2 as (H2 & H3 & H4). assert (HLg : local_trust wg) by (unfold local_trust in *; rewrite Hpol; exact HL).
    assert (HPc : forall i, names c i -> P i) by (intros i; apply HP; rewrite H2; apply in_or_app; right; left; reflexivity).
    assert (HCap : follows a prog P w0 w {| th_addr := th_addr t; th_todo := th_todo t; th_phase := Reading c (capture (th_addr t) f w k); th_outs := th_outs t |}).
    { split; [exact Ha|]. exists done, wg. cbn [th_outs th_phase th_todo]. split; [exact H1|]. split; [exact Hpol|]. split; [exact H2|]. split; [exact H3|].
      rewrite Ha. eapply capture_ok; eassumption. }
    destruct (c_session k) as [r|] eqn:K1; [|injection H as <- <-; split; [exact HCap|left; reflexivity]].
    destruct (c_contains k) as [b|] eqn:K2; [|injection H as <- <-; split; [exact HCap|left; reflexivity]].
    destruct (c_trust k) as [tr|] eqn:K3; [|injection H as <- <-; split; [exact HCap|left; reflexivity]].
    destruct (c_signed k) as [sg|] eqn:K4; [|injection H as <- <-; split; [exact HCap|left; reflexivity]].
    destruct (c_prekey k) as [pk|] eqn:K5; [|injection H as <- <-; split; [exact HCap|left; reflexivity]].
    destruct H4 as (B1 & B2 & B3 & B4 & B5). rewrite K1 in B1. rewrite K2 in B2. rewrite K3 in B3. rewrite K4 in B4. rewrite K5 in B5.
    rewrite (run_call_alike c _ (view_of wg a)) in H.
    2: { destruct H3 as (A1 & A2 & A3 & A4 & A5 & A6 & A7). split; [exact (B1 _ eq_refl)|]. split; [exact (B2 _ eq_refl)|].
         split; [exact A5|]. split; [exact A6|]. split; [exact (B3 _ eq_refl)|]. split; [exact (B4 _ eq_refl)|exact (B5 _ eq_refl)]. }
    destruct (run_call C (view_of wg a) c) as [o es] eqn:ER. injection H as <- <-. split; [|left; reflexivity]. split; [exact Ha|].
    exists done, wg. cbn [th_outs th_phase th_todo]. split; [exact H1|]. split; [exact Hpol|].
    destruct (commit a es wg) as [wg' ok] eqn:EC. exists c, wg, wg', ok. split; [exact H2|]. split; [exact EC|].
    split; [rewrite call_alone_run, ER, EC; reflexivity|]. split; [exact H3|]. split; [exact Hpol|]. intros n Hn. eapply run_call_removes; eassumption.
  - destruct H2 as (c & wm & wg' & ok & H2 & H3 & H4 & H5 & H6 & H7). destruct es as [|e es].
    + injection H as <- <-. split; [|left; reflexivity]. split; [exact Ha|]. cbn [th_outs th_phase th_todo]. injection H3 as <- <-. cbn [seal] in H4.
      exists (done ++ [c]), wm. split; [rewrite (alone_snoc _ _ c _ _ _ H1), H4; reflexivity|]. split; [exact H6|].
      split; [rewrite <- app_assoc; exact H2|exact H5].
    + rewrite Ha in H. pose proof (agree_own a P e w wm H5) as HO. cbn [commit] in H3. destruct (apply_effect a e w) as [w1|] eqn:EA.
      * destruct HO as (wm' & HO1 & HO2). injection H as <- <-. rewrite HO1 in H3. split.
        -- split; [reflexivity|]. cbn [th_outs th_phase th_todo]. exists done, wg. split; [exact H1|]. split; [exact Hpol|].
           exists c, wm', wg', ok. split; [exact H2|]. split; [exact H3|]. split; [exact H4|]. split; [exact HO2|].
           split; [|intros n Hn; apply H7; right; exact Hn]. rewrite <- H6. apply (commit_policy a [e] wm wm' true). cbn [commit]. rewrite HO1. reflexivity.
        -- right. exists e. split; [exact EA|]. intros n ->. exists c. split; [rewrite H2; apply in_or_app; right; left; reflexivity|]. apply H7. left. reflexivity.
      * rewrite HO in H3. injection H3 as <- <-. injection H as <- <-. split; [|left; reflexivity]. split; [reflexivity|].
        cbn [th_outs th_phase th_todo]. exists done, wg. split; [exact H1|]. split; [exact Hpol|]. exists c, wm, wm, true.
        split; [exact H2|]. split; [reflexivity|]. split; [exact H4|]. split; [exact H5|]. split; [exact H6|]. intros n [].
Qed.

Lemma follows_other : forall a prog P w0 w t b e w', a <> b -> (forall n, e = RemovePreKey n -> ~ P n) -> apply_effect b e w = Some w' ->
  follows a prog P w0 w t -> follows a prog P w0 w' t.
Proof.
  intros a prog P w0 w t b e w' Hab Hn He (Ha & done & wg & H1 & Hpol & H2). split; [exact Ha|]. exists done, wg. split; [exact H1|]. split; [exact Hpol|].
  destruct (th_phase t) as [|c k|o es].
  - destruct H2 as [H2 H3]. split; [exact H2|]. eapply agree_other; eassumption.
  - destruct H2 as (H2 & H3 & H4). split; [exact H2|]. split; [eapply agree_other; eassumption|exact H4].
  - destruct H2 as (c & wm & wg' & ok & H2 & H3 & H4 & H5 & H6 & H7). exists c, wm, wg', ok. repeat split; try assumption; eapply agree_other; eassumption.
Qed.

(** * All threads *)

Lemma nth_replace : forall A i j (x : A) l y, nth_error l i = Some y -> nth_error (replace i x l) j = if Nat.eqb i j then Some x else nth_error l j.
Proof.
  intros A i. induction i as [|i IH]; intros j x l y H; destruct l as [|z l]; try discriminate.
  - destruct j; reflexivity.
  - destruct j; [reflexivity|]. cbn [replace nth_error Nat.eqb]. exact (IH j x l y H).
Qed.

Lemma interleave_follows : forall sched ps w0 w ts w' ts', local_trust w0 -> apart ps ->
  (forall i t, nth_error ts i = Some t -> exists p, nth_error ps i = Some p /\ follows (fst p) (snd p) (uses (snd p)) w0 w t) ->
  interleave C sched w ts = (w', ts') ->
  forall i t, nth_error ts' i = Some t -> exists p, nth_error ps i = Some p /\ follows (fst p) (snd p) (uses (snd p)) w0 w' t.
Proof.
  intros sched. induction sched as [|[i f] sched IH]; intros ps w0 w ts w' ts' HL HA HI H.
  - injection H as <- <-. exact HI.
  - cbn [interleave] in H. destruct (nth_error ts i) as [t|] eqn:EI; [|eapply IH; eassumption].
    destruct (advance C f w t) as [w1 t1] eqn:EA. eapply IH; [exact HL|exact HA| |exact H]. clear IH H.
    destruct (HI i t EI) as (p & Ep & HF).
    destruct (advance_follows _ _ _ _ _ _ _ _ _ HL (fun c n X Y => ex_intro _ c (conj X Y)) HF EA) as [HF1 HW].
    intros j u Hj. rewrite (nth_replace _ i j t1 ts t EI) in Hj. destruct (Nat.eqb_spec i j) as [<-|Hij].
    + injection Hj as <-. exists p. split; assumption.
    + destruct (HI j u Hj) as (q & Eq & HFq). exists q. split; [exact Eq|]. destruct HW as [->|(e & He & Hrm)]; [exact HFq|].
      destruct (HA j i q p (fun E => Hij (eq_sym E)) Eq Ep) as [N1 N2]. eapply follows_other; [exact N1| |exact He|exact HFq].
      intros n -> (d & Hd & Hd'). destruct (Hrm n eq_refl) as (c & Hc & Hc'). exact (N2 d c n Hd Hc Hd' Hc').
Qed.

Lemma nth_launch : forall ps i t, nth_error (map launch ps) i = Some t -> exists p, nth_error ps i = Some p /\ t = launch p.
Proof.
  intros ps. induction ps as [|p ps IH]; intros i t H; [destruct i; discriminate|]. destruct i as [|i]; [injection H as <-; exists p; split; reflexivity|].
  exact (IH i t H).
Qed.

Lemma interleaved : forall sched ps w0 w ts i t, local_trust w0 -> apart ps -> interleave C sched w0 (map launch ps) = (w, ts) ->
  nth_error ts i = Some t -> exists p, nth_error ps i = Some p /\ follows (fst p) (snd p) (uses (snd p)) w0 w t.
Proof.
  intros sched ps w0 w ts i t HL HA H Hi. eapply (interleave_follows sched ps w0 w0 (map launch ps) w ts HL HA); [|exact H|exact Hi].
  intros j u Hj. destruct (nth_launch ps j u Hj) as (p & Ep & ->). exists p. split; [exact Ep|]. split; [reflexivity|].
  exists [], w0. cbn [launch th_outs th_phase th_todo alone]. split; [reflexivity|]. split; [reflexivity|]. split; [reflexivity|apply agree_refl].
Qed.

Lemma alone_app : forall a l1 l2 w, alone C a (l1 ++ l2) w =
  let '(o1, w1) := alone C a l1 w in let '(o2, w2) := alone C a l2 w1 in (o1 ++ o2, w2).
Proof.
  intros a l1. induction l1 as [|c l1 IH]; intros l2 w; cbn [app alone].
  - destruct (alone C a l2 w). reflexivity.
  - destruct (call_alone C a c w) as [o w1]. rewrite IH. destruct (alone C a l1 w1) as [o1 w2]. destruct (alone C a l2 w2) as [o2 w3]. reflexivity.
Qed.
End T.
