(** GroupCutProofs.v: the group conversation of C66 with calls that die (C82). *)
From Verif Require Import Base Labels Crypto Bytehelper Ecc Cbc Messages SessionState Group Address GroupSpec GroupStoreSpec GroupConvSpec GroupThreadSpec GroupCutSpec
  GroupProofs GroupProofs2 GroupConvProofs.
From Coq Require Import Lia ZifyBool ZifyN ZifyNat.

Section Cut.
Context (C : crypto) (L : crypto_laws C) (addr : nat -> address) (Hinj : forall i j, addr i = addr j -> i = j).
Notation inv := (inv C addr).
Notation write := (write addr).

(** * One call *)

Lemma one_write : forall f st, exists es, snd (greact C f st) = es /\ (es = [] \/ exists r, es = [StoreSenderKey r]) /\
  match f with CDecrypt m => es <> [] <-> exists pt, fst (gw_decrypt C m st) = Ok pt | _ => True end.
Proof.
  intros f st. eexists. split; [reflexivity|]. destruct f as [pt g|m|d|g]; cbn [greact].
  - split; [|exact I]. unfold group_encrypt. destruct st as [r|]; [|left; reflexivity]. destruct (g_first r); [|left; reflexivity|left; reflexivity].
    destruct (g_message_key C _); [|left; reflexivity|left; reflexivity]. destruct (encrypt_cbc C _ _ _); [|left; reflexivity|left; reflexivity].
    destruct (new_sender_key_message C _ _ _ _ _) as [[m|e|] g1]; cbn [snd]; [right; eexists; reflexivity|left; reflexivity|left; reflexivity].
  - unfold gw_decrypt. destruct (group_decrypt C st m) as [[[o m'] r'] es] eqn:E. cbn [fst snd]. unfold group_decrypt in E.
    assert (HN : forall o', (o', es) = (o, es) -> es = [] -> (forall pt, o' <> Ok pt) ->
      (es = [] \/ exists r, es = [StoreSenderKey r]) /\ (es <> [] <-> exists pt, o = Ok pt)).
    { intros o' HO -> HF. apply (f_equal fst) in HO. cbn [fst] in HO. subst o'. split; [left; reflexivity|]. split; [intros X; exfalso; exact (X eq_refl)|intros (pt & ->); exfalso; exact (HF pt eq_refl)]. }
    assert (HX : forall o' m1 r1 es', (o', m1, r1, es') = (o, m', r', es) -> es' = [] -> (forall pt, o' <> Ok pt) ->
      (es = [] \/ exists r, es = [StoreSenderKey r]) /\ (es <> [] <-> exists pt, o = Ok pt)).
    { intros o' m1 r1 es' HE H1 H2. apply (HN o'); [|congruence|exact H2]. f_equal. congruence. }
    destruct st as [[|s0 rest]|]; [eapply HX; [exact E|reflexivity|discriminate]| |eapply HX; [exact E|reflexivity|discriminate]].
    destruct (g_by_id (km_id m) (s0 :: rest)) as [s| |]; [|eapply HX; [exact E|reflexivity|discriminate]|eapply HX; [exact E|reflexivity|discriminate]].
    destruct (negb _); [eapply HX; [exact E|reflexivity|discriminate]|].
    destruct (g_get_key C s (km_iter m)) as [[k| |] s']; [|eapply HX; [exact E|reflexivity|discriminate]|eapply HX; [exact E|reflexivity|discriminate]].
    destruct (decrypt_cbc_full C _ _ _) as [[pt| |] ct']; [|eapply HX; [exact E|reflexivity|discriminate]|eapply HX; [exact E|reflexivity|discriminate]].
    assert (Ho : o = Ok pt) by congruence. assert (He : exists r, es = [StoreSenderKey r]) by (eexists; symmetry; exact (f_equal snd E)).
    destruct He as (r & ->). split; [right; exists r; reflexivity|]. split; [intros _; exists pt; exact Ho|discriminate].
  - split; [|exact I]. right. eexists. reflexivity.
  - split; [|exact I]. unfold group_create. destruct (g_is_empty st).
    + destruct (generate_key_pair C g) as [[p|e|] g1]; [|left; reflexivity|left; reflexivity].
      destruct (generate_registration_id g1) as [id g2]. destruct (generate_sender_key g2) as [key g3]. cbn [g_set_state g_first snd]. right. eexists. reflexivity.
    + destruct st as [r|]; [|left; reflexivity]. destruct (g_first r); left; reflexivity.
Qed.

(** Dying before the write, or after it. *)
Lemma cut_zero : forall j c f n, cut_at C addr j c f 0 n = (false, write j c (n_store n j (name_of addr c)) n).
Proof. reflexivity. Qed.
Lemma cut_late : forall j c f k n, snd (cut_at C addr j c f (S k) n) = write j c (snd (gcall_run C f (n_store n j (name_of addr c)))) n.
Proof.
  intros j c f k n. unfold cut_at. destruct (one_write f (n_store n j (name_of addr c))) as (es & E & H & _). cbn [snd]. f_equal.
  assert (HF : firstn (S k) (snd (greact C f (n_store n j (name_of addr c)))) = snd (greact C f (n_store n j (name_of addr c)))).
  { rewrite E. destruct H as [->|(r & ->)]; [reflexivity|]. cbn [firstn]. rewrite firstn_nil. reflexivity. }
  rewrite HF. clear. destruct f as [pt g|m|d|g]; cbn [gcall_run greact].
  - unfold gw_encrypt. destruct (group_encrypt C _ pt g) as [[[o r] es] g']. reflexivity.
  - unfold gw_decrypt. destruct (group_decrypt C _ m) as [[[o m'] r] es]. reflexivity.
  - unfold gw_process. destruct (group_process _ d) as [r es]. reflexivity.
  - unfold gw_create. destruct (group_create C _ g) as [[[o r] es] g']. reflexivity.
Qed.
Lemma cut_stored : forall j c m k n,
  fst (cut_at C addr j c (CDecrypt m) (S k) n) = match fst (gw_decrypt C m (n_store n j (name_of addr c))) with Ok _ => true | _ => false end.
Proof.
  intros j c m k n. unfold cut_at. destruct (one_write (CDecrypt m) (n_store n j (name_of addr c))) as (es & E & H & HD). cbn [fst]. rewrite E.
  destruct H as [->|(r & ->)].
  - cbn [firstn]. destruct (fst (gw_decrypt C m _)) as [pt|e|] eqn:EG; [|reflexivity|reflexivity]. exfalso. apply (proj2 HD); [exists pt; reflexivity|reflexivity].
  - destruct (proj1 HD) as (pt & ->); [discriminate|]. reflexivity.
Qed.

(** * The network next to one in which every message reaches the wire *)

Definition rel (x n : network) (m : gxview) : Prop :=
  n_store x = n_store n /\
  (forall c, Forall2 (fun b i => nth_error (n_wire n c) i = Some b) (n_wire x c) (gx_sent m c)) /\
  (forall c, Forall2 (fun b i => nth_error (n_dist n c) i = Some b) (n_dist x c) (gx_handed m c)).

Lemma rel_write : forall x n m j c v, rel x n m -> rel (write j c v x) (write j c v n) m.
Proof. intros x n m j c v (R1 & R2 & R3). split; [cbn [GroupConvSpec.write n_store]; rewrite R1; reflexivity|]. split; assumption. Qed.
Lemma rel_move : forall x n m e, rel x n m -> rel x n (gx_move e m).
Proof. intros x n m e H. exact H. Qed.

Lemma forall2_more : forall (l : list bytes) (l1 l2 : list bytes) (is : list nat),
  Forall2 (fun b i => nth_error l i = Some b) l1 is -> Forall2 (fun b i => nth_error (l ++ l2) i = Some b) l1 is.
Proof.
  intros l l1 l2 is H. induction H; constructor; auto. rewrite nth_error_app1; [assumption|]. apply nth_error_Some. congruence.
Qed.
Lemma put_cases : forall {V} c (v : V) f c', (c = c' /\ put channel_eqb c v f c' = v) \/ (c <> c' /\ put channel_eqb c v f c' = f c').
Proof.
  intros V c v f c'. unfold put. destruct (channel_eqb c c') eqn:E; [left|right].
  - split; [apply channel_eqb_eq; exact E|reflexivity].
  - split; [intros ->; rewrite (proj2 (channel_eqb_eq c' c') eq_refl) in E; discriminate|reflexivity].
Qed.
Lemma rel_lost : forall x n m c b, rel x n m -> rel x (post c b n) m.
Proof.
  intros x n m c b (R1 & R2 & R3). split; [exact R1|]. split; [|exact R3]. intros c'. cbn [post n_wire].
  destruct (put_cases c (n_wire n c ++ [b]) (n_wire n) c') as [[<- ->]|[_ ->]]; [apply forall2_more|]; apply R2.
Qed.
Lemma rel_post : forall x n m c b, rel x n m -> rel (post c b x) (post c b n) (gx_post c (length (n_wire n c)) m).
Proof.
  intros x n m c b (R1 & R2 & R3). split; [exact R1|]. split; [|exact R3]. intros c'. cbn [post n_wire gx_post gx_sent]. unfold put.
  destruct (channel_eqb c c') eqn:E; [|apply R2]. apply Forall2_app; [apply forall2_more; apply R2|]. constructor; [|constructor].
  rewrite nth_error_app2 by lia. rewrite Nat.sub_diag. reflexivity.
Qed.
Lemma rel_unhanded : forall x n m c b, rel x n m -> rel x (hand_out c b n) m.
Proof.
  intros x n m c b (R1 & R2 & R3). split; [exact R1|]. split; [exact R2|]. intros c'. cbn [hand_out n_dist].
  destruct (put_cases c (n_dist n c ++ [b]) (n_dist n) c') as [[<- ->]|[_ ->]]; [apply forall2_more|]; apply R3.
Qed.
Lemma rel_hand : forall x n m c b, rel x n m -> rel (hand_out c b x) (hand_out c b n) (gx_hand c (length (n_dist n c)) m).
Proof.
  intros x n m c b (R1 & R2 & R3). split; [exact R1|]. split; [exact R2|]. intros c'. cbn [hand_out n_dist gx_hand gx_handed]. unfold put.
  destruct (channel_eqb c c') eqn:E; [|apply R3]. apply Forall2_app; [apply forall2_more; apply R3|]. constructor; [|constructor].
  rewrite nth_error_app2 by lia. rewrite Nat.sub_diag. reflexivity.
Qed.

Lemma forall2_nth : forall (l : list bytes) (l1 : list bytes) (is : list nat) k, Forall2 (fun b i => nth_error l i = Some b) l1 is ->
  (nth_error l1 k = None /\ nth_error is k = None) \/ exists b i, nth_error l1 k = Some b /\ nth_error is k = Some i /\ nth_error l i = Some b.
Proof.
  intros l l1 is k H. revert k. induction H; intros k; [left; destruct k; split; reflexivity|].
  destruct k as [|k]; cbn [nth_error]; [right; eexists _, _; split; [reflexivity|split; [reflexivity|assumption]]|apply IHForall2].
Qed.

Lemma wire_len : forall joins n m c, inv joins n m -> length (n_wire n c) = length (cv_sent (m c)) /\ length (n_dist n c) = length (cv_dist (m c)).
Proof.
  intros joins n m c HI. destruct (HI c) as [(EX & EW & ED & H)|(ck0 & s & rest & seed & H0 & H1 & H2 & H3 & H4 & H5 & H6 & HK & H7 & H8 & H9 & _)].
  - rewrite EX, EW, ED. split; reflexivity.
  - split; assumption.
Qed.

(** * One event *)

Definition fine (x n : network) (joins : nat) (m' : gxview) (o : list moutcome) (xs : list gxexpected) : Prop :=
  Forall2 gxmeets o xs /\ inv joins n (gx_chan m') /\ rel x n m'.

Lemma meets_xe : forall o xs, Forall2 meets o xs -> Forall2 gxmeets (map MReturned o) (map XE xs).
Proof. intros o xs H. induction H; constructor; assumption. Qed.

Lemma no_injected : forall c j i m, ~ In EInjected (fst (rstep (MDeliver c j i) m)).
Proof.
  intros c j i m. cbn [rstep]. destruct (nth_error (cv_sent (m c)) i); [|intros []]. destruct (cv_view (m c) j); [|intros [D|[]]; discriminate D].
  destruct (gaccept _ _); intros [D|[]]; discriminate D.
Qed.

Lemma gx_step : forall ev joins x n m, inv joins n (gx_chan m) -> rel x n m -> (joins + joins_in [gevent_of ev] < 2000)%nat ->
  (forall c, (N.of_nat (length (cv_sent (gx_chan m c))) < u32_modulus)%N) -> proper C (gevent_of ev) ->
  exists o x', gxstep C addr ev x = (o, x') /\
    ((exists n', fine x' n' (joins + joins_in [gevent_of ev]) (snd (gxrstep ev m)) o (fst (gxrstep ev m))) \/
     (exists pt, o = [MReturned (Ok pt)] /\ fst (gxrstep ev m) = [XE EInjected]) \/
     (o = [MDied true] /\ fst (gxrstep ev m) = [XInjected])).
Proof.
  intros ev joins x n m HI HR HJ HB HP.
  assert (HST : forall j c, n_store x j (name_of addr c) = n_store n j (name_of addr c)) by (intros j c; rewrite (proj1 HR); reflexivity).
  assert (HID : forall j c, fine (write j c (n_store x j (name_of addr c)) x) (write j c (n_store n j (name_of addr c)) n) joins m [] []).
  { intros j c. split; [constructor|]. split; [apply inv_write_id; [exact Hinj|exact HI]|]. rewrite HST. apply rel_write. exact HR. }
  destruct ev as [e|e k]; cbn [gevent_of] in *.
  - destruct e as [c g|c j i|c pt g|c j i|c j b]; cbn [gxstep gxrstep].
    + destruct (step_create C L addr Hinj joins n (gx_chan m) c g HI (HB c) HP) as (n' & E & HI'). cbn [mstep] in E |- *. rewrite HST.
      destruct (gw_create C g (n_store n (snd c) (name_of addr c))) as [[d|e|] st]; [|discriminate (f_equal fst E)|discriminate (f_equal fst E)].
      eexists _, _. split; [reflexivity|]. left. exists n'. change (joins_in [MCreate c g]) with 0%nat. rewrite Nat.add_0_r. cbn [fst snd].
      split; [constructor|]. split; [exact HI'|]. rewrite <- (proj2 (wire_len joins n _ c HI)).
      assert (En : n' = hand_out c (skd_bytes d) (write (snd c) c st n)) by (symmetry; exact (f_equal snd E)). subst n'.
      change (length (n_dist n c)) with (length (n_dist (write (snd c) c st n) c)). apply (rel_hand (write (snd c) c st x) (write (snd c) c st n) (gx_move (MCreate c g) m)).
      apply rel_write. exact HR.
    + change (joins_in [MJoin c j i]) with 1%nat in *.
      destruct (forall2_nth _ _ _ i (proj2 (proj2 HR) c)) as [[E1 E2]|(b & i' & E1 & E2 & E3)].
      * cbn [mstep]. rewrite E1, E2. eexists _, _. split; [reflexivity|]. left. exists n. split; [constructor|]. split; [|exact HR].
        eapply inv_keep; [exact Hinj|exact HI|lia|]. intros c'. repeat split.
      * destruct (step_join C addr Hinj joins n (gx_chan m) c j i' HI) as (n' & E & HI' & HX); [unfold max_group_keys; lia|apply HB|].
        cbn [mstep] in E |- *. rewrite E1. rewrite E3 in E. rewrite E2. cbn [fst snd]. destruct (skd_from_bytes b) as [d|e|]; [|discriminate (f_equal fst E)|discriminate (f_equal fst E)].
        rewrite HST. eexists _, _. split; [reflexivity|]. left. exists n'. split; [constructor|]. replace (joins + 1)%nat with (S joins) by lia. split; [exact HI'|].
        assert (En : n' = write j c (gw_process d (n_store n j (name_of addr c))) n) by (symmetry; exact (f_equal snd E)). subst n'. apply rel_move. apply rel_write. exact HR.
    + change (joins_in [MSend c pt g]) with 0%nat in *. rewrite Nat.add_0_r in *.
      destruct (step_send C L addr Hinj joins n (gx_chan m) c pt g HI (HB c) HP) as (o & n' & E & HM & HI'). cbn [mstep] in E |- *. rewrite HST.
      cbn [rstep] in HM, HI'. destruct (cv_view (gx_chan m c) (snd c)) as [v|] eqn:EV; cbn [fst snd] in HM, HI'.
      * inversion HM; subst o. destruct (gw_encrypt C pt g (n_store n (snd c) (name_of addr c))) as [[ms|e|] st]; [|discriminate (f_equal fst E)|discriminate (f_equal fst E)].
        eexists _, _. split; [reflexivity|]. left. exists n'. cbn [fst snd]. split; [constructor|]. split; [cbn [gx_post gx_move gx_chan rstep]; rewrite EV; exact HI'|].
        assert (En : n' = post c (skm_signed ms) (write (snd c) c st n)) by (symmetry; exact (f_equal snd E)). subst n'.
        rewrite <- (proj1 (wire_len joins n _ c HI)). change (length (n_wire n c)) with (length (n_wire (write (snd c) c st n) c)).
        apply (rel_post (write (snd c) c st x) (write (snd c) c st n) (gx_move (MSend c pt g) m)). apply rel_write. exact HR.
      * inversion HM as [|o1 x1 o2 x2 M1 M2]; subst. inversion M2; subst. cbn [meets] in M1. subst o1.
        destruct (gw_encrypt C pt g (n_store n (snd c) (name_of addr c))) as [[ms|e|] st]; [discriminate (f_equal fst E)|discriminate (f_equal fst E)|].
        eexists _, _. split; [reflexivity|]. left. exists n'. cbn [fst snd map]. split; [constructor; [reflexivity|constructor]|]. split; [exact HI'|].
        assert (En : n' = write (snd c) c st n) by (symmetry; exact (f_equal snd E)). subst n'. apply rel_write. exact HR.
    + change (joins_in [MDeliver c j i]) with 0%nat in *. rewrite Nat.add_0_r in *.
      destruct (forall2_nth _ _ _ i (proj1 (proj2 HR) c)) as [[E1 E2]|(b & i' & E1 & E2 & E3)].
      * cbn [mstep]. rewrite E1, E2. eexists _, _. split; [reflexivity|]. left. exists n. split; [constructor|]. split; [exact HI|exact HR].
      * destruct (step_deliver C L addr Hinj joins n (gx_chan m) c j i' HI (HB c)) as (o & n' & E & HM & HI').
        cbn [mstep] in E |- *. rewrite E1, E2. rewrite E3 in E. unfold mdecrypt in *. cbn [fst snd].
        assert (HX : exists x', mstep C addr (MDeliver c j i) x = (o, x') /\ rel x' n' m).
        { cbn [mstep]. rewrite E1. unfold mdecrypt. destruct (skm_from_bytes b) as [ms|e|].
          - rewrite HST. destruct (gw_decrypt C ms (n_store n j (name_of addr c))) as [q st]. exists (write j c st x).
            assert (Eo : o = [q]) by (symmetry; exact (f_equal fst E)). assert (En : n' = write j c st n) by (symmetry; exact (f_equal snd E)). subst o n'.
            split; [reflexivity|]. apply rel_write. exact HR.
          - exists x. assert (Eo : o = [Err e]) by (symmetry; exact (f_equal fst E)). assert (En : n' = n) by (symmetry; exact (f_equal snd E)). subst o n'. split; [reflexivity|exact HR].
          - exists x. assert (Eo : o = [Panic]) by (symmetry; exact (f_equal fst E)). assert (En : n' = n) by (symmetry; exact (f_equal snd E)). subst o n'. split; [reflexivity|exact HR]. }
        destruct HX as (x' & EX & HR'). cbn [mstep] in EX. rewrite E1 in EX. unfold mdecrypt in EX. rewrite EX. eexists _, _. split; [reflexivity|]. left. exists n'.
        split; [apply meets_xe; exact HM|]. split; [exact HI'|exact HR'].
    + change (joins_in [MInject c j b]) with 0%nat in *. rewrite Nat.add_0_r in *.
      destruct (step_inject C addr Hinj joins n (gx_chan m) c j b HI) as (o & n' & E & HO).
      assert (HX : exists x', mstep C addr (MInject c j b) x = ([o], x') /\ rel x' n' m).
      { cbn [mstep] in E |- *. unfold mdecrypt in *. destruct (skm_from_bytes b) as [ms|e|].
        - rewrite HST. destruct (gw_decrypt C ms (n_store n j (name_of addr c))) as [q st]. exists (write j c st x).
          assert (Eo : [o] = [q]) by (symmetry; exact (f_equal fst E)). assert (En : n' = write j c st n) by (symmetry; exact (f_equal snd E)). rewrite Eo. subst n'.
          split; [reflexivity|]. apply rel_write. exact HR.
        - exists x. assert (Eo : [o] = [Err e]) by (symmetry; exact (f_equal fst E)). assert (En : n' = n) by (symmetry; exact (f_equal snd E)). rewrite Eo. subst n'. split; [reflexivity|exact HR].
        - exists x. assert (Eo : [o] = [Panic]) by (symmetry; exact (f_equal fst E)). assert (En : n' = n) by (symmetry; exact (f_equal snd E)). rewrite Eo. subst n'. split; [reflexivity|exact HR]. }
      destruct HX as (x' & EX & HR'). rewrite EX. eexists _, _. split; [reflexivity|]. cbn [map fst snd]. destruct HO as [(pt & ->)|[HN HI']].
      * right. left. exists pt. split; reflexivity.
      * left. exists n'. split; [constructor; [exact HN|constructor]|]. split; [exact HI'|exact HR'].
  - destruct e as [c g|c j i|c pt g|c j i|c j b]; cbn [gxstep gxrstep].
    + change (joins_in [MCreate c g]) with 0%nat in *. rewrite Nat.add_0_r in *. destruct k as [|k]; cbn [fst snd].
      * rewrite cut_zero. eexists _, _. split; [reflexivity|]. left. eexists. apply HID.
      * rewrite cut_late, HST. cbn [gcall_run]. destruct (step_create C L addr Hinj joins n (gx_chan m) c g HI (HB c) HP) as (n' & E & HI'). cbn [mstep] in E.
        destruct (gw_create C g (n_store n (snd c) (name_of addr c))) as [[d|e|] st]; [|discriminate (f_equal fst E)|discriminate (f_equal fst E)].
        eexists _, _. split; [reflexivity|]. left. exists n'. split; [constructor|]. split; [exact HI'|].
        assert (En : n' = hand_out c (skd_bytes d) (write (snd c) c st n)) by (symmetry; exact (f_equal snd E)). subst n'. apply rel_unhanded. apply rel_move. apply rel_write. exact HR.
    + change (joins_in [MJoin c j i]) with 1%nat in *.
      assert (HI1 : inv (joins + 1) n (gx_chan m)) by (eapply inv_keep; [exact Hinj|exact HI|lia|]; intros c'; repeat split).
      destruct (forall2_nth _ _ _ i (proj2 (proj2 HR) c)) as [[E1 E2]|(b & i' & E1 & E2 & E3)].
      * rewrite E1, E2. eexists _, _. split; [reflexivity|]. left. exists n. destruct k; (split; [constructor|]; split; [exact HI1|exact HR]).
      * destruct (step_join C addr Hinj joins n (gx_chan m) c j i' HI) as (n' & E & HI' & HX); [unfold max_group_keys; lia|apply HB|].
        rewrite E1, E2. cbn [mstep] in E. rewrite E3 in E. destruct (skd_from_bytes b) as [d|e|]; [|discriminate (f_equal fst E)|discriminate (f_equal fst E)].
        destruct k as [|k]; cbn [fst snd].
        -- rewrite cut_zero. eexists _, _. split; [reflexivity|]. left. exists (write j c (n_store n j (name_of addr c)) n). split; [constructor|].
           split; [apply inv_write_id; [exact Hinj|exact HI1]|]. cbn [snd]. rewrite HST. apply rel_write. exact HR.
        -- rewrite cut_late, HST. cbn [gcall_run snd]. eexists _, _. split; [reflexivity|]. left. exists n'. split; [constructor|]. replace (joins + 1)%nat with (S joins) by lia. split; [exact HI'|].
           assert (En : n' = write j c (gw_process d (n_store n j (name_of addr c))) n) by (symmetry; exact (f_equal snd E)). subst n'. apply rel_move. apply rel_write. exact HR.
    + change (joins_in [MSend c pt g]) with 0%nat in *. rewrite Nat.add_0_r in *. destruct k as [|k]; cbn [fst snd].
      * rewrite cut_zero. eexists _, _. split; [reflexivity|]. left. eexists. apply HID.
      * rewrite cut_late, HST. cbn [gcall_run]. destruct (step_send C L addr Hinj joins n (gx_chan m) c pt g HI (HB c) HP) as (o & n' & E & HM & HI'). cbn [mstep] in E.
        destruct (gw_encrypt C pt g (n_store n (snd c) (name_of addr c))) as [[ms|e|] st]; (eexists _, _; split; [reflexivity|]; left; exists n'; split; [constructor|]; split; [exact HI'|]).
        -- assert (En : n' = post c (skm_signed ms) (write (snd c) c st n)) by (symmetry; exact (f_equal snd E)). subst n'. apply rel_lost. apply rel_move. apply rel_write. exact HR.
        -- assert (En : n' = write (snd c) c st n) by (symmetry; exact (f_equal snd E)). subst n'. apply rel_move. apply rel_write. exact HR.
        -- assert (En : n' = write (snd c) c st n) by (symmetry; exact (f_equal snd E)). subst n'. apply rel_move. apply rel_write. exact HR.
    + change (joins_in [MDeliver c j i]) with 0%nat in *. rewrite Nat.add_0_r in *.
      destruct (forall2_nth _ _ _ i (proj1 (proj2 HR) c)) as [[E1 E2]|(b & i' & E1 & E2 & E3)].
      * rewrite E1, E2. eexists _, _. split; [reflexivity|]. left. exists n. destruct k; (split; [constructor|]; split; [exact HI|exact HR]).
      * rewrite E1, E2. unfold cut_decrypt. destruct k as [|k]; cbn [fst snd].
        -- destruct (skm_from_bytes b) as [ms|e|].
           ++ rewrite cut_zero. eexists _, _. split; [reflexivity|]. left. exists (write j c (n_store n j (name_of addr c)) n). split; [constructor; [reflexivity|constructor]|]. apply HID.
           ++ eexists _, _. split; [reflexivity|]. left. exists n. split; [constructor; [reflexivity|constructor]|]. split; [exact HI|exact HR].
           ++ eexists _, _. split; [reflexivity|]. left. exists n. split; [constructor; [reflexivity|constructor]|]. split; [exact HI|exact HR].
        -- destruct (step_deliver C L addr Hinj joins n (gx_chan m) c j i' HI (HB c)) as (o & n' & E & HM & HI'). cbn [mstep] in E. rewrite E3 in E. unfold mdecrypt in E.
           assert (HG : forall q, o = [q] -> Forall2 gxmeets [MDied (match q with Ok _ => true | _ => false end)] (map gone (fst (rstep (MDeliver c j i') (gx_chan m))))).
           { intros q ->. pose proof (no_injected c j i' (gx_chan m)) as NI. destruct (fst (rstep (MDeliver c j i') (gx_chan m))) as [|x1 xs]; [inversion HM|].
             inversion HM as [|? ? ? ? M1 M2]; subst. inversion M2; subst. constructor; [|constructor]. destruct x1; cbn [meets] in M1.
             - subst q. reflexivity.
             - destruct M1 as (e & ->). reflexivity.
             - subst q. reflexivity.
             - exfalso. apply NI. left. reflexivity. }
           destruct (skm_from_bytes b) as [ms|e|].
           ++ destruct (cut_at C addr j c (CDecrypt ms) (S k) x) as [stored x'] eqn:EC.
              assert (Es : stored = fst (cut_at C addr j c (CDecrypt ms) (S k) x)) by (rewrite EC; reflexivity).
              assert (Ex : x' = snd (cut_at C addr j c (CDecrypt ms) (S k) x)) by (rewrite EC; reflexivity).
              rewrite cut_stored, HST in Es. rewrite cut_late, HST in Ex. cbn [gcall_run] in Ex.
              destruct (gw_decrypt C ms (n_store n j (name_of addr c))) as [q st]. cbn [fst snd] in Es, Ex. subst stored x'.
              eexists _, _. split; [reflexivity|]. left. exists n'. split; [apply HG; symmetry; exact (f_equal fst E)|]. split; [exact HI'|].
              assert (En : n' = write j c st n) by (symmetry; exact (f_equal snd E)). subst n'. apply rel_move. apply rel_write. exact HR.
           ++ eexists _, _. split; [reflexivity|]. left. exists n'. split; [apply (HG (Err e)); symmetry; exact (f_equal fst E)|]. split; [exact HI'|].
              assert (En : n' = n) by (symmetry; exact (f_equal snd E)). subst n'. exact HR.
           ++ eexists _, _. split; [reflexivity|]. left. exists n'. split; [apply (HG Panic); symmetry; exact (f_equal fst E)|]. split; [exact HI'|].
              assert (En : n' = n) by (symmetry; exact (f_equal snd E)). subst n'. exact HR.
    + change (joins_in [MInject c j b]) with 0%nat in *. rewrite Nat.add_0_r in *. unfold cut_decrypt.
      destruct (skm_from_bytes b) as [ms|e|].
      * destruct k as [|k].
        -- rewrite cut_zero. eexists _, _. split; [reflexivity|]. left. exists (write j c (n_store n j (name_of addr c)) n). split; [constructor; [reflexivity|constructor]|]. apply HID.
        -- destruct (cut_at C addr j c (CDecrypt ms) (S k) x) as [stored x'] eqn:EC.
           assert (Es : stored = fst (cut_at C addr j c (CDecrypt ms) (S k) x)) by (rewrite EC; reflexivity).
           assert (Ex : x' = snd (cut_at C addr j c (CDecrypt ms) (S k) x)) by (rewrite EC; reflexivity).
           rewrite cut_stored in Es. rewrite cut_late in Ex. cbn [gcall_run] in Ex.
           destruct (gw_decrypt C ms (n_store x j (name_of addr c))) as [q st] eqn:EG. cbn [fst snd] in Es, Ex. eexists _, _. split; [reflexivity|].
           destruct q as [pt|e|]; subst stored; [right; right; split; reflexivity| |].
           ++ left. rewrite (gw_decrypt_fail C ms _ _ _ EG) in Ex by discriminate. subst x'. eexists. split; [constructor; [reflexivity|constructor]|]. apply HID.
           ++ left. rewrite (gw_decrypt_fail C ms _ _ _ EG) in Ex by discriminate. subst x'. eexists. split; [constructor; [reflexivity|constructor]|]. apply HID.
      * eexists _, _. split; [reflexivity|]. left. exists n. split; [constructor; [reflexivity|constructor]|]. split; [exact HI|exact HR].
      * eexists _, _. split; [reflexivity|]. left. exists n. split; [constructor; [reflexivity|constructor]|]. split; [exact HI|exact HR].
Qed.

(** * Whole runs *)

Lemma gx_total : forall ev m t, total (gx_chan m) t -> total (gx_chan (snd (gxrstep ev m))) (t + sends_in [gevent_of ev]).
Proof.
  intros ev m t HT. assert (HS : total (gx_chan m) (t + sends_in [gevent_of ev])) by (intros c; specialize (HT c); lia).
  assert (HMV : forall e, (sends_in [e] <= sends_in [gevent_of ev])%nat -> total (gx_chan (gx_move e m)) (t + sends_in [gevent_of ev])).
  { intros e He c. pose proof (rstep_total addr Hinj e (gx_chan m) t HT c). cbn [gx_move gx_chan]. lia. }
  destruct ev as [e|e k]; destruct e as [c g|c j i|c pt g|c j i|c j b]; cbn [gxrstep gevent_of] in *.
  - exact (HMV (MCreate c g) (le_n _)).
  - destruct (nth_error (gx_handed m c) i) as [i'|]; [exact (HMV (MJoin c j i') (le_n _))|exact HS].
  - destruct (cv_view (gx_chan m c) (snd c)); [exact (HMV (MSend c pt g) (le_n _))|exact HS].
  - destruct (nth_error (gx_sent m c) i) as [i'|]; [exact (HMV (MDeliver c j i') (le_n _))|exact HS].
  - exact HS.
  - destruct k; [exact HS|exact (HMV (MCreate c g) (le_n _))].
  - destruct k; [exact HS|]. destruct (nth_error (gx_handed m c) i) as [i'|]; [exact (HMV (MJoin c j i') (le_n _))|exact HS].
  - destruct k; [exact HS|exact (HMV (MSend c pt g) (le_n _))].
  - destruct (nth_error (gx_sent m c) i) as [i'|]; [|exact HS]. destruct k; [exact HS|exact (HMV (MDeliver c j i') (le_n _))].
  - exact HS.
Qed.

Lemma gxp_app : forall a b os xs, Forall2 gxmeets a b -> gxprescribed os xs -> gxprescribed (a ++ os) (b ++ xs).
Proof. intros a b os xs H. induction H; intros HP; [exact HP|]. cbn [app]. constructor; auto. Qed.

Lemma gx_conversation : forall evs joins t x n m, inv joins n (gx_chan m) -> rel x n m -> total (gx_chan m) t ->
  (N.of_nat (t + sends_in (map gevent_of evs)) < 4294967296)%N -> (joins + joins_in (map gevent_of evs) < 2000)%nat -> Forall (proper C) (map gevent_of evs) ->
  gxprescribed (gxrun C addr evs x) (gxspec evs m).
Proof.
  induction evs as [|ev evs IH]; intros joins t x n m HI HR HT Hs Hj HP; [constructor|]. cbn [map] in *.
  rewrite sends_cons in Hs by exact Hinj. rewrite joins_cons in Hj by exact Hinj. inversion HP as [|e0 evs0 P1 P2]. subst e0 evs0. clear HP.
  destruct (gx_step ev joins x n m HI HR) as (o & x' & E & HO); [lia|intros c; specialize (HT c); unfold u32_modulus; lia|exact P1|].
  pose proof (gx_total ev m t HT) as HT'. cbn [gxrun gxspec]. rewrite E. destruct (gxrstep ev m) as [xs m']. cbn [fst snd] in *.
  destruct HO as [(n' & HF & HI' & HR')|[(pt & -> & ->)|(-> & ->)]].
  - apply gxp_app; [exact HF|]. apply (IH (joins + joins_in [gevent_of ev])%nat (t + sends_in [gevent_of ev])%nat x' n' m' HI' HR' HT'); [lia|lia|exact P2].
  - cbn [app]. apply GXP_forged.
  - cbn [app]. apply GXP_forged_unseen.
Qed.

Lemma gx_quiet : rel quiet quiet gx_start.
Proof. split; [reflexivity|]. split; intros c; constructor. Qed.

(** * No message is used up twice *)

Definition spends (v : gview) (i : nat) : Prop := (N.of_nat i < gv_next v)%N /\ ~ In (N.of_nat i) (gv_kept v).
Definition view_fine (v : gview) : Prop := forall n, In n (gv_kept v) -> (n < gv_next v)%N.
Definition views_fine (m : channel -> chan_view) : Prop := forall c j v, cv_view (m c) j = Some v -> view_fine v.

Lemma last_n_sub : forall (A : Type) n (l : list A) x, In x (last_n n l) -> In x l.
Proof. intros A n l x H. unfold last_n in H. rewrite <- (firstn_skipn (length l - n) l). apply in_or_app. right. exact H. Qed.

Lemma n_range_in : forall k a x, In x (n_range a k) -> (a <= x < a + N.of_nat k)%N.
Proof. intros k a x H. unfold n_range in H. apply in_map_iff in H. destruct H as (y & <- & H). apply in_seq in H. lia. Qed.

Lemma accept_spends : forall v n v', view_fine v -> gaccept v n = Some v' -> (n < gv_next v')%N /\ ~ In n (gv_kept v') /\ view_fine v' /\
  forall i, spends v i -> spends v' i.
Proof.
  intros v n v' HV H. unfold gaccept in H. destruct (n <? gv_next v)%N eqn:E1.
  - destruct (existsb (N.eqb n) (gv_kept v)); [|discriminate H]. apply (f_equal (fun o => match o with Some y => y | None => v end)) in H. subst v'. unfold view_fine, spends. cbn [gv_next gv_kept].
    split; [lia|]. split; [intros HI; apply filter_In in HI; destruct HI as [_ HI]; rewrite N.eqb_refl in HI; discriminate HI|].
    split; [intros k HI; apply filter_In in HI; apply HV; apply HI|]. intros i [H1 H2]. split; [exact H1|]. intros HI. apply filter_In in HI. destruct HI as [HI _]. exact (H2 HI).
  - destruct (2000 <? n - gv_next v)%N; [discriminate H|]. apply (f_equal (fun o => match o with Some y => y | None => v end)) in H. subst v'. unfold view_fine, spends. cbn [gv_next gv_kept].
    assert (HR : forall k, In k (last_n (N.to_nat 2000) (gv_kept v ++ n_range (gv_next v) (N.to_nat (n - gv_next v)))) -> In k (gv_kept v) \/ (gv_next v <= k < n)%N).
    { intros k HI. apply last_n_sub in HI. apply in_app_or in HI. destruct HI as [HI|HI]; [left; exact HI|right]. apply n_range_in in HI. lia. }
    split; [lia|]. split; [|split].
    + intros HI. apply HR in HI. destruct HI as [HI|HI]; [apply HV in HI|]; lia.
    + intros k HI. apply HR in HI. destruct HI as [HI|HI]; [apply HV in HI|]; lia.
    + intros i [H1 H2]. split; [lia|]. intros HI. apply HR in HI. destruct HI as [HI|HI]; [exact (H2 HI)|lia].
Qed.

Lemma spent_refused : forall v i, spends v i -> gaccept v (N.of_nat i) = None.
Proof.
  intros v i [H1 H2]. unfold gaccept. replace (N.of_nat i <? gv_next v)%N with true by lia.
  destruct (existsb (N.eqb (N.of_nat i)) (gv_kept v)) eqn:E; [|reflexivity]. exfalso. apply existsb_exists in E. destruct E as (x & E1 & E2). apply N.eqb_eq in E2. subst x. exact (H2 E1).
Qed.

(** The numbers of messages a member has spent stay spent; messages stay numbered. *)
Lemma rstep_keeps : forall e m, views_fine m -> views_fine (snd (rstep e m)) /\
  (forall c, (length (cv_sent (m c)) <= length (cv_sent (snd (rstep e m) c)))%nat) /\
  (forall c j v i, cv_view (m c) j = Some v -> spends v i -> (i < length (cv_sent (m c)))%nat -> exists v', cv_view (snd (rstep e m) c) j = Some v' /\ spends v' i).
Proof.
  intros e m HV.
  assert (HSAME : views_fine m /\ (forall c, (length (cv_sent (m c)) <= length (cv_sent (m c)))%nat) /\
    (forall c j v i, cv_view (m c) j = Some v -> spends v i -> (i < length (cv_sent (m c)))%nat -> exists v', cv_view (m c) j = Some v' /\ spends v' i)).
  { split; [exact HV|]. split; [intros; apply le_n|]. intros c j v i H1 H2 _. exists v. split; assumption. }
  assert (HPUT : forall c x, (length (cv_sent (m c)) <= length (cv_sent x))%nat -> (forall j v, cv_view x j = Some v -> view_fine v) ->
    (forall j v i, cv_view (m c) j = Some v -> spends v i -> (i < length (cv_sent (m c)))%nat -> exists v', cv_view x j = Some v' /\ spends v' i) ->
    views_fine (put channel_eqb c x m) /\ (forall c', (length (cv_sent (m c')) <= length (cv_sent (put channel_eqb c x m c')))%nat) /\
    (forall c' j v i, cv_view (m c') j = Some v -> spends v i -> (i < length (cv_sent (m c')))%nat -> exists v', cv_view (put channel_eqb c x m c') j = Some v' /\ spends v' i)).
  { intros c x H1 H2 H3. split; [|split].
    - intros c' j v H. destruct (put_cases c x m c') as [[<- E]|[_ E]]; rewrite E in H; [exact (H2 _ _ H)|exact (HV _ _ _ H)].
    - intros c'. destruct (put_cases c x m c') as [[<- E]|[_ E]]; rewrite E; [exact H1|apply le_n].
    - intros c' j v i HH1 HH2 HH3. destruct (put_cases c x m c') as [[<- E]|[_ E]]; rewrite E; [eapply H3; eauto|exists v; split; assumption]. }
  assert (HSV : forall j v x j', cv_view (set_view j v x) j' = if (j =? j')%nat then Some v else cv_view x j') by reflexivity.
  destruct e as [c g|c j k|c pt g|c j k|c j b]; cbn [rstep snd].
  - apply HPUT; cbn [set_view cv_sent].
    + apply le_n.
    + intros j v. change (cv_view (set_view (snd c) (sender_at (length (cv_sent (m c)))) {| cv_sent := cv_sent (m c); cv_dist := cv_dist (m c) ++ [N.of_nat (length (cv_sent (m c)))]; cv_view := cv_view (m c) |}) j = Some v -> view_fine v).
      rewrite HSV. destruct (snd c =? j)%nat; [|apply HV]. intros H. apply some_eq in H. subst v. intros n [].
    + intros j v i H1 H2 H3. change (cv_view _ j) with (cv_view (set_view (snd c) (sender_at (length (cv_sent (m c)))) {| cv_sent := cv_sent (m c); cv_dist := cv_dist (m c) ++ [N.of_nat (length (cv_sent (m c)))]; cv_view := cv_view (m c) |}) j).
      rewrite HSV. destruct (snd c =? j)%nat; [|exists v; split; assumption]. eexists. split; [reflexivity|]. split; [cbn [sender_at gv_next]; lia|intros []].
  - destruct (nth_error (cv_dist (m c)) k) as [n|]; [|exact HSAME]. destruct (cv_view (m c) j) as [v0|] eqn:EV; [exact HSAME|]. cbn [snd]. apply HPUT.
    + apply le_n.
    + intros j' v. rewrite HSV. destruct (j =? j')%nat; [|apply HV]. intros H. apply some_eq in H. subst v. intros x [].
    + intros j' v i H1 H2 H3. rewrite HSV. destruct (Nat.eqb_spec j j') as [<-|_]; [congruence|]. exists v. split; assumption.
  - destruct (cv_view (m c) (snd c)) as [v0|] eqn:EV; [|exact HSAME]. cbn [snd]. apply HPUT.
    + cbn [set_view cv_sent]. rewrite app_length. lia.
    + intros j' v. rewrite HSV. destruct (snd c =? j')%nat; [|apply HV]. intros H. apply some_eq in H. subst v. intros x [].
    + intros j' v i H1 H2 H3. rewrite HSV. destruct (snd c =? j')%nat; [|exists v; split; assumption]. eexists. split; [reflexivity|]. split; [cbn [sender_at gv_next]; lia|intros []].
  - destruct (nth_error (cv_sent (m c)) k) as [pt|]; [|exact HSAME]. destruct (cv_view (m c) j) as [v0|] eqn:EV; [|exact HSAME].
    destruct (gaccept v0 (N.of_nat k)) as [v1|] eqn:EA; [|exact HSAME]. cbn [snd]. destruct (accept_spends _ _ _ (HV _ _ _ EV) EA) as (_ & _ & A3 & A4). apply HPUT.
    + apply le_n.
    + intros j' v. rewrite HSV. destruct (j =? j')%nat; [|apply HV]. intros H. apply some_eq in H. subst v. exact A3.
    + intros j' v i H1 H2 H3. rewrite HSV. destruct (Nat.eqb_spec j j') as [<-|_]; [|exists v; split; assumption]. assert (v = v0) by congruence. subst v. exists v1. split; [reflexivity|apply A4; exact H2].
  - exact HSAME.
Qed.

Definition spent_by (m : gxview) (u : channel * nat * nat) : Prop :=
  match u with (c, j, k) => exists i v, nth_error (gx_sent m c) k = Some i /\ cv_view (gx_chan m c) j = Some v /\ spends v i end.
Definition wired (m : gxview) : Prop := views_fine (gx_chan m) /\ forall c i, In i (gx_sent m c) -> (i < length (cv_sent (gx_chan m c)))%nat.

Lemma move_keeps : forall e m, wired m -> wired (gx_move e m) /\ forall u, spent_by m u -> spent_by (gx_move e m) u.
Proof.
  intros e m [W1 W2]. destruct (rstep_keeps e (gx_chan m) W1) as (K1 & K2 & K3). split.
  - split; [exact K1|]. intros c i HI. cbn [gx_move gx_chan gx_sent] in *. specialize (K2 c). apply W2 in HI. lia.
  - intros [[c j] k] (i & v & S1 & S2 & S3). destruct (K3 c j v i S2 S3) as (v' & V1 & V2); [apply W2; eapply nth_error_In; exact S1|]. exists i, v'. split; [exact S1|]. split; assumption.
Qed.

Lemma gxrstep_keeps : forall ev m, wired m -> wired (snd (gxrstep ev m)) /\ forall u, spent_by m u -> spent_by (snd (gxrstep ev m)) u.
Proof.
  intros ev m HW. assert (HS : wired m /\ forall u, spent_by m u -> spent_by m u) by (split; [exact HW|auto]).
  assert (HM := fun e => move_keeps e m HW).
  destruct ev as [e|e k]; destruct e as [c g|c j i|c pt g|c j i|c j b]; cbn [gxrstep].
  - exact (HM (MCreate c g)).
  - destruct (nth_error (gx_handed m c) i) as [i'|]; [exact (HM (MJoin c j i'))|exact HS].
  - destruct (cv_view (gx_chan m c) (snd c)) as [v0|] eqn:EV; [|exact HS]. cbn [snd]. destruct (HM (MSend c pt g)) as [[M1 M2] M3]. split.
    + split; [exact M1|]. intros c' i HI. cbn [gx_post gx_sent gx_chan] in HI |- *. destruct (put_cases c (gx_sent (gx_move (MSend c pt g) m) c ++ [length (cv_sent (gx_chan m c))]) (gx_sent (gx_move (MSend c pt g) m)) c') as [[<- E]|[_ E]]; rewrite E in HI.
      * apply in_app_or in HI. destruct HI as [HI|[<-|[]]]; [apply M2; exact HI|]. cbn [gx_move gx_chan rstep]. rewrite EV. cbn [snd]. rewrite put_same by exact channel_eqb_eq.
        cbn [set_view cv_sent]. rewrite app_length. cbn [length]. lia.
      * apply M2. exact HI.
    + intros u HU. apply M3 in HU. destruct u as [[c' j] k]. destruct HU as (i & v & S1 & S2 & S3). exists i, v. split; [|split; assumption]. cbn [gx_post gx_sent].
      destruct (put_cases c (gx_sent (gx_move (MSend c pt g) m) c ++ [length (cv_sent (gx_chan m c))]) (gx_sent (gx_move (MSend c pt g) m)) c') as [[<- E]|[_ E]]; rewrite E; [|exact S1].
      rewrite nth_error_app1; [exact S1|]. apply nth_error_Some. congruence.
  - destruct (nth_error (gx_sent m c) i) as [i'|]; [exact (HM (MDeliver c j i'))|exact HS].
  - exact HS.
  - destruct k; [exact HS|exact (HM (MCreate c g))].
  - destruct k; [exact HS|]. destruct (nth_error (gx_handed m c) i) as [i'|]; [exact (HM (MJoin c j i'))|exact HS].
  - destruct k; [exact HS|exact (HM (MSend c pt g))].
  - destruct (nth_error (gx_sent m c) i) as [i'|]; [|exact HS]. destruct k; [exact HS|exact (HM (MDeliver c j i'))].
  - exact HS.
Qed.

(** A delivery that is prescribed to succeed spends a message not spent before. *)
Lemma deliver_spends : forall m c j k i pt, wired m -> nth_error (gx_sent m c) k = Some i -> fst (rstep (MDeliver c j i) (gx_chan m)) = [EPlain pt] ->
  ~ spent_by m (c, j, k) /\ spent_by (gx_move (MDeliver c j i) m) (c, j, k).
Proof.
  intros m c j k i pt [W1 W2] HK HE. cbn [rstep] in HE. unfold spent_by. cbn [gx_move gx_chan gx_sent rstep].
  destruct (nth_error (cv_sent (gx_chan m c)) i) as [q|]; [|discriminate HE]. destruct (cv_view (gx_chan m c) j) as [v|] eqn:EV; [|discriminate HE].
  destruct (gaccept v (N.of_nat i)) as [v'|] eqn:EA; [|discriminate HE]. cbn [snd]. split.
  - intros (i1 & v1 & S1 & S2 & S3). assert (i1 = i) by congruence. assert (v1 = v) by congruence. subst i1 v1. rewrite (spent_refused _ _ S3) in EA. discriminate EA.
  - destruct (accept_spends _ _ _ (W1 _ _ _ EV) EA) as (A1 & A2 & _). exists i, v'. split; [exact HK|]. rewrite put_same by exact channel_eqb_eq. cbn [set_view cv_view].
    split; [apply put_same; apply Nat.eqb_eq|]. split; assumption.
Qed.

Lemma gx_once : forall evs joins t x n m us, inv joins n (gx_chan m) -> rel x n m -> total (gx_chan m) t ->
  (N.of_nat (t + sends_in (map gevent_of evs)) < 4294967296)%N -> (joins + joins_in (map gevent_of evs) < 2000)%nat -> Forall (proper C) (map gevent_of evs) ->
  no_forgery (gxrun C addr evs x) (gxspec evs m) -> wired m -> NoDup us -> Forall (spent_by m) us ->
  NoDup (us ++ gx_used C addr evs x).
Proof.
  induction evs as [|ev evs IH]; intros joins t x n m us HI HR HT Hs Hj HP HNF HW HND HSP; [cbn [gx_used]; rewrite app_nil_r; exact HND|]. cbn [map] in *.
  rewrite sends_cons in Hs by exact Hinj. rewrite joins_cons in Hj by exact Hinj. inversion HP as [|e0 evs0 P1 P2]. subst e0 evs0. clear HP.
  destruct (gx_step ev joins x n m HI HR) as (o & x' & E & HO); [lia|intros c; specialize (HT c); unfold u32_modulus; lia|exact P1|].
  pose proof (gx_total ev m t HT) as HT'. destruct (gxrstep_keeps ev m HW) as [HW' HK].
  assert (HSP' : Forall (spent_by (snd (gxrstep ev m))) us) by (eapply Forall_impl; [|exact HSP]; exact HK).
  cbn [gxrun gxspec gx_used] in *. rewrite E in *. destruct (gxrstep ev m) as [xs m'] eqn:EX. cbn [fst snd] in *.
  destruct HO as [(n' & HF & HI' & HR')|[(pt & -> & ->)|(-> & ->)]].
  2:{ exfalso. cbn [app] in HNF. inversion HNF as [|? ? ? ? [H1 _]]; subst. exact (H1 eq_refl pt eq_refl). }
  2:{ exfalso. cbn [app] in HNF. inversion HNF as [|? ? ? ? [_ H1]]; subst. exact (H1 eq_refl eq_refl). }
  assert (HNF' : no_forgery (gxrun C addr evs x') (gxspec evs m')).
  { clear - HF HNF. revert HNF. induction HF; cbn [app]; intros H1; [exact H1|]. apply IHHF. inversion H1; assumption. }
  assert (NEXT : forall us', NoDup us' -> Forall (spent_by m') us' -> NoDup (us' ++ gx_used C addr evs x')).
  { intros us' U1 U2. apply (IH (joins + joins_in [gevent_of ev])%nat (t + sends_in [gevent_of ev])%nat x' n' m' us' HI' HR' HT'); auto; lia. }
  assert (SKIP : NoDup (us ++ gx_used C addr evs x')) by (apply NEXT; assumption).
  assert (USE : forall c j k, gevent_of ev = MDeliver c j k -> (o = [MDied true] \/ exists pt, o = [MReturned (Ok pt)]) -> NoDup (us ++ (c, j, k) :: gx_used C addr evs x')).
  { intros c j k HG HO.
    assert (HD : ~ spent_by m (c, j, k) /\ spent_by m' (c, j, k)).
    { assert (HX : exists i pt, nth_error (gx_sent m c) k = Some i /\ fst (rstep (MDeliver c j i) (gx_chan m)) = [EPlain pt] /\ m' = gx_move (MDeliver c j i) m).
      { destruct ev as [e|e z]; cbn [gevent_of] in HG; subst e; cbn [gxrstep] in EX.
        - destruct (nth_error (gx_sent m c) k) as [i|]; [|apply (f_equal fst) in EX; cbn [fst] in EX; subst xs; inversion HF; subst; destruct HO as [D|(pt & D)]; discriminate D].
          assert (Ex : map XE (fst (rstep (MDeliver c j i) (gx_chan m))) = xs) by exact (f_equal fst EX). assert (Em : gx_move (MDeliver c j i) m = m') by exact (f_equal snd EX).
          exists i. pose proof (no_injected c j i (gx_chan m)) as NI. destruct (fst (rstep (MDeliver c j i) (gx_chan m))) as [|y [|y2 ys]]; subst xs.
          + exfalso. inversion HF; subst. destruct HO as [D|(pt & D)]; discriminate D.
          + destruct HO as [D|(pt & D)]; subst o; inversion HF as [|? ? ? ? M1 M2]; subst; [destruct M1|]. cbn [gxmeets] in M1. destruct y; cbn [meets] in M1.
            * exists pt0. split; [reflexivity|]. split; [reflexivity|]. reflexivity.
            * destruct M1 as (e & M1). discriminate M1.
            * discriminate M1.
            * exfalso. apply NI. left. reflexivity.
          + exfalso. destruct HO as [D|(pt & D)]; subst o; inversion HF as [|? ? ? ? M1 M2]; inversion M2.
        - destruct (nth_error (gx_sent m c) k) as [i|]; [|apply (f_equal fst) in EX; cbn [fst] in EX; subst xs; inversion HF; subst; destruct HO as [D|(pt & D)]; discriminate D].
          destruct z as [|z].
          { exfalso. apply (f_equal fst) in EX. cbn [fst] in EX. subst xs. inversion HF as [|? ? ? ? M1 M2]; subst. inversion M2; subst. destruct HO as [D|(pt & D)].
            - injection D as ->. discriminate M1.
            - injection D as ->. exact M1. }
          assert (Ex : map gone (fst (rstep (MDeliver c j i) (gx_chan m))) = xs) by exact (f_equal fst EX). assert (Em : gx_move (MDeliver c j i) m = m') by exact (f_equal snd EX).
          exists i. destruct (fst (rstep (MDeliver c j i) (gx_chan m))) as [|y [|y2 ys]]; subst xs.
          + exfalso. inversion HF; subst. destruct HO as [D|(pt & D)]; discriminate D.
          + destruct HO as [D|(pt & D)]; subst o; inversion HF as [|? ? ? ? M1 M2]; subst.
            * destruct y; cbn [gone gxmeets] in M1; try discriminate M1. exists pt. split; [reflexivity|]. split; reflexivity.
            * exfalso. destruct y; exact M1.
          + exfalso. destruct HO as [D|(pt & D)]; subst o; inversion HF as [|? ? ? ? M1 M2]; inversion M2. }
      destruct HX as (i & pt & X1 & X2 & ->). eapply deliver_spends; eauto. }
    destruct HD as [HD1 HD2]. change (us ++ (c, j, k) :: gx_used C addr evs x') with (us ++ [(c, j, k)] ++ gx_used C addr evs x'). rewrite app_assoc. apply NEXT.
    - apply (NoDup_Add (a := (c, j, k)) (l := us)); [|split; [exact HND|]].
      + clear. induction us as [|y l IHl]; [constructor|]. cbn [app]. constructor. exact IHl.
      + intros HIN. rewrite Forall_forall in HSP. exact (HD1 (HSP _ HIN)).
    - apply Forall_app. split; [exact HSP'|]. constructor; [exact HD2|constructor]. }
  destruct (gevent_of ev) as [c g|c j k|c pt g|c j k|c j b] eqn:EG; try exact SKIP.
  destruct o as [|[[pt|e|]|[|]] [|y ys]]; try exact SKIP.
  - apply USE; [reflexivity|]. right. exists pt. reflexivity.
  - apply USE; [reflexivity|]. left. reflexivity.
Qed.

Lemma gx_wired : wired gx_start.
Proof. split; [intros c j v H; discriminate H|intros c i []]. Qed.
End Cut.

(** * Calls that die before writing change nothing *)

Section Early.
Context (C : crypto) (addr : nat -> address).

Definition alike (x y : network) : Prop := (forall j a, n_store x j a = n_store y j a) /\ (forall c, n_wire x c = n_wire y c) /\ (forall c, n_dist x c = n_dist y c).

Lemma alike_write : forall x y j c v, alike x y -> alike (write addr j c v x) (write addr j c v y).
Proof.
  intros x y j c v (A1 & A2 & A3). split; [|split; assumption]. intros j' a. cbn [write n_store]. unfold put. destruct (j =? j')%nat; [|apply A1]. destruct (skname_eqb (name_of addr c) a); [reflexivity|apply A1].
Qed.
Lemma alike_post : forall x y c b, alike x y -> alike (post c b x) (post c b y).
Proof. intros x y c b (A1 & A2 & A3). split; [exact A1|]. split; [|exact A3]. intros c'. cbn [post n_wire]. unfold put. destruct (channel_eqb c c'); [rewrite A2; reflexivity|apply A2]. Qed.
Lemma alike_hand : forall x y c b, alike x y -> alike (hand_out c b x) (hand_out c b y).
Proof. intros x y c b (A1 & A2 & A3). split; [exact A1|]. split; [exact A2|]. intros c'. cbn [hand_out n_dist]. unfold put. destruct (channel_eqb c c'); [rewrite A3; reflexivity|apply A3]. Qed.
Lemma alike_same : forall x y j c, alike x y -> alike (write addr j c (n_store x j (name_of addr c)) x) y.
Proof.
  intros x y j c (A1 & A2 & A3). split; [|split; assumption]. intros j' a. cbn [write n_store]. unfold put. destruct (j =? j')%nat eqn:E; [|apply A1]. apply Nat.eqb_eq in E. subst j'.
  destruct (skname_eqb (name_of addr c) a) eqn:E; [apply skname_eqb_eq in E; subst a; apply A1|apply A1].
Qed.

Lemma alike_mdecrypt : forall x y c j b, alike x y -> fst (mdecrypt C addr c j b x) = fst (mdecrypt C addr c j b y) /\ alike (snd (mdecrypt C addr c j b x)) (snd (mdecrypt C addr c j b y)).
Proof.
  intros x y c j b HA. unfold mdecrypt. destruct (skm_from_bytes b) as [m|e|]; [|split; [reflexivity|exact HA]|split; [reflexivity|exact HA]].
  rewrite (proj1 HA). destruct (gw_decrypt C m (n_store y j (name_of addr c))) as [o st]. split; [reflexivity|]. apply alike_write. exact HA.
Qed.
Lemma alike_mstep : forall e x y, alike x y -> fst (mstep C addr e x) = fst (mstep C addr e y) /\ alike (snd (mstep C addr e x)) (snd (mstep C addr e y)).
Proof.
  intros e x y HA. destruct e as [c g|c j k|c pt g|c j k|c j b]; cbn [mstep].
  - rewrite (proj1 HA). destruct (gw_create C g (n_store y (snd c) (name_of addr c))) as [[d|e|] st]; (split; [reflexivity|]); [apply alike_hand| |]; apply alike_write; exact HA.
  - rewrite (proj2 (proj2 HA)). destruct (nth_error (n_dist y c) k) as [b|]; [|split; [reflexivity|exact HA]]. destruct (skd_from_bytes b) as [d|e|]; (split; [reflexivity|]); try exact HA.
    cbn [snd]. rewrite (proj1 HA). apply alike_write. exact HA.
  - rewrite (proj1 HA). destruct (gw_encrypt C pt g (n_store y (snd c) (name_of addr c))) as [[d|e|] st]; (split; [reflexivity|]); [apply alike_post| |]; apply alike_write; exact HA.
  - rewrite (proj1 (proj2 HA)). destruct (nth_error (n_wire y c) k) as [b|]; [|split; [reflexivity|exact HA]].
    pose proof (alike_mdecrypt x y c j b HA) as [H1 H2]. destruct (mdecrypt C addr c j b x) as [o1 x1]. destruct (mdecrypt C addr c j b y) as [o2 y1]. cbn [fst snd] in *. subst o2. split; [reflexivity|exact H2].
  - pose proof (alike_mdecrypt x y c j b HA) as [H1 H2]. destruct (mdecrypt C addr c j b x) as [o1 x1]. destruct (mdecrypt C addr c j b y) as [o2 y1]. cbn [fst snd] in *. subst o2. split; [reflexivity|exact H2].
Qed.
Lemma alike_cut : forall j c f k x y, alike x y -> fst (cut_at C addr j c f k x) = fst (cut_at C addr j c f k y) /\ alike (snd (cut_at C addr j c f k x)) (snd (cut_at C addr j c f k y)).
Proof. intros j c f k x y HA. unfold cut_at. rewrite (proj1 HA). cbn [fst snd]. split; [reflexivity|]. apply alike_write. exact HA. Qed.
Lemma alike_cut_decrypt : forall c j b k x y, alike x y ->
  fst (cut_decrypt C addr c j b k x) = fst (cut_decrypt C addr c j b k y) /\ alike (snd (cut_decrypt C addr c j b k x)) (snd (cut_decrypt C addr c j b k y)).
Proof.
  intros c j b k x y HA. unfold cut_decrypt. destruct (skm_from_bytes b) as [m|e|]; [|split; [reflexivity|exact HA]|split; [reflexivity|exact HA]].
  pose proof (alike_cut j c (CDecrypt m) k x y HA) as [H1 H2]. destruct (cut_at C addr j c (CDecrypt m) k x) as [b1 x1]. destruct (cut_at C addr j c (CDecrypt m) k y) as [b2 y1].
  cbn [fst snd] in *. subst b2. split; [reflexivity|exact H2].
Qed.
Lemma alike_gxstep : forall ev x y, alike x y -> fst (gxstep C addr ev x) = fst (gxstep C addr ev y) /\ alike (snd (gxstep C addr ev x)) (snd (gxstep C addr ev y)).
Proof.
  intros ev x y HA. destruct ev as [e|e n]; cbn [gxstep].
  - pose proof (alike_mstep e x y HA) as [H1 H2]. destruct (mstep C addr e x) as [o1 x1]. destruct (mstep C addr e y) as [o2 y1]. cbn [fst snd] in *. subst o2. split; [reflexivity|exact H2].
  - destruct e as [c g|c j k|c pt g|c j k|c j b]; cbn [fst snd].
    + split; [reflexivity|]. apply alike_cut. exact HA.
    + rewrite (proj2 (proj2 HA)). destruct (nth_error (n_dist y c) k) as [b|]; [|split; [reflexivity|exact HA]]. destruct (skd_from_bytes b); (split; [reflexivity|]); try exact HA. apply alike_cut. exact HA.
    + split; [reflexivity|]. apply alike_cut. exact HA.
    + rewrite (proj1 (proj2 HA)). destruct (nth_error (n_wire y c) k) as [b|]; [|split; [reflexivity|exact HA]]. apply alike_cut_decrypt. exact HA.
    + apply alike_cut_decrypt. exact HA.
Qed.

(** A call that dies before writing leaves the network as it was and returns nothing. *)
Lemma early_step : forall e x y, alike x y -> gx_returned (fst (gxstep C addr (GCut e 0) x)) = [] /\ alike (snd (gxstep C addr (GCut e 0) x)) y.
Proof.
  intros e x y HA. destruct e as [c g|c j k|c pt g|c j k|c j b]; cbn [gxstep].
  - split; [reflexivity|]. apply alike_same. exact HA.
  - destruct (nth_error (n_dist x c) k) as [b|]; [|split; [reflexivity|exact HA]]. destruct (skd_from_bytes b); (split; [reflexivity|]); try exact HA. apply alike_same. exact HA.
  - split; [reflexivity|]. apply alike_same. exact HA.
  - destruct (nth_error (n_wire x c) k) as [b|]; [|split; [reflexivity|exact HA]]. unfold cut_decrypt. destruct (skm_from_bytes b); (split; [reflexivity|]); try exact HA. apply alike_same. exact HA.
  - unfold cut_decrypt. destruct (skm_from_bytes b); (split; [reflexivity|]); try exact HA. apply alike_same. exact HA.
Qed.

Lemma early_harmless : forall evs x y, alike x y ->
  gx_returned (gxrun C addr evs x) = gx_returned (gxrun C addr (filter (fun e => negb (gx_early e)) evs) y).
Proof.
  assert (HAPP : forall a b, gx_returned (a ++ b) = gx_returned a ++ gx_returned b) by (intros a b; unfold gx_returned; apply flat_map_app).
  induction evs as [|ev evs IH]; intros x y HA; [reflexivity|]. cbn [filter].
  assert (HD : (exists e, ev = GCut e 0) \/ gx_early ev = false) by (destruct ev as [e|e [|k]]; [right; reflexivity|left; exists e; reflexivity|right; reflexivity]).
  destruct HD as [(e & ->)|HE].
  - cbn [gx_early negb gxrun]. pose proof (early_step e x y HA) as [H1 H2]. destruct (gxstep C addr (GCut e 0) x) as [o x']. cbn [fst snd] in *. rewrite HAPP, H1. cbn [app]. apply IH. exact H2.
  - rewrite HE. cbn [negb gxrun]. pose proof (alike_gxstep ev x y HA) as [H1 H2]. destruct (gxstep C addr ev x) as [o x']. destruct (gxstep C addr ev y) as [o' y']. cbn [fst snd] in *. subst o'.
    rewrite !HAPP. f_equal. apply IH. exact H2.
Qed.
End Early.
