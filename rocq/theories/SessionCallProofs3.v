(** SessionCallProofs3.v: proofs for C80, calls on bytes and programs of calls. *)
From Verif Require Import Base Labels Crypto Bytehelper Ecc Cbc Wire Itoa Keys X3dh Messages SessionState SessionRecord SessionBuilder SessionCipher Address World
  WireFormatSpec WireGrammarSpec BodySpec GroupSpec ConvSpec CrashSpec ThreadSpec SessionSpec WireGrammarProofs WireFateProofs ThreadProofs SessionCallSpec SessionCallProofs SessionCallProofs2.
From Coq Require Import NArith ZArith List Lia ZifyBool ZifyN ZifyNat.
Import ListNotations.

(** * What the parsers hand over *)
Lemma field_length : forall S l fs, message S l fs -> forall t b, In (t, FBytes b) fs -> (length b <= length l)%nat.
Proof.
  intros S l fs H. induction H as [|x tag k v bd l fs Hx Hn HI Hw HB HM IH|x tag bd l fs Hx Hn HI HS HM IH]; intros t b HIn.
  - destruct HIn.
  - rewrite !app_length. destruct HIn as [E|HIn]; [|specialize (IH t b HIn); lia]. destruct HB as [n q Hq|p q Hq]; [discriminate E|]. injection E as _ ->. rewrite app_length. lia.
  - rewrite !app_length. specialize (IH t b HIn). lia.
Qed.
Lemma field_number : forall S l fs, message S l fs -> forall t n, In (t, FUint n) fs -> (n < 2 ^ 32)%N.
Proof.
  intros S l fs H. induction H as [|x tag k v bd l fs Hx Hn HI Hw HB HM IH|x tag bd l fs Hx Hn HI HS HM IH]; intros t n HIn.
  - destruct HIn.
  - destruct HIn as [E|HIn]; [|exact (IH t n HIn)]. destruct HB as [q l' Hq|p l' Hq]; [|discriminate E]. apply (f_equal (fun p : N * fval => match snd p with FUint y => y | FBytes _ => 0%N end)) in E. cbn [snd] in E. rewrite <- E. apply N.mod_upper_bound. discriminate.
  - exact (IH t n HIn).
Qed.
Lemma content_length : forall S l fs t b, message S l fs -> content t fs (Some b) -> (length b <= length l)%nat.
Proof. intros S l fs t b H (pre & post & -> & _). apply (field_length S l _ H t). apply in_or_app. right. left. reflexivity. Qed.
Lemma number_bound : forall S l fs t n, message S l fs -> number t fs n -> (n < 2 ^ 32)%N.
Proof.
  intros S l fs t n H [(pre & post & -> & _)|[_ ->]]; [|reflexivity]. apply (field_number S l _ H t). apply in_or_app. right. left. reflexivity.
Qed.
Lemma parsed_object : forall b m, (N.of_nat (length b) < 2 ^ 63)%N -> signal_fate b (Ok m) -> message_object m.
Proof.
  intros b m HB H. remember (Ok m) as o eqn:EO. destruct H as [| | | | | | |v b mac fs k ct counter prev key HM HF HV HK HC Hn Hp HKF]; try discriminate EO.
  pose proof (f_equal (fun o : res sig_msg => match o with Ok x => x | _ => m end) EO) as E. cbv beta iota in E. rewrite <- E. clear EO E.
  assert (HL : (length b <= length (v :: b ++ mac))%nat) by (cbn [length]; rewrite app_length; lia).
  exists k, ct. cbn [sm_struct sm_ratchet sg_ratchet sg_ct sg_version sg_counter sg_prev]. split; [reflexivity|]. split; [exact HKF|]. split; [reflexivity|].
  split; [unfold supported in HV; lia|]. split; [exact (number_bound _ _ _ _ _ HF Hn)|]. split; [exact (number_bound _ _ _ _ _ HF Hp)|].
  pose proof (content_length _ _ _ _ _ HF HK). pose proof (content_length _ _ _ _ _ HF HC). split; lia.
Qed.
Lemma parsed_inner : forall b m, (N.of_nat (length b) < 2 ^ 63)%N -> prekey_fate b (Ok m) -> message_object (pm_message m).
Proof.
  intros b m HB H. remember (Ok m) as o eqn:EO. destruct H as [| | | | | | | | | | |v b fs kb ki mb base ident inner id reg signed HF HV H2 H3 H4 K2 K3 HI N1 N5 N6]; try discriminate EO.
  pose proof (f_equal (fun o : res pk_msg => match o with Ok x => x | _ => m end) EO) as E. cbv beta iota in E. rewrite <- E. clear EO E. cbn [pm_message].
  apply (parsed_object mb); [|exact HI]. pose proof (content_length _ _ _ _ _ HF H4). cbn [length] in HB. lia.
Qed.

Section P.
Context (C : crypto) (L : crypto_laws C).

Lemma seen_none : forall w a (o : res bytes), exists w', (o, w) = (o, w') /\ applied w a no_change w'.
Proof. intros w a o. exists w. split; [reflexivity|apply applied_none]. Qed.

Lemma packet_sound : forall w a k g o d, lived C w -> call_fits (DoReceive k g) -> packet_fate C w a g k o d -> exists w', receive C a k g w = (o, w') /\ applied w a d w'.
Proof.
  intros w a k g o d HL HF H. pose proof (lived_sound C L w HL) as HW.
  destruct H as [b e S|b S|b m o d g' S F|b e S|b S|b m o d g' S F]; unfold receive; cbn [call_fits] in HF.
  - rewrite (signal_fate_sound _ _ S). apply seen_none.
  - rewrite (signal_fate_sound _ _ S). apply seen_none.
  - rewrite (signal_fate_sound _ _ S). destruct (decrypt_sound C L w a m g o d g' HW (parsed_object b m HF S) F) as (w' & E & HA). rewrite E. exists w'. split; [reflexivity|exact HA].
  - rewrite (prekey_fate_sound _ _ S). apply seen_none.
  - rewrite (prekey_fate_sound _ _ S). apply seen_none.
  - rewrite (prekey_fate_sound _ _ S). destruct (message_sound C L w a m g o d g' HW (parsed_inner b m HF S) F) as (w' & E & HA). rewrite E. exists w'. split; [reflexivity|exact HA].
Qed.
Lemma packet_exists : forall w a k g, lived C w -> call_fits (DoReceive k g) -> exists o d, packet_fate C w a g k o d.
Proof.
  intros w a k g HL HF. pose proof (lived_sound C L w HL) as HW. pose proof (lived_private C w HL) as HP. destruct k as [b|b]; cbn [call_fits] in HF.
  - pose proof (signal_fate_total b) as S. destruct (sig_from_bytes b) as [m|e|].
    + destruct (decrypt_exists C L w a m g HW (parsed_object b m HF S)) as (o & d & g' & F). do 2 eexists. exact (signal_decrypt C w a g b m o d g' S F).
    + do 2 eexists. exact (signal_unread C w a g b e S).
    + do 2 eexists. exact (signal_unread_crash C w a g b S).
  - pose proof (prekey_fate_total b) as S. destruct (pk_from_bytes b) as [m|e|].
    + destruct (message_exists C L w a m g HW HP (parsed_inner b m HF S)) as (o & d & g' & F). do 2 eexists. exact (prekey_decrypt C w a g b m o d g' S F).
    + do 2 eexists. exact (prekey_unread C w a g b e S).
    + do 2 eexists. exact (prekey_unread_crash C w a g b S).
Qed.

Lemma call_sound : forall w a c o d, lived C w -> call_fits c -> call_fate C w a c o d -> exists w', call_alone C a c w = (o, w') /\ applied w a d w'.
Proof.
  intros w a c o d HL HF H. pose proof (lived_sound C L w HL) as HW. destruct H as [pt o d H|k g o d H|b g o d g' H]; unfold call_alone.
  - destruct (encrypt_found C L w a pt HW HF) as (o1 & d1 & w' & F & E & HA). destruct (encrypt_det C w a pt o d o1 d1 H F) as [-> ->]. rewrite E. exists w'. split; [reflexivity|exact HA].
  - destruct (packet_sound w a k g o d HL HF H) as (w' & E & HA). rewrite E. exists w'. split; [reflexivity|exact HA].
  - destruct (bundle_sound C L w a b g o d g' HW H) as (w' & E & HA). rewrite E. exists w'. split; [reflexivity|exact HA].
Qed.
Lemma call_exists : forall w a c, lived C w -> call_fits c -> exists o d, call_fate C w a c o d.
Proof.
  intros w a c HL HF. pose proof (lived_sound C L w HL) as HW. destruct c as [pt|k g|b g].
  - destruct (encrypt_found C L w a pt HW HF) as (o1 & d1 & w' & F & E & HA). do 2 eexists. exact (call_encrypt C w a pt o1 d1 F).
  - destruct (packet_exists w a k g HL HF) as (o & d & F). do 2 eexists. exact (call_receive C w a k g o d F).
  - destruct (bundle_exists C L w a b g) as (o & d & g' & F). do 2 eexists. exact (call_bundle C w a b g o d g' F).
Qed.

(** * After a call the stores have lived on *)
Lemma commit_firstn : forall es a w, fst (commit a es w) = fst (commit a (firstn (length es) es) w).
Proof. intros es a w. rewrite firstn_all. reflexivity. Qed.
Lemma lived_commit : forall w a r' es, lived C w -> session_op C u32_msg (view_of w a) r' es -> lived C (fst (commit a es w)).
Proof. intros w a r' es HL HO. rewrite commit_firstn. exact (Lived_op C w a r' es (length es) HL HO). Qed.
Lemma lived_call : forall w a c, lived C w -> call_fits c -> lived C (snd (call_alone C a c w)).
Proof.
  intros w a c HL HF. destruct c as [pt|k g|b g]; unfold call_alone.
  - unfold w_encrypt. destruct (encrypt C (view_of w a) pt) as [[o r'] es] eqn:E. pose proof (lived_commit w a r' es HL (Op_encrypt C u32_msg _ pt o r' es E)) as X. destruct (commit a es w) as [w' ok]. exact X.
  - destruct k as [b|b]; unfold receive; cbn [call_fits] in HF.
    + pose proof (signal_fate_total b) as S. destruct (sig_from_bytes b) as [m|e|]; [|exact HL|exact HL]. pose proof (object_number m (parsed_object b m HF S)) as HU.
      unfold w_decrypt. destruct (decrypt_and_get_key C (view_of w a) m g) as [[[o r'] es] g'] eqn:E. pose proof (lived_commit w a r' es HL (Op_decrypt C u32_msg _ m g o r' es g' HU E)) as X. destruct (commit a es w) as [w' ok]. exact X.
    + pose proof (prekey_fate_total b) as S. destruct (pk_from_bytes b) as [m|e|]; [|exact HL|exact HL]. pose proof (object_number (pm_message m) (parsed_inner b m HF S)) as HU.
      unfold w_decrypt_message. destruct (decrypt_message C (view_of w a) m g) as [[[o r'] es] g'] eqn:E. pose proof (lived_commit w a r' es HL (Op_decrypt_message C u32_msg _ m g o r' es g' HU E)) as X. destruct (commit a es w) as [w' ok]. exact X.
  - unfold w_process_bundle. destruct (process_bundle C (view_of w a) b g) as [[[o r'] es] g'] eqn:E. pose proof (lived_commit w a r' es HL (Op_process_bundle C u32_msg _ b g o r' es g' E)) as X. destruct (commit a es w) as [w' ok]. exact X.
Qed.

(** * Programs *)
Lemma same_refl : forall w, same_stores w w.
Proof. intros w. repeat split. Qed.
Lemma program_total : forall cs w, lived C w -> Forall (fun p => call_fits (snd p)) cs -> program_fate C w cs (fst (run_program C cs w)) (snd (run_program C cs w)).
Proof.
  intros cs. induction cs as [|[a c] cs IH]; intros w HL HF; [apply program_end; apply same_refl|]. inversion HF as [|? ? HC HF']; subst. cbn [snd] in HC.
  destruct (call_exists w a c HL HC) as (o & d & F). destruct (call_sound w a c o d HL HC F) as (w1 & E & HA). pose proof (lived_call w a c HL HC) as HL1. rewrite E in HL1. cbn [snd] in HL1.
  specialize (IH w1 HL1 HF'). cbn [run_program]. rewrite E. destruct (run_program C cs w1) as [l w2]. cbn [fst snd] in *. exact (program_call C w a c o d w1 cs l w2 F HA IH).
Qed.

(** The description looks at the stores only through their contents. *)
Section Same.
Variables (w w' : world) (HS : same_stores w w') (HP : policy_by_contents w).
Lemma same_policy : forall a k, w_policy w' (w_saved w') a k = w_policy w (w_saved w) a k.
Proof. destruct HS as (_ & H & _ & _ & _ & _ & ->). intros a k. apply HP. exact H. Qed.
Lemma same_sessions : forall a, w_sessions w' a = w_sessions w a.
Proof. exact (proj1 HS). Qed.
Lemma same_archive : forall a, archive_now w' a = archive_now w a.
Proof. intros a. unfold archive_now. rewrite same_sessions. reflexivity. Qed.
Lemma same_known : forall a m, session_known w a m -> session_known w' a m.
Proof. intros a m (r & s & E & H). exists r, s. rewrite same_sessions. split; [exact E|exact H]. Qed.
Lemma same_known' : forall a m, session_known w' a m -> session_known w a m.
Proof. intros a m (r & s & E & H). exists r, s. rewrite same_sessions in E. split; [exact E|exact H]. Qed.
Lemma same_unknown : forall a m, session_unknown w a m -> session_unknown w' a m.
Proof. intros a m H K. apply H. apply same_known'. exact K. Qed.
Lemma same_prekeys : forall i, w_prekeys w' i = w_prekeys w i.
Proof. exact (proj1 (proj2 (proj2 HS))). Qed.
Lemma same_signed : w_signed w' = w_signed w.
Proof. exact (proj1 (proj2 (proj2 (proj2 HS)))). Qed.
Lemma same_self : w_self w' = w_self w.
Proof. exact (proj1 (proj2 (proj2 (proj2 (proj2 HS))))). Qed.
Lemma same_reg : w_reg w' = w_reg w.
Proof. exact (proj1 (proj2 (proj2 (proj2 (proj2 (proj2 HS)))))). Qed.
Lemma same_one_time : forall m o, one_time w m o -> one_time w' m o.
Proof. intros m o [H|x p q H1 H2 H3]; [apply one_time_none; exact H|]. apply (one_time_found w' m x p q H1); [rewrite same_prekeys; exact H2|exact H3]. Qed.
Lemma same_responder : forall a m r, responder C w a m r -> responder C w' a m r.
Proof.
  intros a m r (signed & priv & otk & root & chain & S1 & S2 & S3 & S4 & S5 & S6). exists signed, priv, otk, root, chain. rewrite same_signed, same_self, same_reg, same_archive.
  split; [exact S1|]. split; [exact S2|]. split; [apply same_one_time; exact S3|]. split; [exact S4|]. split; [exact S5|exact S6].
Qed.
Lemma same_decrypt : forall a m g o d g', decrypt_fate C w a m g o d g' -> decrypt_fate C w' a m g o d g'.
Proof.
  intros a m g o d g' [E|r o1 g1 E F|r o1 r' you g1 E F Y]; rewrite <- same_sessions in E; [apply decrypt_no_session; exact E|exact (decrypt_fails C w' a m g r o1 g1 E F)|exact (decrypt_reads C w' a m g r o1 r' you g1 E F Y)].
Qed.
Lemma same_encrypt : forall a pt o d, encrypt_fate C w a pt o d -> encrypt_fate C w' a pt o d.
Proof.
  intros a pt o d [E|r sc me you mk body m wire mac ct E A1 A2 A3 A4 A5 A6 A7 A8 A9 A10]; rewrite <- same_sessions in E; [apply encrypt_no_session; exact E|].
  exact (encrypt_sent C w' a pt r sc me you mk body m wire mac ct E A1 A2 A3 A4 A5 A6 A7 A8 A9 A10).
Qed.
Lemma same_bundle : forall a b g o d g', bundle_fate C w a b g o d g' -> bundle_fate C w' a b g o d g'.
Proof.
  intros a b g o d g' H. destruct H as [H1|H1 H2|k H1 H2 H3|k g' H1 H2 H3 H4|k seed1 g1 g' H1 H2 H3 H4 H5|k seed1 g1 seed2 g' root1 chain1 root2 chain2 H1 H2 H3 H4 H5 H6 H7]; rewrite <- same_policy in H1.
  - apply bundle_untrusted. exact H1.
  - apply bundle_unsigned; assumption.
  - exact (bundle_forged C w' a b g k H1 H2 H3).
  - exact (bundle_random C w' a b g k g' H1 H2 H3 H4).
  - exact (bundle_random_again C w' a b g k seed1 g1 g' H1 H2 H3 H4 H5).
  - rewrite <- same_self, <- same_reg, <- same_archive. rewrite <- same_self in H6. exact (SessionCallSpec.bundle_session C w' a b g k seed1 g1 seed2 g' root1 chain1 root2 chain2 H1 H2 H3 H4 H5 H6 H7).
Qed.
Lemma same_message : forall a m g o d g', message_fate C w a m g o d g' -> message_fate C w' a m g o d g'.
Proof.
  intros a m g o d g' H. destruct H as [T|r o g' T K E F|r o r' g' T K E F|T U S|signed oo T U S I P|r o g' T U R F|r x r' id g' T U R F D|r x r' g' T U R F D]; rewrite <- same_policy in T.
  - apply message_untrusted. exact T.
  - apply same_known in K. rewrite <- same_sessions in E. exact (message_repeat_fails C w' a m g r o g' T K E F).
  - apply same_known in K. rewrite <- same_sessions in E. exact (message_repeat C w' a m g r o r' g' T K E F).
  - apply same_unknown in U. rewrite <- same_signed in S. exact (message_unsigned C w' a m g T U S).
  - apply same_unknown in U. rewrite <- same_signed in S. rewrite <- same_prekeys in P. exact (message_used_up C w' a m g signed oo T U S I P).
  - apply same_unknown in U. apply same_responder in R. exact (message_fails C w' a m g r o g' T U R F).
  - apply same_unknown in U. apply same_responder in R. exact (message_read C w' a m g r x r' id g' T U R F D).
  - apply same_unknown in U. apply same_responder in R. exact (message_read_then_crash C w' a m g r x r' g' T U R F D).
Qed.
Lemma same_call : forall a c o d, call_fate C w a c o d -> call_fate C w' a c o d.
Proof.
  intros a c o d [pt o1 d1 H|k g o1 d1 H|b g o1 d1 g' H]; [apply call_encrypt; apply same_encrypt; exact H| |apply (call_bundle C w' a b g o1 d1 g'); apply same_bundle; exact H].
  apply call_receive. destruct H as [b e S|b S|b m o2 d2 g' S F|b e S|b S|b m o2 d2 g' S F].
  - apply signal_unread. exact S.
  - apply signal_unread_crash. exact S.
  - apply (signal_decrypt C w' a g b m o2 d2 g' S). apply same_decrypt. exact F.
  - apply prekey_unread. exact S.
  - apply prekey_unread_crash. exact S.
  - apply (prekey_decrypt C w' a g b m o2 d2 g' S). apply same_message. exact F.
Qed.
Lemma same_applied : forall a d w1, applied w a d w1 -> applied w' a d w1.
Proof.
  destruct HS as (H1 & H2 & H3 & H4 & H5 & H6 & H7). intros a d w1 (A1 & A2 & A3 & A4 & A5 & A6 & A7 & A8 & A9). unfold applied. rewrite H1, H2, H4, H5, H6, H7.
  split; [exact A1|]. split; [exact A2|]. split; [intros b Hb; rewrite H1, H2; exact (A3 b Hb)|]. split; [exact A4|]. split; [intros i Hi; rewrite H3; exact (A5 i Hi)|].
  split; [exact A6|]. split; [exact A7|]. split; [exact A8|exact A9].
Qed.
End Same.
Lemma same_trans : forall w1 w2 w3, same_stores w1 w2 -> same_stores w2 w3 -> same_stores w1 w3.
Proof.
  intros w1 w2 w3 (A1 & A2 & A3 & A4 & A5 & A6 & A7) (B1 & B2 & B3 & B4 & B5 & B6 & B7). unfold same_stores. split; [intros a; rewrite B1; apply A1|]. split; [intros a; rewrite B2; apply A2|].
  split; [intros i; rewrite B3; apply A3|]. split; [rewrite B4; exact A4|]. split; [rewrite B5; exact A5|]. split; [rewrite B6; exact A6|rewrite B7; exact A7].
Qed.
Lemma same_sym : forall w1 w2, same_stores w1 w2 -> same_stores w2 w1.
Proof.
  intros w1 w2 (A1 & A2 & A3 & A4 & A5 & A6 & A7). unfold same_stores. split; [intros a; symmetry; apply A1|]. split; [intros a; symmetry; apply A2|].
  split; [intros i; symmetry; apply A3|]. split; [symmetry; exact A4|]. split; [symmetry; exact A5|]. split; [symmetry; exact A6|symmetry; exact A7].
Qed.
Lemma applied_same : forall w a d w1 w2, applied w a d w1 -> applied w a d w2 -> same_stores w1 w2.
Proof.
  intros w a d w1 w2 (A1 & A2 & A3 & A4 & A5 & A6 & A7 & A8 & A9) (B1 & B2 & B3 & B4 & B5 & B6 & B7 & B8 & B9). unfold same_stores.
  assert (DA : forall b, b = a \/ b <> a). { intros b. destruct (address_eqb b a) eqn:E; [left; apply address_eqb_eq; exact E|right; intros ->; rewrite address_eqb_refl in E; discriminate E]. }
  split; [intros b; destruct (DA b) as [-> | N]; [rewrite A1, B1; reflexivity|rewrite (proj1 (A3 b N)), (proj1 (B3 b N)); reflexivity]|].
  split; [intros b; destruct (DA b) as [-> | N]; [rewrite A2, B2; reflexivity|rewrite (proj2 (A3 b N)), (proj2 (B3 b N)); reflexivity]|].
  split.
  { intros i. assert (DI : used_prekey d = Some i \/ used_prekey d <> Some i). { destruct (used_prekey d) as [j|]; [|right; discriminate]. destruct (N.eq_dec j i) as [-> | N]; [left; reflexivity|right; intros E; injection E as E; exact (N E)]. }
    destruct DI as [E|E]; [rewrite (A4 i E), (B4 i E); reflexivity|rewrite (A5 i E), (B5 i E); reflexivity]. }
  rewrite A6, A7, A8, A9. split; [exact B6|]. split; [exact B7|]. split; [exact B8|exact B9].
Qed.
Lemma program_same : forall w cs l w2, program_fate C w cs l w2 -> forall w', same_stores w w' -> policy_by_contents w -> program_fate C w' cs l w2.
Proof.
  intros w cs l w2 H w' HS HP. destruct H as [w w2 HS2|w a c o d w1 rest l w2 F A R].
  - apply program_end. apply (same_trans w' w w2); [apply same_sym; exact HS|exact HS2].
  - apply (program_call C w' a c o d w1 rest l w2); [apply (same_call w w' HS HP); exact F|apply (same_applied w w' HS); exact A|exact R].
Qed.
Lemma program_det : forall cs w l w2, lived C w -> Forall (fun p => call_fits (snd p)) cs -> policy_by_contents w -> program_fate C w cs l w2 ->
  l = fst (run_program C cs w) /\ same_stores (snd (run_program C cs w)) w2.
Proof.
  intros cs. induction cs as [|[a c] cs IH]; intros w l w2 HL HF HP H.
  - inversion H; subst. split; [reflexivity|assumption].
  - inversion HF as [|? ? HC HF']; subst. cbn [snd] in HC. inversion H as [|? ? ? o d w1 ? l' ? F A R]; subst.
    destruct (call_sound w a c o d HL HC F) as (w1' & E & HA). pose proof (lived_call w a c HL HC) as HL1. rewrite E in HL1. cbn [snd] in HL1.
    pose proof (applied_same w a d w1 w1' A HA) as HS. assert (HP1 : policy_by_contents w1). { destruct A as (_ & _ & _ & _ & _ & _ & _ & _ & EP). unfold policy_by_contents. rewrite EP. exact HP. }
    pose proof (program_same w1 cs l' w2 R w1' HS HP1) as R'.
    assert (HP1' : policy_by_contents w1'). { destruct HA as (_ & _ & _ & _ & _ & _ & _ & _ & EP). unfold policy_by_contents. rewrite EP. exact HP. }
    destruct (IH w1' l' w2 HL1 HF' HP1' R') as [-> HE]. cbn [run_program]. rewrite E. destruct (run_program C cs w1') as [l2 w3]. cbn [fst snd] in *. split; [reflexivity|exact HE].
Qed.
End P.
