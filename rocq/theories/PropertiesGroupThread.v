(** PropertiesGroupThread.v: C77, group calls running at the same time. *)
From Coq Require Import List Lia NArith.
From Verif Require Import Base Labels Crypto Bytehelper Ecc Cbc Messages SessionState Group Address GroupSpec GroupProofs GroupProofs2 GroupStoreSpec GroupConvSpec GroupThreadSpec GroupThreadProofs Toy PropertiesGroup.
Import ListNotations.
Local Open Scope list_scope.

(** Threads for different sender key names, under every schedule of their accesses to the store: each gets, call by call, the answers it gets
    alone; when it is done the record of its name is the one it leaves alone; names nobody works on keep their records. *)
Theorem C77_threads_do_not_interfere : forall C w0 ps sched w ts, NoDup (map fst ps) -> ginterleave C sched w0 (map glaunch ps) = (w, ts) ->
  length ts = length ps /\
  (forall i t, nth_error ts i = Some t -> exists n prog, nth_error ps i = Some (n, prog) /\
     (exists rest, fst (gplay C prog (w0 n)) = gt_outs t ++ rest) /\
     (gfinished t -> gt_outs t = fst (gplay C prog (w0 n)) /\ w n = snd (gplay C prog (w0 n)))) /\
  (forall n, ~ In n (map fst ps) -> w n = w0 n).
Proof.
  intros C w0 ps sched w ts D H. destruct (interleave_track C sched w0 ps w0 (map glaunch ps) w ts D) as (I & L & U); [|exact H|].
  { intros i t E. rewrite nth_error_map in E. destruct (nth_error ps i) as [p|]; [|discriminate E]. injection E as <-. exists p. split; [reflexivity|]. split; [reflexivity|].
    exists [], (w0 (fst p)). split; [reflexivity|]. split; reflexivity. }
  split; [rewrite L; apply map_length|]. split; [|exact U]. intros i t E. destruct (I i t E) as ([n prog] & Ep & _ & done & st & P & R). cbn [fst snd] in *. exists n, prog. split; [exact Ep|]. split.
  - assert (X : exists l, prog = done ++ l) by (destruct (gt_busy t) as [[a es]|]; [destruct R as (c & -> & _); eexists; reflexivity|destruct R as (-> & _); eexists; reflexivity]).
    destruct X as (l & ->). rewrite gplay_app, P. destruct (gplay C l st) as [o2 s2]. exists o2. reflexivity.
  - intros (F1 & F2). rewrite F2, F1 in R. destruct R as (-> & W). rewrite app_nil_r, P. split; [reflexivity|exact W].
Qed.

(** For the same name the calls do interfere. Two Encrypts that have both loaded before either has stored answer, if they succeed, with two
    messages of the same sender key id and iteration, made with the same message key; a member that reads one refuses the other for ever. *)
Lemma encrypt_place : forall C st pt g m r es g', group_encrypt C st pt g = (Ok m, r, es, g') ->
  exists s l, st = Some (s :: l) /\ km_id m = gs_id s /\ km_iter m = gc_iter (gs_chain s) /\ exists k ct, g_message_key C (gs_chain s) = Ok k /\ encrypt_cbc C (gm_iv k) (gm_cipher k) pt = Ok ct /\ km_ct m = Some ct.
Proof.
  intros C st pt g m r es g' H. unfold group_encrypt in H. destruct st as [l|]; [|discriminate H]. unfold g_first in H. destruct l as [|s l]; [discriminate H|].
  destruct (g_message_key C (gs_chain s)) as [k|e|] eqn:K; [|discriminate H|discriminate H]. destruct (encrypt_cbc C (gm_iv k) (gm_cipher k) pt) as [ct|e|] eqn:E; [|discriminate H|discriminate H].
  destruct (new_sender_key_message C (gs_id s) (gm_iter k) ct (kp_priv (gs_signing s)) g) as [[x|e|] g1] eqn:M; [|discriminate H|discriminate H]. injection H as <- _ _ _.
  unfold new_sender_key_message in M. destruct (kp_priv (gs_signing s)) as [p|]; [|discriminate M]. destruct (calculate_signature C p _ g) as [sig g2]. injection M as <- _.
  exists s, l. split; [reflexivity|]. split; [reflexivity|]. assert (KI : gm_iter k = gc_iter (gs_chain s)).
  { unfold g_message_key, new_gmsg_key in K. destruct (derive_secrets C _ None group_kdf_info 48) as [d|e|]; [|discriminate K|discriminate K]. cbn [bind] in K. destruct (split_two d 16 32) as [q|e|]; [|discriminate K|discriminate K]. cbn [bind] in K. apply (f_equal (fun x => match x with Ok y => gm_iter y | _ => 0%N end)) in K. symmetry. exact K. }
  split; [exact KI|]. exists k, ct. split; [exact K|]. split; [exact E|reflexivity].
Qed.
Theorem C77_racing_encrypts : forall C, crypto_laws C -> forall n pt1 pt2 g1 g2 rest w w' t1 t2 m1 m2,
  ginterleave C (0 :: 1 :: rest) w (map glaunch [(n, [CEncrypt pt1 g1]); (n, [CEncrypt pt2 g2])]) = (w', [t1; t2]) ->
  gt_outs t1 = [AMessage (Ok m1)] -> gt_outs t2 = [AMessage (Ok m2)] ->
  km_id m1 = km_id m2 /\ km_iter m1 = km_iter m2 /\
  (exists iv key ct1 ct2, encrypt_cbc C iv key pt1 = Ok ct1 /\ encrypt_cbc C iv key pt2 = Ok ct2 /\ km_ct m1 = Some ct1 /\ km_ct m2 = Some ct2) /\
  forall r pt m1' r1 es r2, greachable C g_no_wrap r -> g_no_wrap (km_iter m1) -> group_decrypt C (Some r) m1 = (Ok pt, m1', Some r1, es) -> gsteps C g_no_wrap r1 r2 ->
    forall x, fst (gw_decrypt C m2 (Some r2)) <> Ok x.
Proof.
  intros C L n pt1 pt2 g1 g2 rest w w' t1 t2 m1 m2 H O1 O2. cbn [map glaunch fst snd ginterleave nth_error gadvance gt_busy gt_todo gt_name gset] in H.
  apply settled in H; [|repeat constructor]. cbn [map] in H. unfold answers_of in H. cbn [gt_outs gt_busy app] in H. rewrite O1, O2 in H.
  pose proof (f_equal (fun l => hd_error (nth 0 l [])) H) as H1. pose proof (f_equal (fun l => hd_error (nth 1 l [])) H) as H2. cbn [nth app hd_error] in H1, H2. clear H.
  assert (A1 : fst (greact C (CEncrypt pt1 g1) (w n)) = AMessage (Ok m1)) by (destruct (greact C (CEncrypt pt1 g1) (w n)); injection H1 as <-; reflexivity).
  assert (A2 : fst (greact C (CEncrypt pt2 g2) (w n)) = AMessage (Ok m2)) by (destruct (greact C (CEncrypt pt2 g2) (w n)); injection H2 as <-; reflexivity).
  clear H1 H2. cbn [greact] in A1, A2. destruct (group_encrypt C (w n) pt1 g1) as [[[o1 x1] e1] y1] eqn:E1. destruct (group_encrypt C (w n) pt2 g2) as [[[o2 x2] e2] y2] eqn:E2. cbn [fst] in A1, A2. injection A1 as ->. injection A2 as ->.
  destruct (encrypt_place _ _ _ _ _ _ _ _ E1) as (s1 & l1 & W1 & I1 & J1 & k1 & c1 & K1 & D1 & F1). destruct (encrypt_place _ _ _ _ _ _ _ _ E2) as (s2 & l2 & W2 & I2 & J2 & k2 & c2 & K2 & D2 & F2).
  rewrite W1 in W2. injection W2 as <- <-. rewrite K1 in K2. injection K2 as <-. assert (I : km_id m1 = km_id m2) by (rewrite I1, I2; reflexivity). assert (J : km_iter m1 = km_iter m2) by (rewrite J1, J2; reflexivity).
  split; [exact I|]. split; [exact J|]. split; [exists (gm_iv k1), (gm_cipher k1), c1, c2; repeat split; assumption|].
  intros r pt m1' r1 es r2 G N D S x X. unfold gw_decrypt in X. destruct (group_decrypt C (Some r2) m2) as [[[o m2'] r3] es2] eqn:E. cbn [fst] in X. subst o.
  assert (R : exists r', r3 = Some r').
  { clear -E. unfold group_decrypt in E. destruct r2 as [|s0 l0]; [discriminate E|]. destruct (g_by_id (km_id m2) (s0 :: l0)) as [s|e|]; [|discriminate E|discriminate E].
    destruct (verify_signature C (kp_pub (gs_signing s)) (skm_unsigned m2) (skm_signature m2)); [|discriminate E]. cbn [negb] in E.
    destruct (g_get_key C s (km_iter m2)) as [[k|e|] s']; [|discriminate E|discriminate E]. cbv zeta in E. destruct (decrypt_cbc_full C (Some (gm_iv k)) (gm_cipher k) (skm_body m2)) as [[y|e|] ct']; [|discriminate E|discriminate E].
    apply (f_equal (fun q => snd (fst q))) in E. eexists. symmetry. exact E. }
  destruct R as (r' & ->).
  exact (proj1 (C33_at_most_once C L r m1 pt m1' r1 es r2 m2 G N D S (eq_sym I) (eq_sym J) _ _ _ _ E) x eq_refl).
Qed.

(** *** Concrete threads *)
Definition n1 : skname := ([x67], {| a_name := [x61]; a_device := 1 |}).
Definition n2 : skname := ([x68], {| a_name := [x61]; a_device := 1 |}).
Definition empty_stores : gstores := fun _ => None.
Definition gA : rng := [Some [x21]; Some [x01; x02]; Some [x41]].
Definition gB : rng := [Some [x22]; Some [x05; x02]; Some [x42]].
Definition two : list (skname * list gcall) := [(n1, [CCreate gA; CEncrypt [x61] []]); (n2, [CCreate gB; CEncrypt [x62] []])].
Definition brief (a : ganswer) : option bytes := match a with AMessage (Ok m) => km_ct m | _ => None end.
Example C77_two_names : NoDup (map fst two) /\
  map (fun t => (length (gt_outs t), gt_todo t, match gt_busy t with None => true | _ => false end)) (snd (ginterleave toy [0; 1; 0; 1; 1; 0; 0; 1; 1; 0; 0; 1]%nat empty_stores (map glaunch two))) = [(2, [], true); (2, [], true)]%nat.
Proof. split; [repeat constructor; cbn; intros [E|[]] || intros []; discriminate E|vm_compute; reflexivity]. Qed.

(** Two Encrypts with the record of n1: both succeed. *)
Definition created : gstores := fst (ginterleave toy [0; 0; 0]%nat empty_stores (map glaunch [(n1, [CCreate gA])])).
Definition race : list gthread := snd (ginterleave toy [0; 1; 0; 1; 0; 1]%nat created (map glaunch [(n1, [CEncrypt [x61] []]); (n1, [CEncrypt [x62] []])])).
Example C77_race_hyps : match race with [t1; t2] => match gt_outs t1, gt_outs t2 with [AMessage (Ok m1)], [AMessage (Ok m2)] => km_ct m1 <> km_ct m2 | _, _ => False end | _ => False end.
Proof. vm_compute. discriminate. Qed.

(** Two Creates at the same time: both return a distribution message, but the key of the first is gone: members that were given it cannot read
    what is sent afterwards. *)
Definition dist (g : rng) : skd := match fst (gw_create toy g None) with Ok d => d | _ => new_skd 0 0 [] (zero_arr 32) end.
Definition message (g : rng) (pt : bytes) : skm := match fst (gw_encrypt toy pt [] (snd (gw_create toy g None))) with Ok m => m | _ => ex_skm end.
Definition no_thread : gthread := {| gt_name := n1; gt_todo := []; gt_busy := None; gt_outs := [] |}.
Definition skm_of (o : res skm) : skm := match o with Ok m => m | _ => ex_skm end.
Definition create_race : gstores * list gthread := ginterleave toy [0; 1; 0; 0; 1; 1]%nat (fun _ => None) (map glaunch [(n1, [CCreate gA]); (n1, [CCreate gB])]).
Definition race_enc : res skm * option grecord := gw_encrypt toy [x61] [] (fst create_race n1).
Theorem C77_racing_creates_refuted : exists C, crypto_laws C /\ exists n gA gB sched w t1 t2 d1 d2 pt,
  ginterleave C sched (fun _ => None) (map glaunch [(n, [CCreate gA]); (n, [CCreate gB])]) = (w, [t1; t2]) /\
  gt_outs t1 = [ADistribution (Ok d1)] /\ gt_outs t2 = [ADistribution (Ok d2)] /\
  exists m st, gw_encrypt C pt [] (w n) = (Ok m, st) /\ fst (gw_decrypt C m (gw_process d2 None)) = Ok pt /\ fst (gw_decrypt C m (gw_process d1 None)) = Err ENoSenderKeyForId.
Proof.
  exists toy. split; [exact toy_laws|]. exists n1, gA, gB, [0; 1; 0; 0; 1; 1]%nat, (fst create_race), (hd no_thread (snd create_race)), (hd no_thread (tl (snd create_race))), (dist gA), (dist gB), [x61].
  assert (E : ginterleave toy [0; 1; 0; 0; 1; 1]%nat (fun _ => None) (map glaunch [(n1, [CCreate gA]); (n1, [CCreate gB])]) = create_race) by reflexivity.
  assert (X : length (snd create_race) = 2%nat) by (vm_compute; reflexivity).
  split; [rewrite E; destruct create_race as [w [|t1 [|t2 [|t3 l]]]]; (discriminate X || reflexivity)|]. split; [vm_compute; reflexivity|]. split; [vm_compute; reflexivity|].
  exists (skm_of (fst race_enc)), (snd race_enc). fold race_enc.
  assert (Y : fst race_enc = Ok (skm_of (fst race_enc))) by (vm_compute; reflexivity). split; [destruct race_enc as [o st]; cbn [fst snd] in *; rewrite Y at 1; reflexivity|]. split; vm_compute; reflexivity.
Qed.

(** A Process that overlaps a Decrypt: the new sender key is lost, and its messages are refused. *)
Definition joined : gstores := fun _ => gw_process (dist gA) None.
Definition lost_race : gstores * list gthread := ginterleave toy [0; 1; 1; 1; 0; 0]%nat joined (map glaunch [(n1, [CDecrypt (message gA [x61])]); (n1, [CProcess (dist gB)])]).
Theorem C77_process_lost_refuted : exists C, crypto_laws C /\ exists n w0 sched w t1 t2 m d m2 pt2,
  ginterleave C sched w0 (map glaunch [(n, [CDecrypt m]); (n, [CProcess d])]) = (w, [t1; t2]) /\
  (exists pt, gt_outs t1 = [APlain (Ok pt)]) /\ gt_outs t2 = [AProcessed] /\
  fst (gw_decrypt C m2 (gw_process d (w0 n))) = Ok pt2 /\ fst (gw_decrypt C m2 (w n)) = Err ENoSenderKeyForId.
Proof.
  exists toy. split; [exact toy_laws|]. exists n1, joined, [0; 1; 1; 1; 0; 0]%nat, (fst lost_race), (hd no_thread (snd lost_race)), (hd no_thread (tl (snd lost_race))), (message gA [x61]), (dist gB), (message gB [x62]), [x62].
  assert (E : ginterleave toy [0; 1; 1; 1; 0; 0]%nat joined (map glaunch [(n1, [CDecrypt (message gA [x61])]); (n1, [CProcess (dist gB)])]) = lost_race) by reflexivity.
  assert (X : length (snd lost_race) = 2%nat) by (vm_compute; reflexivity).
  split; [rewrite E; destruct lost_race as [w [|t1 [|t2 [|t3 l]]]]; (discriminate X || reflexivity)|]. split; [exists [x61]; vm_compute; reflexivity|]. split; [vm_compute; reflexivity|]. split; vm_compute; reflexivity.
Qed.

Print Assumptions C77_threads_do_not_interfere.
Print Assumptions C77_racing_encrypts.
Print Assumptions C77_racing_creates_refuted.
Print Assumptions C77_process_lost_refuted.
