(** QuietProofs.v: proofs for C89. *)
From Coq Require Import List Arith NArith ZArith Lia.
From Verif Require Import Base Labels Crypto Bytehelper Ecc Cbc Wire Itoa Keys Messages SessionState SessionRecord SessionBuilder SessionCipher Address World Group ConvSpec ThreadSpec SessionCallSpec
  GroupSpec GroupStoreSpec CryptoProofs QuietSpec.
Import ListNotations.
Local Open Scope list_scope.
Local Notation view_of := World.view_of.

Section P.
Context (C : crypto).

(** * Sessions *)

Lemma attempt_alike : forall s m1 m2 g o1 s1 g1 o2 s2 g2, alike m1 m2 ->
  decrypt_with_state C s m1 g = (o1, s1, g1) -> decrypt_with_state C s m2 g = (o2, s2, g2) -> g1 = g2 /\ ((fine o1 <-> fine o2) -> s1 = s2).
Proof.
  intros s m1 m2 g o1 s1 g1 o2 s2 g2 (A1 & A2 & A3) H1 H2. unfold decrypt_with_state in H1, H2. rewrite <- A1, <- A2, <- A3 in H2.
  destruct (s_sender s); [|injection H1 as <- <- <-; injection H2 as <- <- <-; split; reflexivity].
  destruct (negb _); [injection H1 as <- <- <-; injection H2 as <- <- <-; split; reflexivity|].
  destruct (get_or_create_chain_key C s (sm_ratchet m1) g) as [[[ck| |] sa] ga]; [|injection H1 as <- <- <-; injection H2 as <- <- <-; split; reflexivity..].
  destruct (get_or_create_message_keys C sa (sm_ratchet m1) ck (sg_counter (sm_struct m1))) as [[mk| |] sb];
    [|injection H1 as <- <- <-; injection H2 as <- <- <-; split; reflexivity..].
  destruct (s_remote_id sb) as [rid|]; [|injection H1 as <- <- <-; injection H2 as <- <- <-; split; reflexivity].
  destruct (s_local_id sb) as [lid|]; [|injection H1 as <- <- <-; injection H2 as <- <- <-; split; reflexivity].
  assert (K : forall m (o : res (bytes * msg_keys)) st gg,
    match verify_mac C m (sg_version (sm_struct m1)) rid lid (mk_mac mk) with
    | Err e => (Err e, sb, ga) | Panic => (Panic, sb, ga)
    | Ok _ => match decrypt_with_key C m mk with Err e => (Err e, sb, ga) | Panic => (Panic, sb, ga) | Ok pt => (Ok (pt, mk), set_pending None sb, ga) end
    end = (o, st, gg) -> gg = ga /\ ((fine o /\ st = set_pending None sb) \/ (~ fine o /\ st = sb))).
  { intros m o st gg H. destruct (verify_mac C m _ rid lid (mk_mac mk)); [destruct (decrypt_with_key C m mk)| |];
      injection H as <- <- <-; (split; [reflexivity|]); first [left; split; [eexists; reflexivity|reflexivity] | right; split; [intros [x HX]; discriminate HX|reflexivity]]. }
  destruct (K _ _ _ _ H1) as [-> K1]. destruct (K _ _ _ _ H2) as [-> K2]. split; [reflexivity|]. intros HF.
  destruct K1 as [[F1 ->] | [F1 ->]]; destruct K2 as [[F2 ->] | [F2 ->]]; try reflexivity; exfalso; tauto.
Qed.

Lemma try_alike : forall l m1 m2 g i1 x1 l1 g1 i2 x2 l2 g2, alike m1 m2 ->
  (forall s g, In s l -> fine (fst (fst (decrypt_with_state C s m1 g))) <-> fine (fst (fst (decrypt_with_state C s m2 g)))) ->
  try_prev C l m1 g = (Ok (i1, x1), l1, g1) -> try_prev C l m2 g = (Ok (i2, x2), l2, g2) -> i1 = i2 /\ l1 = l2 /\ g1 = g2.
Proof.
  induction l as [|s l IH]; intros m1 m2 g i1 x1 l1 g1 i2 x2 l2 g2 HA HR H1 H2; cbn [try_prev] in H1, H2; [discriminate H1|].
  assert (HS := HR s g (or_introl eq_refl)).
  destruct (decrypt_with_state C s m1 g) as [[oa sa] ga] eqn:E1. destruct (decrypt_with_state C s m2 g) as [[ob sb] gb] eqn:E2. cbn [fst] in HS.
  destruct (attempt_alike _ _ _ _ _ _ _ _ _ _ HA E1 E2) as [<- HQ]. specialize (HQ HS). subst sb.
  destruct oa as [xa|ea|]; destruct ob as [xb|eb|]; try discriminate H1; try discriminate H2;
    try (exfalso; destruct HS as [HS1 HS2]; first [destruct (HS1 (ex_intro _ _ eq_refl)) as [? HX]; discriminate HX|destruct (HS2 (ex_intro _ _ eq_refl)) as [? HX]; discriminate HX]).
  - injection H1 as <- _ <- <-. injection H2 as <- _ <- <-. repeat split.
  - destruct (try_prev C l m1 ga) as [[[[j1 y1]| |] k1] h1] eqn:F1; try discriminate H1. destruct (try_prev C l m2 ga) as [[[[j2 y2]| |] k2] h2] eqn:F2; try discriminate H2.
    injection H1 as <- _ <- <-. injection H2 as <- _ <- <-.
    destruct (IH _ _ _ _ _ _ _ _ _ _ _ HA (fun s g HI => HR s g (or_intror HI)) F1 F2) as (-> & -> & ->). repeat split.
Qed.

Lemma record_alike : forall r m1 m2 g x1 r1 g1 x2 r2 g2, alike m1 m2 -> same_readers C r m1 m2 ->
  decrypt_with_record C r m1 g = (Ok x1, r1, g1) -> decrypt_with_record C r m2 g = (Ok x2, r2, g2) -> r1 = r2 /\ g1 = g2.
Proof.
  intros r m1 m2 g x1 r1 g1 x2 r2 g2 HA HR H1 H2. unfold decrypt_with_record in H1, H2. destruct HR as [HR|HR].
  { rewrite HR in H1, H2. cbn [try_prev] in H1, H2.
    destruct (decrypt_with_state C (r_cur r) m1 g) as [[[z1| |] s1] h1] eqn:E1; try discriminate H1.
    destruct (decrypt_with_state C (r_cur r) m2 g) as [[[z2| |] s2] h2] eqn:E2; try discriminate H2.
    destruct (attempt_alike _ _ _ _ _ _ _ _ _ _ HA E1 E2) as [<- HQ]. rewrite <- (HQ ltac:(split; intros _; eexists; reflexivity)) in H2.
    injection H1 as _ <- <-. injection H2 as _ <- <-. split; reflexivity. }
  assert (HS := HR (r_cur r) g (or_introl eq_refl)).
  destruct (decrypt_with_state C (r_cur r) m1 g) as [[oa sa] ga] eqn:E1. destruct (decrypt_with_state C (r_cur r) m2 g) as [[ob sb] gb] eqn:E2. cbn [fst] in HS.
  destruct (attempt_alike _ _ _ _ _ _ _ _ _ _ HA E1 E2) as [<- HQ]. specialize (HQ HS). subst sb.
  destruct oa as [xa|ea|]; destruct ob as [xb|eb|]; try discriminate H1; try discriminate H2;
    try (exfalso; destruct HS as [HS1 HS2]; first [destruct (HS1 (ex_intro _ _ eq_refl)) as [? HX]; discriminate HX|destruct (HS2 (ex_intro _ _ eq_refl)) as [? HX]; discriminate HX]).
  - injection H1 as _ <- <-. injection H2 as _ <- <-. split; reflexivity.
  - destruct (try_prev C (r_prev r) m1 ga) as [[[[j1 y1]| |] k1] h1] eqn:F1; try discriminate H1. destruct (try_prev C (r_prev r) m2 ga) as [[[[j2 y2]| |] k2] h2] eqn:F2; try discriminate H2.
    destruct (try_alike _ _ _ _ _ _ _ _ _ _ _ _ HA (fun s g HI => HR s g (or_intror HI)) F1 F2) as (<- & <- & <-).
    destruct (nth_error k1 j1) as [st|]; [|discriminate H1]. injection H1 as _ <- <-. injection H2 as _ <- <-. split; reflexivity.
Qed.

Lemma seal_ok : forall A ok (o : res A) x, seal ok o = Ok x -> o = Ok x /\ ok = true.
Proof. intros A [] o x H; [split; [exact H|reflexivity]|discriminate H]. Qed.

Lemma decrypt_alike : forall a m1 m2 g w x1 w1 g1 x2 w2 g2, alike m1 m2 -> same_readers C (v_load (view_of w a)) m1 m2 ->
  w_decrypt C a m1 g w = (Ok x1, w1, g1) -> w_decrypt C a m2 g w = (Ok x2, w2, g2) -> w1 = w2 /\ g1 = g2.
Proof.
  intros a m1 m2 g w x1 w1 g1 x2 w2 g2 HA HR H1 H2. unfold w_decrypt, decrypt_and_get_key in H1, H2.
  destruct (negb (v_contains (view_of w a))); [cbn [commit seal] in H1; discriminate H1|].
  destruct (decrypt_with_record C (v_load (view_of w a)) m1 g) as [[[y1| |] r1] h1] eqn:E1; try (cbn [commit seal] in H1; discriminate H1).
  destruct (decrypt_with_record C (v_load (view_of w a)) m2 g) as [[[y2| |] r2] h2] eqn:E2; try (cbn [commit seal] in H2; discriminate H2).
  destruct (record_alike _ _ _ _ _ _ _ _ _ _ HA HR E1 E2) as [<- <-].
  destruct (s_remote_id (r_cur r1)) as [rid|]; [|cbn [commit seal] in H1; discriminate H1].
  destruct (commit a [SaveIdentity rid; StoreSession r1] w) as [w' ok]. apply pair_equal_spec in H1. apply pair_equal_spec in H2.
  destruct H1 as [H1 <-]. destruct H2 as [H2 <-]. apply pair_equal_spec in H1. apply pair_equal_spec in H2. destruct H1 as [_ <-]. destruct H2 as [_ <-]. split; reflexivity.
Qed.

Lemma process_alike : forall v p1 p2, alike_first p1 p2 -> process C v (v_load v) p1 = process C v (v_load v) p2.
Proof.
  intros v p1 p2 (A1 & A2 & A3 & A4 & A5 & A6 & _). unfold process, process_v3. rewrite A1, A2, A3, A4, A5, A6. reflexivity.
Qed.

Lemma message_alike : forall a p1 p2 g w x1 w1 g1 x2 w2 g2, alike_first p1 p2 -> same_readers C (after_process C (view_of w a) p1) (pm_message p1) (pm_message p2) ->
  w_decrypt_message C a p1 g w = (Ok x1, w1, g1) -> w_decrypt_message C a p2 g w = (Ok x2, w2, g2) -> w1 = w2 /\ g1 = g2.
Proof.
  intros a p1 p2 g w x1 w1 g1 x2 w2 g2 HA HR H1 H2. unfold w_decrypt_message, decrypt_message in H1, H2. unfold after_process in HR.
  rewrite <- (process_alike (view_of w a) p1 p2 HA) in H2.
  destruct (process C (view_of w a) (v_load (view_of w a)) p1) as [[[id| |] r] ef];
    [|destruct (commit a ef w) as [? []]; discriminate H1|destruct (commit a ef w) as [? []]; discriminate H1].
  destruct (decrypt_with_record C r (pm_message p1) g) as [[[y1| |] r1] h1] eqn:E1;
    [|destruct (commit a ef w) as [? []]; discriminate H1|destruct (commit a ef w) as [? []]; discriminate H1].
  destruct (decrypt_with_record C r (pm_message p2) g) as [[[y2| |] r2] h2] eqn:E2;
    [|destruct (commit a ef w) as [? []]; discriminate H2|destruct (commit a ef w) as [? []]; discriminate H2].
  destruct (record_alike _ _ _ _ _ _ _ _ _ _ (proj2 (proj2 (proj2 (proj2 (proj2 (proj2 HA)))))) HR E1 E2) as [<- <-].
  destruct id as [o|]; [|destruct (commit a (ef ++ [StoreSession r1]) w) as [? []]; discriminate H1].
  destruct (commit a _ w) as [w' ok]. apply pair_equal_spec in H1. apply pair_equal_spec in H2.
  destruct H1 as [H1 <-]. destruct H2 as [H2 <-]. apply pair_equal_spec in H1. apply pair_equal_spec in H2. destruct H1 as [_ <-]. destruct H2 as [_ <-]. split; reflexivity.
Qed.

Lemma trim_length : forall l n r, trim l n = Ok r -> length r = n.
Proof.
  intros l n r H. unfold trim in H. destruct (Nat.ltb_spec (length l) n) as [L|L]; [discriminate H|]. injection H as <-. rewrite firstn_length. lia.
Qed.

(** A message of Encrypt and the record it leaves, read off the code. *)
Definition sent_struct (s : state) (sc : chain) (body mac : bytes) : sig_struct :=
  {| sg_ratchet := Some (ser_pub (kp_pub (ch_pair sc))); sg_counter := ck_index (ch_key sc); sg_prev := s_prev_counter s;
     sg_ct := Some body; sg_version := s_version s; sg_mac := Some mac |}.
Definition sent_shape (s : state) (st : sig_struct) (ct : ct_msg) : Prop :=
  match s_pending s with
  | None => exists m, ct = CSignal m /\ sm_struct m = st /\ sig_from_struct st = Ok m
  | Some p => exists pm lid, ct = CPreKey pm /\ s_local_id s = Some lid /\
      pm_struct pm = {| pk_reg := s_local_reg s; pk_prekey_id := pp_id p; pk_signed_id := pp_signed p; pk_base := Some (ser_pub (pp_base p));
                        pk_identity := Some (ser_pub lid); pk_message := Some (sig_serialize st); pk_version := s_version s |}
  end.
Lemma encrypt_shape : forall v pt ct r' es, encrypt C v pt = (Ok ct, r', es) ->
  let s := r_cur (v_load v) in
  exists sc rid body mac, s_sender s = Some sc /\ s_remote_id s = Some rid /\
    encrypt_cbc C (mk_iv (message_keys C (ch_key sc))) (mk_cipher (message_keys C (ch_key sc))) pt = Ok body /\ length mac = 8%nat /\
    r' = set_cur (set_sender_chain_key (next_key C (ch_key sc)) s) (v_load v) /\ es = [SaveIdentity rid; StoreSession r'] /\
    sent_shape s (sent_struct s sc body mac) ct.
Proof.
  intros v pt ct r' es H s. unfold encrypt in H. fold s in H.
  destruct (s_sender s) as [sc|] eqn:ESc; [|discriminate H].
  destruct (encrypt_cbc C _ _ pt) as [body| |] eqn:EB; try discriminate H.
  destruct (s_local_id s) as [lid|] eqn:ELid; [|discriminate H]. destruct (s_remote_id s) as [rid|] eqn:ERid; [|discriminate H].
  destruct (new_signal_message C _ _ _ _ _ _ _ _) as [m| |] eqn:EM; try discriminate H.
  unfold new_signal_message in EM. destruct (get_mac C _ lid rid _ _) as [mac| |] eqn:EG; try discriminate EM. cbn [bind] in EM.
  assert (HL : length mac = 8%nat) by exact (trim_length _ _ _ EG).
  fold (sent_struct s sc body mac) in EM.
  assert (HM : sm_struct m = sent_struct s sc body mac).
  { unfold sig_from_struct in EM. destruct (_ <=? _)%Z; [discriminate EM|]. destruct (_ >? _)%Z; [discriminate EM|]. cbn [sg_ct sg_ratchet sent_struct] in EM.
    destruct (decode_point _); try discriminate EM. injection EM as <-. reflexivity. }
  exists sc, rid, body, mac. unfold sent_shape. split; [exact eq_refl|]. split; [exact eq_refl|]. split; [exact EB|]. split; [exact HL|].
  destruct (s_pending s) as [p|] eqn:EP.
  - destruct (new_prekey_message _ _ _ _ _ _ _) as [pm| |] eqn:EN; try discriminate H. cbn [bind] in H. injection H as <- <- <-.
    split; [reflexivity|]. split; [reflexivity|]. exists pm, lid. split; [reflexivity|]. split; [exact ELid|].
    unfold new_prekey_message, pk_from_struct in EN. cbn [pk_version pk_base pk_identity pk_message] in EN.
    destruct (_ <=? _)%Z; [discriminate EN|]. destruct (_ >? _)%Z; [discriminate EN|].
    destruct (decode_point _); try discriminate EN. cbn [bind] in EN. destruct (decode_point _); try discriminate EN. cbn [bind] in EN. destruct (sig_from_bytes _); try discriminate EN. cbn [bind] in EN.
    injection EN as <-. cbn [pm_struct]. unfold sig_msg_bytes. rewrite HM. reflexivity.
  - injection H as <- <- <-. split; [reflexivity|]. split; [reflexivity|]. exists m. split; [reflexivity|]. split; [exact HM|exact EM].
Qed.

Lemma w_encrypt_inv : forall a t w c w1, w_encrypt C a t w = (Ok c, w1) ->
  exists r' es, encrypt C (view_of w a) t = (Ok c, r', es) /\ w1 = fst (commit a es w).
Proof.
  intros a t w c w1 H. unfold w_encrypt in H. destruct (encrypt C (view_of w a) t) as [[o r] es] eqn:E. destruct (commit a es w) as [v k] eqn:F.
  apply pair_equal_spec in H. destruct H as [H <-]. apply seal_ok in H. destruct H as [-> _]. exists r, es. split; [reflexivity|]. rewrite F. reflexivity.
Qed.

Lemma encrypt_alike : forall a t1 t2 w c1 w1 c2 w2, w_encrypt C a t1 w = (Ok c1, w1) -> w_encrypt C a t2 w = (Ok c2, w2) -> w1 = w2.
Proof.
  intros a t1 t2 w c1 w1 c2 w2 H1 H2. apply w_encrypt_inv in H1. apply w_encrypt_inv in H2. destruct H1 as (r1 & e1 & E1 & ->). destruct H2 as (r2 & e2 & E2 & ->).
  apply encrypt_shape in E1. apply encrypt_shape in E2. destruct E1 as (sc & rid & body & mac & A1 & A3 & _ & _ & -> & -> & _).
  destruct E2 as (sc2 & rid2 & body2 & mac2 & B1 & B3 & _ & _ & -> & -> & _).
  rewrite A1 in B1. injection B1 as <-. rewrite A3 in B3. assert (ER := f_equal (fun q => match q with Some r => r | None => rid end) B3). cbn in ER. subst rid2. reflexivity.
Qed.

Lemma envelopes : forall a t1 t2 w c1 w1 c2 w2, w_encrypt C a t1 w = (Ok c1, w1) -> w_encrypt C a t2 w = (Ok c2, w2) -> same_envelope c1 c2.
Proof.
  intros a t1 t2 w c1 w1 c2 w2 H1 H2. apply w_encrypt_inv in H1. apply w_encrypt_inv in H2. destruct H1 as (r1 & e1 & E1 & _). destruct H2 as (r2 & e2 & E2 & _).
  apply encrypt_shape in E1. apply encrypt_shape in E2. destruct E1 as (sc & rid & b1 & m1 & A1 & _ & _ & _ & _ & _ & S1).
  destruct E2 as (sc2 & rid2 & b2 & m2 & A2 & _ & _ & _ & _ & _ & S2). rewrite A1 in A2. injection A2 as <-. unfold sent_shape in S1, S2.
  destruct (s_pending (r_cur (v_load (view_of w a)))) as [p|].
  - destruct S1 as (p1 & lid & -> & G1 & Q1). destruct S2 as (p2 & lid2 & -> & G2 & Q2). rewrite G1 in G2.
    assert (ER := f_equal (fun q => match q with Some r => r | None => lid end) G2). cbn in ER. subst lid2. cbn [same_envelope]. rewrite Q1, Q2. split; [reflexivity|].
    eexists; eexists. split; [reflexivity|]. split; reflexivity.
  - destruct S1 as (q1 & -> & Q1 & _). destruct S2 as (q2 & -> & Q2 & _). cbn [same_envelope]. rewrite Q1, Q2. reflexivity.
Qed.

Lemma twin_calls_same : forall w a c1 c2, twin_calls C w a c1 c2 -> snd (call_alone C a c1 w) = snd (call_alone C a c2 w).
Proof.
  intros w a c1 c2 H. destruct H as [c|t1 t2 [x1 F1] [x2 F2]|b1 b2 g m1 m2 P1 P2 HA [x1 F1] [x2 F2] HR|b1 b2 g p1 p2 P1 P2 HA [x1 F1] [x2 F2] HR].
  - reflexivity.
  - cbn [call_alone]. destruct (w_encrypt C a t1 w) as [o1 w1] eqn:E1. destruct (w_encrypt C a t2 w) as [o2 w2] eqn:E2. cbn [fst] in F1, F2. subst o1 o2. cbn [snd].
    exact (encrypt_alike _ _ _ _ _ _ _ _ E1 E2).
  - cbn [call_alone receive]. rewrite P1, P2. destruct (w_decrypt C a m1 g w) as [[o1 w1] g1] eqn:E1. destruct (w_decrypt C a m2 g w) as [[o2 w2] g2] eqn:E2. cbn [fst] in F1, F2. subst o1 o2. cbn [snd].
    exact (proj1 (decrypt_alike _ _ _ _ _ _ _ _ _ _ _ HA HR E1 E2)).
  - cbn [call_alone receive]. rewrite P1, P2. destruct (w_decrypt_message C a p1 g w) as [[o1 w1] g1] eqn:E1. destruct (w_decrypt_message C a p2 g w) as [[o2 w2] g2] eqn:E2.
    cbn [fst] in F1, F2. subst o1 o2. cbn [snd]. exact (proj1 (message_alike _ _ _ _ _ _ _ _ _ _ _ HA HR E1 E2)).
Qed.

Lemma twin_programs_same : forall w l1 l2, twin_programs C w l1 l2 -> snd (run_program C l1 w) = snd (run_program C l2 w).
Proof.
  intros w l1 l2 H. induction H as [w|w a c1 c2 l1 l2 HC _ IH]; [reflexivity|]. cbn [run_program].
  assert (HS := twin_calls_same w a c1 c2 HC). destruct (call_alone C a c1 w) as [o1 w1]. destruct (call_alone C a c2 w) as [o2 w2]. cbn [snd] in HS, IH. subst w2.
  destruct (run_program C l1 w1) as [x1 y1]. destruct (run_program C l2 w1) as [x2 y2]. exact IH.
Qed.

(** * Groups *)

Lemma group_encrypt_shape : forall t g st m, fst (gw_encrypt C t g st) = Ok m -> exists s rest k body sig, st = Some (s :: rest) /\
  snd (gw_encrypt C t g st) = gcommit [StoreSenderKey (g_upd_first (gset_chain (g_next C (gs_chain s)) s) (s :: rest))] st /\
  g_message_key C (gs_chain s) = Ok k /\ encrypt_cbc C (gm_iv k) (gm_cipher k) t = Ok body /\ length sig = 64%nat /\
  m = {| km_id := gs_id s; km_iter := gm_iter k; km_ct := Some body; km_version := 3; km_sig := Some sig |}.
Proof.
  intros t g st x H. unfold gw_encrypt, group_encrypt in *. destruct st as [[|s rest]|]; [discriminate H| |discriminate H]. exists s, rest.
  cbn [g_first] in *. destruct (g_message_key C (gs_chain s)) as [k| |]; try discriminate H. exists k. destruct (encrypt_cbc C _ _ t) as [ct| |] eqn:E; try discriminate H. exists ct.
  unfold new_sender_key_message in *. destruct (kp_priv (gs_signing s)) as [pk|]; [|discriminate H]. destruct (calculate_signature C pk _ g) as [sig g'].
  cbn [fst snd] in *. injection H as <-. exists (abytes sig). repeat (split; [first [reflexivity|exact E|apply arr_length]|]). reflexivity.
Qed.
Lemma group_encrypt_alike : forall t1 g1 t2 g2 st, fine (fst (gw_encrypt C t1 g1 st)) -> fine (fst (gw_encrypt C t2 g2 st)) ->
  snd (gw_encrypt C t1 g1 st) = snd (gw_encrypt C t2 g2 st).
Proof.
  intros t1 g1 t2 g2 st [m1 F1] [m2 F2]. destruct (group_encrypt_shape _ _ _ _ F1) as (s & rest & k & body & sig & E1 & -> & _).
  destruct (group_encrypt_shape _ _ _ _ F2) as (s2 & rest2 & k2 & body2 & sig2 & E2 & -> & _). rewrite E1 in E2. injection E2 as -> ->. reflexivity.
Qed.

Lemma group_decrypt_alike : forall m1 m2 st, alike_group m1 m2 -> fine (fst (gw_decrypt C m1 st)) -> fine (fst (gw_decrypt C m2 st)) ->
  snd (gw_decrypt C m1 st) = snd (gw_decrypt C m2 st).
Proof.
  intros m1 m2 st [A1 A2] [x1 F1] [x2 F2]. unfold gw_decrypt, group_decrypt in *. rewrite <- A1, <- A2 in *.
  destruct st as [[|s rest]|]; [discriminate F1| |discriminate F1].
  destruct (g_by_id (km_id m1) (s :: rest)) as [s1| |]; [|discriminate F1|discriminate F1].
  destruct (negb (verify_signature C _ (skm_unsigned m1) _)); [discriminate F1|]. destruct (negb (verify_signature C _ (skm_unsigned m2) _)); [discriminate F2|].
  destruct (g_get_key C s1 (km_iter m1)) as [[k| |] s2]; [|discriminate F1|discriminate F1].
  destruct (decrypt_cbc_full C _ _ (skm_body m1)) as [[p1| |] c1]; [|discriminate F1|discriminate F1].
  destruct (decrypt_cbc_full C _ _ (skm_body m2)) as [[p2| |] c2]; [|discriminate F2|discriminate F2]. reflexivity.
Qed.

Lemma group_envelopes : forall t1 g1 t2 g2 st m1 m2, fst (gw_encrypt C t1 g1 st) = Ok m1 -> fst (gw_encrypt C t2 g2 st) = Ok m2 ->
  km_id m1 = km_id m2 /\ km_iter m1 = km_iter m2 /\ km_version m1 = km_version m2.
Proof.
  intros t1 g1 t2 g2 st m1 m2 F1 F2. destruct (group_encrypt_shape _ _ _ _ F1) as (s & rest & k & b1 & sig1 & E1 & _ & K1 & _ & _ & ->).
  destruct (group_encrypt_shape _ _ _ _ F2) as (s2 & rest2 & k2 & b2 & sig2 & E2 & _ & K2 & _ & _ & ->). rewrite E1 in E2. injection E2 as <- <-.
  rewrite K1 in K2. injection K2 as <-. repeat split.
Qed.

Lemma twin_gcalls_same : forall st c1 c2, twin_gcalls C st c1 c2 -> snd (gcall_run C c1 st) = snd (gcall_run C c2 st).
Proof.
  intros st c1 c2 H. destruct H as [c|t1 t2 g1 g2 F1 F2|m1 m2 HA F1 F2]; [reflexivity| |].
  - assert (E := group_encrypt_alike _ _ _ _ _ F1 F2). cbn [gcall_run]. destruct (gw_encrypt C t1 g1 st). destruct (gw_encrypt C t2 g2 st). exact E.
  - assert (E := group_decrypt_alike _ _ _ HA F1 F2). cbn [gcall_run]. destruct (gw_decrypt C m1 st). destruct (gw_decrypt C m2 st). exact E.
Qed.
Lemma twin_gprograms_same : forall st l1 l2, twin_gprograms C st l1 l2 -> snd (gplay C l1 st) = snd (gplay C l2 st).
Proof.
  intros st l1 l2 H. induction H as [st|st c1 c2 l1 l2 HC _ IH]; [reflexivity|]. cbn [gplay].
  assert (HS := twin_gcalls_same st c1 c2 HC). destruct (gcall_run C c1 st) as [o1 s1]. destruct (gcall_run C c2 st) as [o2 s2]. cbn [snd] in HS, IH. subst s2.
  destruct (gplay C l1 s1) as [x1 y1]. destruct (gplay C l2 s1) as [x2 y2]. exact IH.
Qed.

(** * Lengths *)

Lemma varint_mono : forall f n m, (n <= m)%N -> (length (enc_varint_fuel f n) <= length (enc_varint_fuel f m))%nat.
Proof.
  induction f as [|f IH]; intros n m H; [apply le_n|]. cbn [enc_varint_fuel].
  destruct (N.ltb_spec n 128) as [L|L]; destruct (N.ltb_spec m 128) as [L2|L2]; cbn [length]; try lia.
  apply le_n_S. apply IH. apply N.div_le_mono; [discriminate|exact H].
Qed.
Lemma field_strict : forall t b1 b2, (length b1 < length b2)%nat -> (length (enc_field (t, FBytes b1)) < length (enc_field (t, FBytes b2)))%nat.
Proof.
  intros t b1 b2 H. cbn [enc_field]. rewrite !app_length. assert (V := varint_mono 10 (N.of_nat (length b1)) (N.of_nat (length b2)) ltac:(lia)). unfold enc_varint. lia.
Qed.
Lemma field_same : forall t b1 b2, length b1 = length b2 -> length (enc_field (t, FBytes b1)) = length (enc_field (t, FBytes b2)).
Proof. intros t b1 b2 H. cbn [enc_field]. rewrite !app_length, H. reflexivity. Qed.
Lemma field_length : forall t b1 b2, length (enc_field (t, FBytes b1)) = length (enc_field (t, FBytes b2)) <-> length b1 = length b2.
Proof.
  intros t b1 b2. split; [|apply field_same]. intros H. destruct (Nat.lt_trichotomy (length b1) (length b2)) as [L|[L|L]]; [|exact L|]; apply (field_strict t) in L; lia.
Qed.
Lemma marshal_app_length : forall l1 l2, length (marshal (l1 ++ l2)) = (length (marshal l1) + length (marshal l2))%nat.
Proof. intros l1 l2. unfold marshal. rewrite flat_map_app, app_length. reflexivity. Qed.
Lemma marshal_one_length : forall x, length (marshal [x]) = length (enc_field x).
Proof. intros x. unfold marshal. cbn [flat_map]. rewrite app_nil_r. reflexivity. Qed.

Lemma struct_length : forall s sc b1 k1 b2 k2, length k1 = 8%nat -> length k2 = 8%nat ->
  (length (sig_serialize (sent_struct s sc b1 k1)) = length (sig_serialize (sent_struct s sc b2 k2)) <-> length b1 = length b2).
Proof.
  intros s sc b1 k1 b2 k2 H1 H2. unfold sig_serialize, sig_fields, sent_struct, opt_bytes_field. cbn [sg_version sg_ratchet sg_counter sg_prev sg_ct sg_mac].
  rewrite !app_length, !marshal_app_length, H1, H2, (marshal_one_length (4%N, FBytes b1)), (marshal_one_length (4%N, FBytes b2)). rewrite <- (field_length 4 b1 b2). lia.
Qed.

Context (L : crypto_laws C).
Lemma body_length : forall iv key pt body, encrypt_cbc C iv key pt = Ok body -> length body = (16 * blocks_for (length pt))%nat.
Proof.
  intros iv key pt body H. unfold encrypt_cbc, encrypt_cbc_rng in H. cbv zeta in H. destruct (pad_facts pt) as (_ & _ & HM). rewrite HM in H.
  destruct (aes_key_ok key) eqn:EK; [|discriminate H]. destruct (length iv =? 16)%nat eqn:EI; [|discriminate H]. cbn [negb fst] in H. injection H as <-.
  assert (HP : length (pad pt 16) = (16 * blocks_for (length pt))%nat).
  { unfold pad, blocks_for. rewrite app_length, repeat_length. assert (D := Nat.div_mod (length pt) 16 ltac:(discriminate)). assert (B := Nat.mod_upper_bound (length pt) 16 ltac:(discriminate)). lia. }
  unfold blocks. rewrite HP at 1. rewrite (Nat.mul_comm 16), Nat.div_mul by discriminate. rewrite (Nat.mul_comm _ 16).
  apply cbc_enc_length; [exact L|exact EK|apply Nat.eqb_eq; exact EI|exact HP].
Qed.

Lemma ok_same : forall A (x y : A), Ok x = Ok y -> x = y.
Proof. intros A x y H. injection H as <-. reflexivity. Qed.
Lemma first_length : forall reg id sid b i ver x1 x2 y1 y2,
  pk_serialize {| pk_reg := reg; pk_prekey_id := id; pk_signed_id := sid; pk_base := Some b; pk_identity := Some i; pk_message := Some x1; pk_version := ver |} = Ok y1 ->
  pk_serialize {| pk_reg := reg; pk_prekey_id := id; pk_signed_id := sid; pk_base := Some b; pk_identity := Some i; pk_message := Some x2; pk_version := ver |} = Ok y2 ->
  (length y1 = length y2 <-> length x1 = length x2).
Proof.
  intros reg id sid b i ver x1 x2 y1 y2 H1 H2. unfold pk_serialize in H1, H2. cbn [pk_prekey_id pk_version pk_base pk_identity pk_message pk_reg pk_signed_id] in H1, H2. unfold opt_bytes_field in H1, H2.
  destruct id as [o|]; [|discriminate H1]. apply ok_same in H1. apply ok_same in H2. subst y1 y2.
  rewrite !app_length, !marshal_app_length, (marshal_one_length (4%N, FBytes x1)), (marshal_one_length (4%N, FBytes x2)). rewrite <- (field_length 4 x1 x2). lia.
Qed.

Lemma packet_length : forall a t1 t2 w c1 w1 c2 w2 k1 k2, w_encrypt C a t1 w = (Ok c1, w1) -> w_encrypt C a t2 w = (Ok c2, w2) ->
  pack c1 = Ok k1 -> pack c2 = Ok k2 -> (length (on_wire k1) = length (on_wire k2) <-> blocks_for (length t1) = blocks_for (length t2)).
Proof.
  intros a t1 t2 w c1 w1 c2 w2 k1 k2 H1 H2 P1 P2. apply w_encrypt_inv in H1. apply w_encrypt_inv in H2. destruct H1 as (r1 & e1 & E1 & _). destruct H2 as (r2 & e2 & E2 & _).
  apply encrypt_shape in E1. apply encrypt_shape in E2. destruct E1 as (sc & rid & b1 & m1 & A1 & A3 & B1 & L1 & _ & _ & S1).
  destruct E2 as (sc2 & rid2 & b2 & m2 & A2 & A4 & B2 & L2 & _ & _ & S2). rewrite A1 in A2. injection A2 as <-.
  apply body_length in B1. apply body_length in B2.
  assert (HS := struct_length (r_cur (v_load (view_of w a))) sc b1 m1 b2 m2 L1 L2).
  assert (HB : length b1 = length b2 <-> blocks_for (length t1) = blocks_for (length t2)) by (rewrite B1, B2; split; intros; lia).
  rewrite <- HB, <- HS. clear HS HB B1 B2. unfold sent_shape in S1, S2. destruct (s_pending (r_cur (v_load (view_of w a)))) as [p|].
  - destruct S1 as (p1 & lid & -> & G1 & Q1). destruct S2 as (p2 & lid2 & -> & G2 & Q2). rewrite G1 in G2.
    assert (ER := f_equal (fun q => match q with Some r => r | None => lid end) G2). cbn in ER. subst lid2.
    cbn [pack] in P1, P2. unfold pk_msg_bytes in P1, P2. rewrite Q1 in P1. rewrite Q2 in P2.
    destruct (pk_serialize _) as [y1| |] eqn:Y1 in P1; try discriminate P1. destruct (pk_serialize _) as [y2| |] eqn:Y2 in P2; try discriminate P2. cbn [bind] in P1, P2.
    apply ok_same in P1. apply ok_same in P2. subst k1 k2. cbn [on_wire]. exact (first_length _ _ _ _ _ _ _ _ _ _ Y1 Y2).
  - destruct S1 as (q1 & -> & Q1 & _). destruct S2 as (q2 & -> & Q2 & _). cbn [pack] in P1, P2. injection P1 as <-. injection P2 as <-. cbn [on_wire]. unfold sig_msg_bytes.
    rewrite Q1, Q2. reflexivity.
Qed.

Lemma group_length : forall t1 g1 t2 g2 st m1 m2, fst (gw_encrypt C t1 g1 st) = Ok m1 -> fst (gw_encrypt C t2 g2 st) = Ok m2 ->
  (length (skm_signed m1) = length (skm_signed m2) <-> blocks_for (length t1) = blocks_for (length t2)).
Proof.
  intros t1 g1 t2 g2 st m1 m2 F1 F2. destruct (group_encrypt_shape _ _ _ _ F1) as (s & rest & k & b1 & sig1 & E1 & _ & K1 & B1 & L1 & ->).
  destruct (group_encrypt_shape _ _ _ _ F2) as (s2 & rest2 & k2 & b2 & sig2 & E2 & _ & K2 & B2 & L2 & ->). rewrite E1 in E2. injection E2 as <- <-.
  rewrite K1 in K2. injection K2 as <-. apply body_length in B1. apply body_length in B2.
  assert (HB : length b1 = length b2 <-> blocks_for (length t1) = blocks_for (length t2)) by (rewrite B1, B2; split; intros; lia). rewrite <- HB. clear HB B1 B2.
  unfold skm_signed, skm_serialize. cbn [km_id km_iter km_ct km_version km_sig opt_bytes_field]. change (3 =? 0)%N with false. cbv iota.
  rewrite !app_length, !marshal_app_length, L1, L2, !(marshal_one_length (_, _)). rewrite <- (field_length 3 b1 b2). lia.
Qed.

End P.
