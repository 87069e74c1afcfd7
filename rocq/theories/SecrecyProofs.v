(** SecrecyProofs.v: the keys of a whole conversation (C69). *)
From Coq Require Import String List.
From Verif Require Import Base Labels Crypto Bytehelper Ecc Cbc Wire Itoa Keys X3dh Messages SessionState SessionRecord
  SessionBuilder SessionCipher Address World CryptoProofs SessionProofs SerialProofs SessionSpec
  GroupSpec GroupProofs ConvSpec ConvProofs ConvProofs2 ConvProofs3 FsRefine SecrecySpec.
From Coq Require Import Lia ZifyBool ZifyN ZifyNat.
Import ListNotations.
Local Open Scope list_scope.

Lemma some_inj : forall A (a b : A), Some a = Some b -> a = b.
Proof. intros A a b H. exact (f_equal (fun z => match z with Some q => q | None => a end) H). Qed.

(** * The attacker *)

Section Attack.
Context (K : secret -> Prop) (H : list key).
Notation known := (known K H).

Lemma chain_up : forall e m d, known (Chain e m) -> known (Chain e (m + N.of_nat d)).
Proof.
  intros e m d HK. induction d as [|d IH]; [rewrite N.add_0_r; exact HK|]. replace (m + N.of_nat (S d))%N with (m + N.of_nat d + 1)%N by lia. apply K_next. exact IH.
Qed.

(** Where the root key of an epoch can come from. *)
Definition root_from (j : nat) : Prop := In (Root j) H \/ (j = 0%nat /\ x3dh_known K).
Definition dhs (j e : nat) : Prop := forall i, (j <= i < e)%nat -> dh_known K (Ratchet i) (Ratchet (S i)).

Lemma root_exact : forall e, known (Root e) <-> exists j, (j <= e)%nat /\ root_from j /\ dhs j e.
Proof.
  intros e. split.
  - intros HK. remember (Root e) as k eqn:EK. revert e EK. induction HK as [k HI|HX|HX|e' HK IH HD|e' HK IH HD|e' n HK IH|e' n HK IH]; intros e EK; try discriminate EK.
    + subst k. exists e. split; [lia|]. split; [left; exact HI|]. intros i Hi. lia.
    + inversion EK; subst e. exists 0%nat. split; [lia|]. split; [right; split; [reflexivity|exact HX]|]. intros i Hi. lia.
    + inversion EK; subst e. destruct (IH e' eq_refl) as (j & Hj & HR & HDs). exists j. split; [lia|]. split; [exact HR|].
      intros i Hi. destruct (Nat.eq_dec i e') as [->|HN]; [exact HD|]. apply HDs. lia.
  - intros (j & Hj & HR & HD). induction e as [|e IH].
    + assert (j = 0%nat) by lia. subst j. destruct HR as [HR|[_ HR]]; [apply K_held; exact HR|apply K_root0; exact HR].
    + destruct (Nat.eq_dec j (S e)) as [->|HN]; [destruct HR as [HR|[HZ _]]; [apply K_held; exact HR|discriminate HZ]|].
      apply K_root; [|apply HD; lia]. apply IH; [lia|]. intros i Hi. apply HD. lia.
Qed.

Lemma chain_exact : forall e n, known (Chain e n) <->
  (exists m, (m <= n)%N /\ In (Chain e m) H) \/ (e = 0%nat /\ x3dh_known K) \/ (exists j, (j < e)%nat /\ root_from j /\ dhs j e).
Proof.
  intros e n. split.
  - intros HK. remember (Chain e n) as k eqn:EK. revert e n EK. induction HK as [k HI|HX|HX|e' HK IH HD|e' HK IH HD|e' n' HK IH|e' n' HK IH]; intros e n EK; try discriminate EK.
    + subst k. left. exists n. split; [lia|exact HI].
    + inversion EK; subst e. right. left. split; [reflexivity|exact HX].
    + inversion EK; subst e n. right. right. apply root_exact in HK. destruct HK as (j & Hj & HR & HDs). exists j. split; [lia|]. split; [exact HR|].
      intros i Hi. destruct (Nat.eq_dec i e') as [->|HN]; [exact HD|]. apply HDs. lia.
    + inversion EK; subst e' n. destruct (IH e n' eq_refl) as [(m & Hm & HI)|[HX|HX]]; [left; exists m; split; [lia|exact HI]|right; left; exact HX|right; right; exact HX].
  - assert (UP : known (Chain e 0) -> known (Chain e n)).
    { intros H0. pose proof (chain_up e 0 (N.to_nat n) H0) as X. rewrite N2Nat.id in X. exact X. }
    intros [(m & Hm & HI)|[[-> HX]|(j & Hj & HR & HD)]].
    + pose proof (chain_up e m (N.to_nat (n - m)) (K_held _ _ _ HI)) as X. replace (m + N.of_nat (N.to_nat (n - m)))%N with n in X by lia. exact X.
    + apply UP. apply K_chain0. exact HX.
    + apply UP. destruct e as [|e]; [lia|]. apply K_chain; [|apply HD; lia]. apply root_exact. exists j. split; [lia|]. split; [exact HR|]. intros i Hi. apply HD. lia.
Qed.

Lemma message_exact : forall e n, known (Mkey e n) <-> In (Mkey e n) H \/ known (Chain e n).
Proof.
  intros e n. split; [|intros [HI|HI]; [apply K_held; exact HI|apply K_message; exact HI]].
  intros HK. inversion HK as [k HI| | | | | |e' n' HC]; subst; [left; exact HI|right; exact HC].
Qed.
End Attack.

(** * Values *)

Section Values.
Context (C : crypto) (L : crypto_laws C).

Lemma info1 : x3dh_info = str "WhisperText"%string. Proof. reflexivity. Qed.
Lemma info2 : root_kdf_info = str "WhisperRatchet"%string. Proof. reflexivity. Qed.
Lemma info3 : message_kdf_info = str "WhisperMessageKeys"%string. Proof. reflexivity. Qed.

Context (addr : party -> address) (priv : party -> arr32) (kb signed otk : arr32) (i sid : N).
Notation base := (x_base C kb).
Notation epoch0 := (epoch0 C priv base signed otk).

(** The private keys of a conversation with ladder [E]. *)
Definition sk_of (E : list entry) (x : secret) : arr32 :=
  match x with
  | IdA => priv Alice
  | EphA => kb
  | IdB => priv Bob
  | OneB => otk
  | Ratchet e => match nth_error E e with Some y => en_priv y | None => zero_arr 32 end
  end.

Lemma epoch_values : forall E, ladder C E -> (exists x, nth_error E 0 = Some x /\ epoch0 x) -> forall e x, nth_error E e = Some x ->
  en_root x = firstn 32 (epoch_bytes C (sk_of E) e) /\ ck_key (en_ck x) = skipn 32 (epoch_bytes C (sk_of E) e).
Proof.
  intros E HL (x0 & H0 & P0 & Q0). induction e as [|e IH]; intros x Hx.
  - rewrite H0 in Hx. apply some_inj in Hx. subst x0. cbn [epoch_bytes]. unfold calculate_receiver_session, priv_of in Q0.
    cbn [rp_our_signed rp_our_one_time pair_of kp_priv bind rp_our_identity rp_their_base rp_their_identity ip_priv] in Q0.
    rewrite (derive_session_ok C) in Q0. apply (f_equal (fun z => match z with Ok k => (sk_root k, ck_key (sk_chain k)) | _ => ([], []) end)) in Q0.
    cbv beta iota in Q0. cbn [sk_root sk_chain] in Q0. apply pair_equal_spec in Q0. destruct Q0 as [<- <-].
    unfold derived_secrets. cbn [sk_root sk_chain ck_key]. unfold x3dh. rewrite <- info1.
    assert (E0 : dh C (sk_of E) IdA (Ratchet 0) = abytes (shared_secret C (idk C priv Alice) signed)).
    { unfold dh. cbn [sk_of]. rewrite H0, P0. unfold shared_secret, idk. rewrite (law_dh C L). reflexivity. }
    assert (E1 : dh C (sk_of E) EphA IdB = abytes (shared_secret C base (priv Bob))).
    { unfold dh. cbn [sk_of]. unfold shared_secret. rewrite (law_dh C L). reflexivity. }
    assert (E2 : dh C (sk_of E) EphA (Ratchet 0) = abytes (shared_secret C base signed)).
    { unfold dh. cbn [sk_of]. rewrite H0, P0. unfold shared_secret. rewrite (law_dh C L). reflexivity. }
    assert (E3 : dh C (sk_of E) EphA OneB = abytes (shared_secret C base otk)).
    { unfold dh. cbn [sk_of]. unfold shared_secret. rewrite (law_dh C L). reflexivity. }
    rewrite E0, E1, E2, E3. unfold master_secret, discontinuity, root_secrets_size. split; reflexivity.
  - destruct (nth_error E e) as [y|] eqn:Ey; [|apply nth_error_None in Ey; assert (S e < length E)%nat by (apply nth_error_Some; rewrite Hx; discriminate); lia].
    destruct (IH y eq_refl) as [R1 _]. destruct HL as [HL _]. specialize (HL e y x Ey Hx). unfold create_chain in HL. cbn [pair_of kp_priv] in HL.
    rewrite derive_secrets_64 in HL. cbn [bind] in HL. apply (f_equal (fun z => match z with Ok k => (sk_root k, ck_key (sk_chain k)) | _ => ([], []) end)) in HL.
    cbv beta iota in HL. cbn [sk_root sk_chain] in HL. apply pair_equal_spec in HL. destruct HL as [<- <-].
    unfold derived_secrets. cbn [sk_root sk_chain ck_key epoch_bytes]. rewrite <- R1, <- info2.
    assert (E0 : dh C (sk_of E) (Ratchet (S e)) (Ratchet e) = abytes (shared_secret C (en_pub C y) (en_priv x))).
    { unfold dh. cbn [sk_of]. rewrite Hx, Ey. reflexivity. }
    rewrite E0. split; reflexivity.
Qed.

Lemma iter_key : forall n ck, ck_key (ck_iter C n ck) = Nat.iter n (fun k => hmac C k [x02]) (ck_key ck).
Proof.
  induction n as [|n IH]; intros ck; [reflexivity|]. rewrite ck_iter_snoc. cbn [Nat.iter]. unfold next_key, base_material. cbn [ck_key]. rewrite IH. reflexivity.
Qed.

Lemma keys_join : forall ck, mk_cipher (message_keys C ck) ++ mk_mac (message_keys C ck) ++ mk_iv (message_keys C ck) =
  hkdf_bytes C (hmac C (ck_key ck) [x01]) None (str "WhisperMessageKeys"%string) 80.
Proof.
  intros ck. unfold message_keys, new_key_material. cbn [mk_cipher mk_mac mk_iv]. rewrite <- info3. unfold base_material, message_secrets_size, message_key_seed.
  pose proof (hkdf_bytes_length C (hmac C (ck_key ck) [x01]) None message_kdf_info 80 (law_hmac_len C L)) as HLen.
  set (d := hkdf_bytes C (hmac C (ck_key ck) [x01]) None message_kdf_info 80) in *. clearbody d.
  apply cut80. exact HLen.
Qed.

Lemma chain_value : forall E, ladder C E -> (exists x, nth_error E 0 = Some x /\ epoch0 x) -> forall e x n, nth_error E e = Some x ->
  ck_key (ck_iter C (N.to_nat n) (en_ck x)) = key_value C (sk_of E) (Chain e n).
Proof. intros E HL H0 e x n Hx. rewrite iter_key. cbn [key_value]. unfold chain_at. rewrite (proj2 (epoch_values E HL H0 e x Hx)). reflexivity. Qed.

Lemma message_value : forall E, ladder C E -> (exists x, nth_error E 0 = Some x /\ epoch0 x) -> forall e x n, nth_error E e = Some x ->
  mk_cipher (mkey C x n) ++ mk_mac (mkey C x n) ++ mk_iv (mkey C x n) = key_value C (sk_of E) (Mkey e n).
Proof. intros E HL H0 e x n Hx. unfold mkey. rewrite keys_join. rewrite (chain_value E HL H0 e x n Hx). reflexivity. Qed.

Lemma session_values : forall E me them v s, ladder C E -> (exists x, nth_error E 0 = Some x /\ epoch0 x) -> state_rel C E me them v s ->
  session_keys_are C (sk_of E) v s.
Proof.
  intros E me them v s HL H0 (_ & _ & _ & S4 & _ & (x & Hx & SR & SS) & SC & _). split; [|split; [|exact S4]].
  - exists (en_root x). eexists. split; [exact SR|]. split; [exact (proj1 (epoch_values E HL H0 _ x Hx))|]. split; [exact SS|]. cbn [ch_pair ch_key ch_msgs pair_of kp_priv].
    split; [cbn [sk_of]; rewrite Hx; reflexivity|]. split; [exact (chain_value E HL H0 _ x _ Hx)|reflexivity].
  - clear SR SS Hx x. induction SC as [|c cv l l' (x & Hx & E1 & E2 & E3 & _) HF IH]; [constructor|]. constructor; [|exact IH].
    split; [rewrite E1; reflexivity|]. split; [rewrite E2; exact (chain_value E HL H0 _ x _ Hx)|]. rewrite E3. clear - L HL H0 Hx.
    induction (cv_kept cv) as [|n l IH]; [constructor|]. cbn [map]. constructor; [exact (message_value E HL H0 _ x n Hx)|exact IH].
Qed.

Lemma message_carries : forall E p k e n pt, ladder C E -> (exists x, nth_error E 0 = Some x /\ epoch0 x) ->
  wire_rel C priv base i sid E p k (e, n, pt) ->
  carries C (sk_of E) (match p with Alice => IdA | Bob => IdB end) (match p with Alice => IdB | Bob => IdA end) k e n pt.
Proof.
  intros E p k e n pt HL H0 (m & (x & Hx & M1 & M2 & M3 & M4 & M5 & M6 & M7 & body & M8 & _) & HK).
  exists m, (mk_cipher (mkey C x n)), (mk_mac (mkey C x n)), (mk_iv (mkey C x n)), body.
  destruct (message_keys_sizes C L (ck_iter C (N.to_nat n) (en_ck x))) as (Z1 & Z2 & Z3 & _).
  split; [destruct k as [b|b]; [exact (proj1 HK)|destruct HK as (_ & pm & K1 & K2 & _); exists pm; split; [exact K1|exact K2]]|].
  split; [cbn [sk_of]; rewrite Hx; exact M1|]. split; [exact M2|]. split; [exact (message_value E HL H0 _ x n Hx)|].
  split; [exact Z1|]. split; [exact Z2|]. split; [exact Z3|]. split; [destruct p; exact M5|]. split; [exact M8|].
  unfold decrypt_with_key in M6. rewrite M8 in M6. exact M6.
Qed.

(** * Runs *)

Lemma commit_prekeys : forall a es w w' ok j, commit a es w = (w', ok) -> w_prekeys w j = None -> w_prekeys w' j = None.
Proof.
  intros a. induction es as [|e es IH]; intros w w' ok j H HN; cbn [commit] in H; [apply pair_equal_spec in H; destruct H as [<- _]; exact HN|].
  destruct (apply_effect a e w) as [w1|] eqn:EA; [|apply pair_equal_spec in H; destruct H as [<- _]; exact HN].
  apply (IH _ _ _ _ H). destruct e as [r|k|n]; cbn [apply_effect] in EA.
  - destruct (persist r); try discriminate EA. apply some_inj in EA. subst w1. exact HN.
  - apply some_inj in EA. subst w1. exact HN.
  - apply some_inj in EA. subst w1. cbn [w_prekeys]. unfold upd_id. destruct (_ =? _)%N; [reflexivity|exact HN].
Qed.

Lemma receive_prekeys : forall a k g w o w' j, receive C a k g w = (o, w') -> w_prekeys w j = None -> w_prekeys w' j = None.
Proof.
  intros a k g w o w' j H HN. unfold receive in H. destruct k as [b|b].
  - destruct (sig_from_bytes b) as [m| |]; try (apply pair_equal_spec in H; destruct H as [_ <-]; exact HN). unfold w_decrypt in H.
    destruct (decrypt_and_get_key C (view_of w a) m g) as [[[x r] es] g']. destruct (commit a es w) as [w1 ok] eqn:EC.
    apply pair_equal_spec in H. destruct H as [_ <-]. exact (commit_prekeys _ _ _ _ _ _ EC HN).
  - destruct (pk_from_bytes b) as [m| |]; try (apply pair_equal_spec in H; destruct H as [_ <-]; exact HN). unfold w_decrypt_message in H.
    destruct (decrypt_message C (view_of w a) m g) as [[[x r] es] g']. destruct (commit a es w) as [w1 ok] eqn:EC.
    apply pair_equal_spec in H. destruct H as [_ <-]. exact (commit_prekeys _ _ _ _ _ _ EC HN).
Qed.

Context (Hi : (i < 2 ^ 32)%N) (Hsid : (sid < 2 ^ 32)%N) (Him : i <> medium_max).
Notation ginv := (ginv C addr priv base signed otk i sid).

Definition gone (v : party -> pview) (w : party -> world) : Prop := pv_epoch (v Bob) <> 0%nat -> w_prekeys (w Bob) i = None.

Lemma no_collision_tl : forall y x o xs, no_collision (y :: o) (x :: xs) -> no_collision o xs.
Proof. intros y x o xs H k p j Hk. exact (H (S k) p j Hk). Qed.

Lemma after_inv : forall evs E v sent w wire, ginv E v sent w wire evs -> gone v w ->
  no_collision (crun C addr w wire evs) (cspec v sent evs) ->
  exists F, ginv (E ++ F) (fst (vafter v sent evs)) (snd (vafter v sent evs)) (fst (cafter C addr w wire evs)) (snd (cafter C addr w wire evs)) [] /\
    gone (fst (vafter v sent evs)) (fst (cafter C addr w wire evs)) /\
    (forall p, w_self (fst (cafter C addr w wire evs) p) = w_self (w p)) /\
    Forall (fun x => exists g g1, In g (delivery_rngs evs) /\ generate_key_pair C g = (Ok (pair_of C (en_priv x)), g1)) F.
Proof.
  induction evs as [|ev evs IH]; intros E v sent w wire HI HG HN.
  { exists []. rewrite app_nil_r. cbn [vafter cafter fst snd]. split; [exact HI|]. split; [exact HG|]. split; [reflexivity|constructor]. }
  destruct ev as [p pt|p j g]; cbn [crun cspec cafter vafter] in *.
  - destruct (pv_epoch (v p)) as [|z] eqn:EV.
    + destruct (send_nothing C addr priv base signed otk i sid Hi Hsid Him _ _ _ _ _ _ _ _ HI EV) as [HS HI']. rewrite HS in HN |- *.
      destruct (IH _ _ _ _ _ HI' HG HN) as (F & X1 & X2 & X3 & X4). exists F. split; [exact X1|]. split; [exact X2|]. split; [exact X3|exact X4].
    + destruct (send_step C L addr priv base signed otk i sid Hi Hsid Him _ _ _ _ _ _ _ _ _ HI EV) as (ct & k & w' & HS & HE & HP & W1 & W2 & HI').
      rewrite HS, HE, HP in HN |- *. rewrite EV in HI'.
      assert (HG' : gone (upd_party v p {| pv_epoch := S z; pv_count := pv_count (v p) + 1; pv_chains := pv_chains (v p) |}) (upd_party w p w')).
      { unfold gone in *. destruct p; cbn [upd_party party_eqb]; [exact HG|]. intros _. rewrite W1. apply HG. rewrite EV. discriminate. }
      destruct (IH _ _ _ _ _ HI' HG' HN) as (F & X1 & X2 & X3 & X4). exists F. split; [exact X1|]. split; [exact X2|]. split; [|exact X4].
      intros q. rewrite X3. destruct (party_cases p q) as [->| ->]; [rewrite upd_same; exact W2|rewrite upd_diff; reflexivity].
  - pose proof (nth_rel _ _ _ _ _ j (g_wire _ _ _ _ _ _ _ _ _ _ _ _ _ _ HI (other p))) as HJ.
    destruct (nth_error (wire (other p)) j) as [k|] eqn:EK; destruct (nth_error (sent (other p)) j) as [[[e n] pt]|] eqn:ES; [|destruct HJ|destruct HJ|].
    2:{ pose proof (deliver_nothing C addr priv base signed otk i sid _ _ _ _ _ _ _ _ _ HI) as HI'.
        destruct (IH _ _ _ _ _ HI' HG HN) as (F & X1 & X2 & X3 & X4). exists F. split; [exact X1|]. split; [exact X2|]. split; [exact X3|].
        eapply Forall_impl; [|exact X4]. intros x (g0 & g1 & Y1 & Y2). exists g0, g1. split; [right; exact Y1|exact Y2]. }
    destruct (deliver_step C L addr priv base signed otk i sid Hi Hsid Him _ _ _ _ _ _ _ _ _ _ _ _ _ HI EK ES) as (o & w' & HR & HZ & HO).
    rewrite HR in HN |- *. 
    assert (HGP : forall v', (pv_epoch v' = pv_epoch (v p) \/ (exists q, o = Ok q)) -> gone (upd_party v p v') (upd_party w p w')).
    { intros v' HC. unfold gone in *. destruct p; cbn [upd_party party_eqb]; [exact HG|]. intros HNZ.
      destruct (Nat.eq_dec (pv_epoch (v Bob)) 0) as [E0|E0]; [|exact (receive_prekeys _ _ _ _ _ _ _ HR (HG E0))].
      destruct HC as [HC|(q & HC)]; [rewrite HC in HNZ; destruct (HNZ E0)|]. exact (HZ E0 q HC). }
    assert (HW : forall A, (w_self w' = w_self (w p)) -> (forall q, w_self (A q) = w_self (upd_party w p w' q)) -> forall q, w_self (A q) = w_self (w q)).
    { intros A HA HB q. rewrite HB. destruct (party_cases p q) as [->| ->]; [rewrite upd_same; exact HA|rewrite upd_diff; reflexivity]. }
    assert (HRng : forall F, Forall (fun x => exists g g1, In g (delivery_rngs evs) /\ generate_key_pair C g = (Ok (pair_of C (en_priv x)), g1)) F ->
      Forall (fun x => exists g0 g1, In g0 (delivery_rngs (Deliver p j g :: evs)) /\ generate_key_pair C g0 = (Ok (pair_of C (en_priv x)), g1)) F).
    { intros F HF. eapply Forall_impl; [|exact HF]. intros x (g0 & g1 & Y1 & Y2). exists g0, g1. split; [right; exact Y1|exact Y2]. }
    destruct (cdeliver (v p) e n pt) as [x v'] eqn:EC. apply no_collision_tl in HN as HN'. destruct x as [q| |].
    + destruct HO as (HO & W2 & F & HF & HI'). assert (HG' : gone (upd_party v p v') (upd_party w p w')) by (apply HGP; right; exists q; exact HO).
      destruct (IH _ _ _ _ _ HI' HG' HN') as (F' & X1 & X2 & X3 & X4). exists (F ++ F'). rewrite app_assoc. split; [exact X1|]. split; [exact X2|]. split; [exact (HW _ W2 X3)|].
      apply Forall_app. split; [|exact (HRng _ X4)]. apply Forall_forall. intros y Hy. destruct (HF y Hy) as (k' & g1 & Y1 & Y2). exists g, g1.
      split; [left; reflexivity|]. rewrite Y2. exact Y1.
    + destruct HO as (_ & HS & HI'). assert (HV : v' = v p) by (eapply cdeliver_other; [exact EC|discriminate]).
      assert (HG' : gone (upd_party v p v') (upd_party w p w')) by (apply HGP; left; rewrite HV; reflexivity).
      destruct (IH _ _ _ _ _ HI' HG' HN') as (F' & X1 & X2 & X3 & X4). exists F'. split; [exact X1|]. split; [exact X2|]. split; [|exact (HRng _ X4)].
      exact (HW _ (proj1 (proj2 (proj2 (proj2 HS)))) X3).
    + destruct HO as [(q & HO)|(_ & HS & HI')].
      { exfalso. destruct (HN 0%nat p j eq_refl) as (er & D). cbn [nth_error] in D. rewrite HO in D. discriminate D. }
      assert (HV : v' = v p) by (eapply cdeliver_other; [exact EC|discriminate]).
      assert (HG' : gone (upd_party v p v') (upd_party w p w')) by (apply HGP; left; rewrite HV; reflexivity).
      destruct (IH _ _ _ _ _ HI' HG' HN') as (F' & X1 & X2 & X3 & X4). exists F'. split; [exact X1|]. split; [exact X2|]. split; [|exact (HRng _ X4)].
      exact (HW _ (proj1 (proj2 (proj2 (proj2 HS)))) X3).
Qed.
End Values.
