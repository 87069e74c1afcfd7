(** GroupConvProofs.v: the conversation of C66. *)
From Verif Require Import Base Labels Crypto Bytehelper Ecc Cbc Messages SessionState Group Address GroupSpec GroupConvSpec Toy WireProofs CodecProofs
  CodecProofs2 CryptoProofs SerialProofs MiscProofs GroupProofs GroupProofs2.
From Coq Require Import Lia ZifyBool ZifyN ZifyNat.

Lemma some_eq : forall {A} (x y : A), Some x = Some y -> y = x.
Proof. intros A x y H. injection H as <-. reflexivity. Qed.
Lemma skname_eqb_eq : forall a b, skname_eqb a b = true <-> a = b.
Proof.
  intros [a1 a2] [b1 b2]. unfold skname_eqb. cbn [fst snd]. rewrite andb_true_iff, bytes_eqb_eq, address_eqb_eq. split; [intros [-> ->]; reflexivity|intros H; injection H; auto].
Qed.
Lemma channel_eqb_eq : forall a b, channel_eqb a b = true <-> a = b.
Proof.
  intros [a1 a2] [b1 b2]. unfold channel_eqb. cbn [fst snd]. rewrite andb_true_iff, bytes_eqb_eq, Nat.eqb_eq. split; [intros [-> ->]; reflexivity|intros H; injection H; auto].
Qed.
Lemma put_same : forall {K V} (eqb : K -> K -> bool) k (v : V) f, (forall a b, eqb a b = true <-> a = b) -> put eqb k v f k = v.
Proof. intros K V eqb k v f H. unfold put. rewrite (proj2 (H k k) eq_refl). reflexivity. Qed.
Lemma put_other : forall {K V} (eqb : K -> K -> bool) k (v : V) f x, (forall a b, eqb a b = true <-> a = b) -> k <> x -> put eqb k v f x = f x.
Proof. intros K V eqb k v f x H Hn. unfold put. destruct (eqb k x) eqn:E; [|reflexivity]. apply H in E. contradiction. Qed.

Section Conv.
Context (C : crypto) (L : crypto_laws C) (addr : nat -> address) (Hinj : forall i j, addr i = addr j -> i = j).

(** ** Single stores *)

Lemma send_ok' : forall s rest seed j ck0 pt g, gs_signing s = pair_of C (clamp seed) -> (gs_id s < 2 ^ 32)%N ->
  gs_chain s = gck C j ck0 -> (gc_iter ck0 + N.of_nat j < u32_modulus)%N -> (N.of_nat (length pt) + 16 < 9223372036854775808)%N ->
  exists m, gw_encrypt C pt g (Some (s :: rest)) = (Ok m, Some (gset_chain (gck C (S j) ck0) s :: greload rest)) /\
    wire_ok C ck0 (gs_id s) (kp_pub (gs_signing s)) j pt (skm_signed m).
Proof.
  intros s rest seed j ck0 pt g HC Hid Hch Hj Hpt.
  destruct (send_ok C L s seed j ck0 pt g HC Hid Hch Hj Hpt) as (m & E & W). exists m. split; [|exact W].
  unfold gw_encrypt, group_encrypt in *. cbn [g_first] in *. destruct (g_message_key C (gs_chain s)) as [k| |]; try discriminate.
  destruct (encrypt_cbc C _ _ pt) as [ct| |]; try discriminate. destruct (new_sender_key_message C _ _ ct _ g) as [[x| |] g1]; try discriminate.
  cbn [g_upd_first gcommit fold_left] in *. rewrite greload_map in *. cbn [map] in *. 
  pose proof (f_equal fst E) as E1. pose proof (f_equal (fun z => match snd z with Some (a :: _) => a | _ => s end) E) as E2. cbn [fst] in E1. cbv beta iota in E2. cbn [snd] in E2.
  rewrite E1, E2, greload_map. reflexivity.
Qed.

Lemma by_id_app : forall id r x s, by_id id r = Some s -> by_id id (r ++ [x]) = Some s.
Proof.
  unfold by_id. induction r as [|y r IH]; intros x s H; [discriminate|]. cbn [app find] in *. destruct (gs_id y =? id)%N; [exact H|apply IH; exact H].
Qed.

Lemma rcv_reload : forall ck0 id pub v r x, rcv_ok C ck0 id pub v r -> rcv_ok C ck0 id pub v (greload (r ++ [x])).
Proof.
  intros ck0 id pub v r x (s & p & HB & HP & HC & R). exists (with_zero_private s), p. split; [rewrite by_id_reload, (by_id_app _ _ _ _ HB); reflexivity|].
  unfold with_zero_private. cbn [gs_signing kp_pub gs_chain gs_keys]. split; [exact HP|]. split; [exact HC|exact R].
Qed.

Lemma gw_process_small : forall d r, (S (length r) <= max_group_keys)%nat ->
  gw_process d (Some r) = Some (greload (r ++ [new_gstate (dm_id d) (dm_iter d) (match dm_chain d with Some c => c | None => [] end) {| kp_pub := dm_sigkey d; kp_priv := None |}])).
Proof.
  intros d r H. unfold gw_process, group_process, g_add_state. cbn [gcommit fold_left].
  replace (max_group_keys <? length (r ++ [new_gstate (dm_id d) (dm_iter d) (match dm_chain d with Some c => c | None => [] end) {| kp_pub := dm_sigkey d; kp_priv := None |}]))%nat with false; [reflexivity|].
  symmetry. apply Nat.ltb_ge. rewrite app_length. cbn [length]. lia.
Qed.

Lemma greload_length : forall r, length (greload r) = length r.
Proof. intros r. rewrite greload_map. apply map_length. Qed.

Lemma gw_decrypt_length : forall m r o r', gw_decrypt C m (Some r) = (o, r') -> exists x, r' = Some x /\ length x = length r.
Proof.
  intros m r o r' H. unfold gw_decrypt in H. destruct (group_decrypt C (Some r) m) as [[[o1 m1] r1] es] eqn:E. injection H as <- <-.
  unfold group_decrypt in E. destruct r as [|s0 rest]; [injection E as _ _ _ <-; exists []; split; reflexivity|].
  destruct (g_by_id (km_id m) (s0 :: rest)) as [s| |]; try (injection E as _ _ _ <-; eexists; split; reflexivity).
  destruct (negb _); [injection E as _ _ _ <-; eexists; split; reflexivity|].
  destruct (g_get_key C s (km_iter m)) as [[k| |] s']; try (injection E as _ _ _ <-; eexists; split; reflexivity).
  destruct (decrypt_cbc_full C _ _ _) as [[pt| |] ct']; injection E as _ _ _ <-; try (eexists; split; reflexivity).
  cbn [gcommit fold_left]. eexists. split; [reflexivity|]. rewrite greload_length. apply (upd_id_length (km_id m) s' (s0 :: rest)).
Qed.

(** ** One channel *)

(** A distribution message made after [n] messages. *)
Definition dist_ok (ck0 : gchain) (id : N) (pub : arr32) (n : N) (b : bytes) : Prop :=
  exists d, skd_from_bytes b = Ok d /\ dm_id d = id /\ dm_iter d = n /\ dm_chain d = Some (gc_key (gck C (N.to_nat n) ck0)) /\ dm_sigkey d = pub.

(** [stores j]: what member [j] stores under the channel's name; [i]: the sender. *)
Definition chan_ok (i : nat) (x : chan_view) (stores : nat -> option grecord) (wire dist : list bytes) (joins : nat) : Prop :=
  (x = fresh_chan /\ wire = [] /\ dist = [] /\ forall j, stores j = None) \/
  (exists ck0 s rest seed, gc_iter ck0 = 0%N /\ stores i = Some (s :: rest) /\ (length rest <= joins)%nat /\
     gs_signing s = pair_of C (clamp seed) /\ (gs_id s < 2 ^ 32)%N /\ gs_chain s = gck C (length (cv_sent x)) ck0 /\ gs_keys s = [] /\
     (forall n, length (gc_key (gck C n ck0)) = 32%nat) /\
     length wire = length (cv_sent x) /\
     (forall k pt w, nth_error (cv_sent x) k = Some pt -> nth_error wire k = Some w -> wire_ok C ck0 (gs_id s) (kp_pub (gs_signing s)) k pt w) /\
     length dist = length (cv_dist x) /\
     (forall k n b, nth_error (cv_dist x) k = Some n -> nth_error dist k = Some b ->
        (n <= N.of_nat (length (cv_sent x)))%N /\ dist_ok ck0 (gs_id s) (kp_pub (gs_signing s)) n b) /\
     cv_view x i = Some (sender_at (length (cv_sent x))) /\
     (forall j, j <> i -> (cv_view x j = None /\ stores j = None) \/
        (exists v r, cv_view x j = Some v /\ stores j = Some r /\ (length r <= joins)%nat /\
           rcv_ok C ck0 (gs_id s) (kp_pub (gs_signing s)) v r /\ (gv_next v <= N.of_nat (length (cv_sent x)))%N))).

(** A change of the stores that does not concern the channel. *)
Lemma chan_ok_ext : forall i x f f' wire dist a b, (forall j, f' j = f j) -> (a <= b)%nat -> chan_ok i x f wire dist a -> chan_ok i x f' wire dist b.
Proof.
  intros i x f f' wire dist a b Hf Hab [(-> & -> & -> & H)|(ck0 & s & rest & seed & H0 & H1 & H2 & H3 & H4 & H5 & H6 & HK & H7 & H8 & H9 & H10 & H11 & H12)].
  - left. repeat split. intros j. rewrite Hf. apply H.
  - right. exists ck0, s, rest, seed. rewrite Hf. split; [exact H0|]. split; [exact H1|]. split; [lia|]. split; [exact H3|]. split; [exact H4|]. split; [exact H5|]. split; [exact H6|]. split; [exact HK|]. split; [exact H7|].
    split; [exact H8|]. split; [exact H9|]. split; [exact H10|]. split; [exact H11|]. intros j Hj. rewrite Hf. destruct (H12 j Hj) as [X|(v & r & V1 & V2 & V3 & V4)]; [left; exact X|].
    right. exists v, r. split; [exact V1|]. split; [exact V2|]. split; [lia|exact V4].
Qed.

(** ** The whole network *)

Definition inv (joins : nat) (n : network) (m : channel -> chan_view) : Prop :=
  forall c, chan_ok (snd c) (m c) (fun j => n_store n j (name_of addr c)) (n_wire n c) (n_dist n c) joins.

Lemma name_inj : forall c c', name_of addr c = name_of addr c' -> c = c'.
Proof. intros [a i] [b j] H. unfold name_of in H. cbn [fst snd] in H. injection H as -> H. apply Hinj in H. rewrite H. reflexivity. Qed.

Lemma write_same : forall j c v n, n_store (write addr j c v n) j (name_of addr c) = v.
Proof. intros. cbn [write n_store]. rewrite (put_same Nat.eqb) by apply Nat.eqb_eq. apply put_same. exact skname_eqb_eq. Qed.
Lemma write_member : forall j c v n j' x, j <> j' -> n_store (write addr j c v n) j' x = n_store n j' x.
Proof. intros. cbn [write n_store]. rewrite (put_other Nat.eqb) by (auto; apply Nat.eqb_eq). reflexivity. Qed.
Lemma write_channel : forall j c v n j' c', c <> c' -> n_store (write addr j c v n) j' (name_of addr c') = n_store n j' (name_of addr c').
Proof.
  intros j c v n j' c' H. cbn [write n_store]. unfold put at 1. destruct (j =? j')%nat eqn:E; [|reflexivity]. apply Nat.eqb_eq in E. subst j'.
  apply put_other; [exact skname_eqb_eq|]. intros X. apply H. apply name_inj. exact X.
Qed.
Lemma write_id : forall j c n j' c', n_store (write addr j c (n_store n j (name_of addr c)) n) j' (name_of addr c') = n_store n j' (name_of addr c').
Proof.
  intros j c n j' c'. destruct (channel_eqb c c') eqn:E.
  - apply channel_eqb_eq in E. subst c'. destruct (Nat.eq_dec j j') as [<-|H]; [apply write_same|apply write_member; exact H].
  - apply write_channel. intros ->. rewrite (proj2 (channel_eqb_eq c' c') eq_refl) in E. discriminate.
Qed.

(** It is enough to look at the channel concerned. *)
Lemma inv_put : forall a b n m c x n', inv a n m -> (a <= b)%nat ->
  (forall c', c <> c' -> n_wire n' c' = n_wire n c' /\ n_dist n' c' = n_dist n c' /\ forall j, n_store n' j (name_of addr c') = n_store n j (name_of addr c')) ->
  chan_ok (snd c) x (fun j => n_store n' j (name_of addr c)) (n_wire n' c) (n_dist n' c) b ->
  inv b n' (put channel_eqb c x m).
Proof.
  intros a b n m c x n' HI Hab HO HC c'. destruct (channel_eqb c c') eqn:E.
  - apply channel_eqb_eq in E. subst c'. rewrite put_same by exact channel_eqb_eq. exact HC.
  - assert (HN : c <> c') by (intros ->; rewrite (proj2 (channel_eqb_eq c' c') eq_refl) in E; discriminate).
    rewrite put_other by (exact channel_eqb_eq || exact HN). destruct (HO c' HN) as (-> & -> & HS). eapply chan_ok_ext; [|exact Hab|apply HI]. intros j. apply HS.
Qed.

Lemma inv_keep : forall a b n m n', inv a n m -> (a <= b)%nat -> (forall c, n_wire n' c = n_wire n c /\ n_dist n' c = n_dist n c /\ forall j, n_store n' j (name_of addr c) = n_store n j (name_of addr c)) ->
  inv b n' m.
Proof.
  intros a b n m n' HI Hab H c. destruct (H c) as (-> & -> & HS). eapply chan_ok_ext; [|exact Hab|apply HI]. intros j. apply HS.
Qed.

Lemma chain_key_len : forall ck0 n, length (gc_key ck0) = 32%nat -> length (gc_key (gck C n ck0)) = 32%nat.
Proof. intros ck0 [|n] H; [exact H|]. change (gck C (S n) ck0) with (g_next C (gck C n ck0)). apply (law_hmac_len C L). Qed.

Lemma dist_made : forall s ck0 n, (gs_id s < 2 ^ 32)%N -> gs_chain s = gck C n ck0 -> gc_iter ck0 = 0%N -> (N.of_nat n < u32_modulus)%N -> length (gc_key (gck C n ck0)) = 32%nat ->
  dist_ok ck0 (gs_id s) (kp_pub (gs_signing s)) (N.of_nat n) (skd_bytes (skd_of_state s)).
Proof.
  intros s ck0 n Hid HC H0 Hn HK.
  assert (HI : gc_iter (gck C n ck0) = N.of_nat n) by (rewrite gck_iter; rewrite H0; [apply N.add_0_l|rewrite N.add_0_l; exact Hn]).
  destruct (skd_fields_roundtrip (gs_id s) (gc_iter (gs_chain s)) (gc_key (gs_chain s)) (kp_pub (gs_signing s))) as (dm & E & D1 & D2 & D3 & D4);
    [exact Hid|rewrite HC, HI; exact Hn|rewrite HC; unfold fits; lia|].
  exists dm. split; [exact E|]. split; [exact D1|]. split; [rewrite D2, HC; exact HI|]. split; [rewrite D3, HC, Nat2N.id; reflexivity|exact D4].
Qed.

Lemma step_create : forall joins n m c g, inv joins n m -> (N.of_nat (length (cv_sent (m c))) < u32_modulus)%N -> proper C (MCreate c g) ->
  exists n', mstep C addr (MCreate c g) n = ([], n') /\ inv joins n' (snd (rstep (MCreate c g) m)).
Proof.
  intros joins n m c g HI Hb (p & g' & HG). cbn [mstep rstep snd].
  pose proof (HI c) as HC. set (F := fun j => n_store n j (name_of addr c)) in HC.
  destruct HC as [(EX & EW & ED & H)|(ck0 & s & rest & seed & H0 & H1 & H2 & H3 & H4 & H5 & H6 & HK & H7 & H8 & H9 & H10 & H11 & H12)].
  - assert (EN : n_store n (snd c) (name_of addr c) = None) by apply H. rewrite EN. unfold gw_create, group_create. cbn [g_is_empty]. rewrite HG.
    unfold generate_key_pair in HG. destruct (rng_read 32 g) as [[seed|] g1]; [|discriminate].
    destruct (generate_registration_id g') as [id g2] eqn:EI. destruct (generate_sender_key g2) as [key g3] eqn:EK.
    cbn [g_set_state g_first gcommit fold_left]. rewrite greload_map. cbn [map].
    assert (Hp : p = pair_of C (clamp seed)) by (injection HG as <- _; reflexivity). clear HG.
    set (s := with_zero_private (new_gstate id 0 key p)).
    assert (ES : skd_of_state (new_gstate id 0 key p) = skd_of_state s) by reflexivity. rewrite ES. eexists. split; [reflexivity|].
    assert (Hid : (gs_id s < 2 ^ 32)%N).
    { change (gs_id s) with id. unfold generate_registration_id in EI. destruct (rng_read 4 g') as [[a|] ?]; injection EI as <- _; [|reflexivity].
      unfold le_u32. assert (HL := arr_length _ a). destruct (abytes a) as [|b0 [|b1 [|b2 [|b3 [|? ?]]]]]; try discriminate HL.
      assert (B0 := b2n_lt b0). assert (B1 := b2n_lt b1). assert (B2 := b2n_lt b2). assert (B3 := b2n_lt b3). change (2 ^ 32)%N with 4294967296%N. lia. }
    assert (HL : length (gc_key (gs_chain s)) = 32%nat).
    { change (gc_key (gs_chain s)) with key. unfold generate_sender_key in EK. destruct (rng_read 32 g2) as [[a|] ?]; injection EK as <- _; [apply arr_length|reflexivity]. }
    assert (HS : gs_signing s = pair_of C (clamp seed)) by (unfold s; rewrite Hp; reflexivity).
    eapply (inv_put joins joins n m c _ _ HI (le_n _)).
    + intros c' HN. cbn [hand_out n_wire n_dist n_store write]. split; [reflexivity|]. split; [apply put_other; [exact channel_eqb_eq|exact HN]|].
      intros j. change (n_store (write addr (snd c) c (Some [s]) n) j (name_of addr c') = n_store n j (name_of addr c')). apply write_channel. exact HN.
    + right. exists (gs_chain s), s, [], seed. rewrite EX. cbn [set_view cv_sent cv_dist cv_view fresh_chan length].
      split; [reflexivity|]. split; [apply write_same|]. split; [lia|]. split; [exact HS|]. split; [exact Hid|]. split; [reflexivity|]. split; [reflexivity|].
      split; [intros k; apply chain_key_len; exact HL|].
      cbn [hand_out n_wire n_dist write]. rewrite EW. split; [reflexivity|]. split; [intros k pt w X; destruct k; discriminate|].
      rewrite put_same by exact channel_eqb_eq. cbn [write n_dist]. rewrite ED. split; [reflexivity|]. split.
      * intros [|k] nn b X Y; [|destruct k; discriminate]. cbn in X, Y. injection X as <-. apply some_eq in Y. subst b. split; [lia|].
        apply (dist_made s (gs_chain s) 0); try reflexivity; assumption.
      * split; [apply put_same; apply Nat.eqb_eq|]. intros j Hj. left. split; [rewrite put_other by (auto; apply Nat.eqb_eq); reflexivity|].
        etransitivity; [apply write_member; auto|apply H].
  - assert (EN : n_store n (snd c) (name_of addr c) = Some (s :: rest)) by exact H1. rewrite EN. unfold gw_create, group_create. cbn [g_is_empty g_first gcommit fold_left].
    eexists. split; [reflexivity|].
    eapply (inv_put joins joins n m c _ _ HI (le_n _)).
    + intros c' HN. cbn [hand_out n_wire n_dist]. split; [reflexivity|]. split; [apply put_other; [exact channel_eqb_eq|exact HN]|].
      intros j. apply write_channel. exact HN.
    + right. exists ck0, s, rest, seed. cbn [set_view cv_sent cv_dist cv_view].
      split; [exact H0|]. split; [apply write_same|]. split; [exact H2|]. split; [exact H3|]. split; [exact H4|]. split; [exact H5|]. split; [exact H6|]. split; [exact HK|].
      cbn [hand_out n_wire n_dist write]. split; [exact H7|]. split; [exact H8|]. rewrite put_same by exact channel_eqb_eq. split; [rewrite !app_length, H9; reflexivity|]. split.
      * intros k nn b X Y. destruct (Nat.lt_ge_cases k (length (cv_dist (m c)))) as [HL|HL].
        -- rewrite nth_error_app1 in X by exact HL. rewrite nth_error_app1 in Y by (unfold write; cbn [n_dist]; lia). eapply H10; eassumption.
        -- assert (k = length (cv_dist (m c))) as ->.
           { assert (k < length (cv_dist (m c) ++ [N.of_nat (length (cv_sent (m c)))]))%nat by (apply nth_error_Some; congruence). rewrite app_length in H. cbn [length] in H. lia. }
           rewrite nth_error_app2, Nat.sub_diag in X by lia. rewrite nth_error_app2 in Y by (unfold write; cbn [n_dist]; lia).
           rewrite <- H9, Nat.sub_diag in Y. cbn in X, Y. injection X as <-. apply some_eq in Y. subst b. split; [lia|]. apply dist_made; auto.
      * split; [apply put_same; apply Nat.eqb_eq|]. intros j Hj. rewrite put_other by (auto; apply Nat.eqb_eq).
        assert (E : n_store (write addr (snd c) c (Some (s :: rest)) n) j (name_of addr c) = F j) by (rewrite write_member by auto; reflexivity).
        cbn [hand_out n_store]. rewrite E. apply H12. exact Hj.
Qed.

Lemma zero_private_id : forall s seed, gs_signing s = pair_of C (clamp seed) -> with_zero_private s = s.
Proof. intros s seed H. unfold with_zero_private. rewrite H. cbn [pair_of kp_pub kp_priv]. destruct s as [a b c d]. cbn [gs_signing gs_keys gs_id gs_chain] in *. rewrite H. reflexivity. Qed.

Lemma rcv_own : forall ck0 s rest n, gc_iter ck0 = 0%N -> gs_chain s = gck C n ck0 -> gs_keys s = [] ->
  rcv_ok C ck0 (gs_id s) (kp_pub (gs_signing s)) (sender_at n) (s :: rest).
Proof.
  intros ck0 s rest n H0 HC HK. exists s, n. cbn [sender_at gv_next gv_kept map]. split; [unfold by_id; cbn [find]; rewrite N.eqb_refl; reflexivity|].
  split; [reflexivity|]. split; [exact HC|]. split; [rewrite H0; reflexivity|]. split; [exact HK|]. split; [constructor|]. split; [intros x []|cbn [length]; lia].
Qed.

Lemma rcv_new : forall ck0 id pub n d r, gc_iter ck0 = 0%N -> (n < u32_modulus)%N -> dm_id d = id -> dm_iter d = n -> dm_chain d = Some (gc_key (gck C (N.to_nat n) ck0)) -> dm_sigkey d = pub ->
  gw_process d None = Some r -> rcv_ok C ck0 id pub {| gv_next := n; gv_kept := [] |} r /\ length r = 1%nat.
Proof.
  intros ck0 id pub n d r H0 Hn D1 D2 D3 D4 H. change (gw_process d None) with (gw_process d (Some [])) in H. rewrite gw_process_small in H by (cbn [length]; apply Nat.leb_le; reflexivity).
  rewrite D1, D2, D3, D4 in H. cbn [app] in H. rewrite greload_map in H. cbn [map] in H. apply some_eq in H. subst r. split; [|reflexivity].
  eexists. exists (N.to_nat n). split; [unfold by_id; cbn [find with_zero_private new_gstate gs_id]; rewrite N.eqb_refl; reflexivity|].
  unfold with_zero_private, new_gstate. cbn [gs_signing kp_pub gs_chain gs_keys gv_next gv_kept map].
  split; [reflexivity|]. split.
  - assert (HI : gc_iter (gck C (N.to_nat n) ck0) = n) by (rewrite gck_iter; rewrite H0; lia).
    destruct (gck C (N.to_nat n) ck0) as [a b]. cbn [gc_key gc_iter] in *. rewrite HI. reflexivity.
  - split; [rewrite H0; lia|]. split; [reflexivity|]. split; [constructor|]. split; [intros x []|cbn [length]; lia].
Qed.

Lemma step_join : forall joins n m c j k, inv joins n m -> (S (S joins) <= max_group_keys)%nat -> (N.of_nat (length (cv_sent (m c))) < u32_modulus)%N ->
  exists n', mstep C addr (MJoin c j k) n = ([], n') /\ inv (S joins) n' (snd (rstep (MJoin c j k) m)) /\ fst (rstep (MJoin c j k) m) = [].
Proof.
  intros joins n m c j k HI Hj Hb. cbn [mstep rstep].
  pose proof (HI c) as HC. set (F := fun j => n_store n j (name_of addr c)) in HC.
  destruct HC as [(EX & EW & ED & H)|(ck0 & s & rest & seed & H0 & H1 & H2 & H3 & H4 & H5 & H6 & HK & H7 & H8 & H9 & H10 & H11 & H12)].
  - rewrite ED, EX. cbn [fresh_chan cv_dist]. assert (EN : forall A, nth_error (@nil A) k = None) by (intros A; destruct k; reflexivity). rewrite !EN.
    exists n. split; [reflexivity|]. split; [|reflexivity]. cbn [snd]. eapply inv_keep; [exact HI|lia|]. intros c'. repeat split.
  - destruct (nth_error (cv_dist (m c)) k) as [nn|] eqn:E1.
    + assert (HL : (k < length (cv_dist (m c)))%nat) by (apply nth_error_Some; congruence).
      destruct (nth_error (n_dist n c) k) as [b|] eqn:E2; [|apply nth_error_None in E2; lia].
      destruct (H10 k nn b E1 E2) as (Hle & d & EP & D1 & D2 & D3 & D4). rewrite EP.
      eexists. split; [reflexivity|].
      assert (HW : forall v c', c <> c' -> n_wire (write addr j c v n) c' = n_wire n c' /\ n_dist (write addr j c v n) c' = n_dist n c' /\
                     forall j', n_store (write addr j c v n) j' (name_of addr c') = n_store n j' (name_of addr c')).
      { intros v c' HN. repeat split. intros j'. apply write_channel. exact HN. }
      destruct (Nat.eq_dec j (snd c)) as [->|HJ].
      * rewrite H11. cbn [fst snd]. split; [|reflexivity].
        assert (EN : n_store n (snd c) (name_of addr c) = Some (s :: rest)) by exact H1. rewrite EN, gw_process_small by (cbn [length]; lia).
        set (v := Some (greload _)). intros c'. destruct (channel_eqb c c') eqn:EC.
        -- apply channel_eqb_eq in EC. subst c'. right. exists ck0, s, (tl (greload ((s :: rest) ++ [new_gstate (dm_id d) (dm_iter d) (match dm_chain d with Some c => c | None => [] end) {| kp_pub := dm_sigkey d; kp_priv := None |}]))), seed.
           split; [exact H0|]. split.
           { rewrite write_same. unfold v. rewrite greload_map. cbn [app map tl]. rewrite (zero_private_id s seed H3). reflexivity. }
           split; [rewrite greload_map; cbn [app map tl]; rewrite map_length, app_length; cbn [length]; lia|].
           split; [exact H3|]. split; [exact H4|]. split; [exact H5|]. split; [exact H6|]. split; [exact HK|]. split; [exact H7|]. split; [exact H8|]. split; [exact H9|]. split; [exact H10|]. split; [exact H11|].
           intros j' Hj'. rewrite write_member by auto. destruct (H12 j' Hj') as [X|(v' & r & V1 & V2 & V3 & V4)]; [left; exact X|].
           right. exists v', r. split; [exact V1|]. split; [exact V2|]. split; [lia|exact V4].
        -- assert (HN : c <> c') by (intros ->; rewrite (proj2 (channel_eqb_eq c' c') eq_refl) in EC; discriminate).
           destruct (HW v c' HN) as (E3 & E4 & E5). rewrite E3, E4. eapply chan_ok_ext; [|apply Nat.le_succ_diag_r|apply HI]. intros j'. apply E5.
      * destruct (H12 j HJ) as [(V1 & V2)|(v & r & V1 & V2 & V3 & V4 & V5)].
        -- rewrite V1. cbn [fst snd]. split; [|reflexivity]. assert (EN : n_store n j (name_of addr c) = None) by exact V2. rewrite EN.
           destruct (gw_process d None) as [r|] eqn:EG; [|unfold gw_process in EG; destruct (group_process None d) as [x es] eqn:EX; unfold group_process in EX; injection EX as _ <-; discriminate EG].
           destruct (rcv_new ck0 (gs_id s) (kp_pub (gs_signing s)) nn d r H0) as (R1 & R2); auto; [lia|].
           eapply (inv_put joins (S joins) n m c _ _ HI); [lia|apply HW|].
           right. exists ck0, s, rest, seed. cbn [set_view cv_sent cv_dist cv_view]. split; [exact H0|]. split; [rewrite write_member by exact HJ; exact H1|]. split; [lia|].
           split; [exact H3|]. split; [exact H4|]. split; [exact H5|]. split; [exact H6|]. split; [exact HK|]. split; [exact H7|]. split; [exact H8|]. split; [exact H9|]. split; [exact H10|].
           split; [rewrite put_other by (auto; apply Nat.eqb_eq); exact H11|].
           intros j' Hj'. destruct (Nat.eq_dec j j') as [<-|HJJ].
           ++ right. exists {| gv_next := nn; gv_kept := [] |}, r. split; [apply put_same; apply Nat.eqb_eq|]. split; [apply write_same|]. split; [lia|]. split; [exact R1|exact Hle].
           ++ rewrite put_other by (auto; apply Nat.eqb_eq). rewrite write_member by exact HJJ. destruct (H12 j' Hj') as [X|(v' & r' & W1 & W2 & W3 & W4)]; [left; exact X|].
              right. exists v', r'. split; [exact W1|]. split; [exact W2|]. split; [lia|exact W4].
        -- rewrite V1. cbn [fst snd]. split; [|reflexivity]. assert (EN : n_store n j (name_of addr c) = Some r) by exact V2. rewrite EN, gw_process_small by lia.
           set (v0 := Some (greload _)). intros c'. destruct (channel_eqb c c') eqn:EC.
           ++ apply channel_eqb_eq in EC. subst c'. right. exists ck0, s, rest, seed. split; [exact H0|]. split; [rewrite write_member by exact HJ; exact H1|]. split; [lia|].
              split; [exact H3|]. split; [exact H4|]. split; [exact H5|]. split; [exact H6|]. split; [exact HK|]. split; [exact H7|]. split; [exact H8|]. split; [exact H9|]. split; [exact H10|]. split; [exact H11|].
              intros j' Hj'. destruct (Nat.eq_dec j j') as [<-|HJJ].
              ** right. exists v. eexists. split; [exact V1|]. split; [apply write_same|]. split; [rewrite greload_length, app_length; cbn [length]; lia|]. split; [apply rcv_reload; exact V4|exact V5].
              ** rewrite write_member by exact HJJ. destruct (H12 j' Hj') as [X|(v' & r' & W1 & W2 & W3 & W4)]; [left; exact X|].
                 right. exists v', r'. split; [exact W1|]. split; [exact W2|]. split; [lia|exact W4].
           ++ assert (HN : c <> c') by (intros ->; rewrite (proj2 (channel_eqb_eq c' c') eq_refl) in EC; discriminate).
              destruct (HW v0 c' HN) as (E3 & E4 & E5). rewrite E3, E4. eapply chan_ok_ext; [|apply Nat.le_succ_diag_r|apply HI]. intros j'. apply E5.
    + assert (HL : (length (cv_dist (m c)) <= k)%nat) by (apply nth_error_None; exact E1).
      replace (nth_error (n_dist n c) k) with (@None bytes) by (symmetry; apply nth_error_None; lia).
      exists n. split; [reflexivity|]. split; [|reflexivity]. cbn [snd]. eapply inv_keep; [exact HI|lia|]. intros c'. repeat split.
Qed.

Lemma write_frame : forall j c v n c', c <> c' -> n_wire (write addr j c v n) c' = n_wire n c' /\ n_dist (write addr j c v n) c' = n_dist n c' /\
  forall j', n_store (write addr j c v n) j' (name_of addr c') = n_store n j' (name_of addr c').
Proof. intros j c v n c' HN. repeat split. intros j'. apply write_channel. exact HN. Qed.

Lemma inv_write_id : forall joins n m j c, inv joins n m -> inv joins (write addr j c (n_store n j (name_of addr c)) n) m.
Proof. intros joins n m j c HI. eapply inv_keep; [exact HI|apply le_n|]. intros c'. repeat split. intros j'. apply write_id. Qed.

Lemma step_send : forall joins n m c pt g, inv joins n m -> (N.of_nat (length (cv_sent (m c))) < u32_modulus)%N -> proper C (MSend c pt g) ->
  exists o n', mstep C addr (MSend c pt g) n = (o, n') /\ Forall2 meets o (fst (rstep (MSend c pt g) m)) /\ inv joins n' (snd (rstep (MSend c pt g) m)).
Proof.
  intros joins n m c pt g HI Hb Hpt. cbn [mstep rstep].
  pose proof (HI c) as HC. set (F := fun j => n_store n j (name_of addr c)) in HC.
  destruct HC as [(EX & EW & ED & H)|(ck0 & s & rest & seed & H0 & H1 & H2 & H3 & H4 & H5 & H6 & HK & H7 & H8 & H9 & H10 & H11 & H12)].
  - assert (EN : n_store n (snd c) (name_of addr c) = None) by apply H. rewrite EX. cbn [fresh_chan cv_view fst snd].
    pose proof (inv_write_id joins n m (snd c) c HI) as X. rewrite EN in X. rewrite EN. change (gw_encrypt C pt g None) with (@Panic skm, @None grecord). cbv iota.
    eexists. eexists. split; [reflexivity|]. split; [constructor; [reflexivity|constructor]|exact X].
  - assert (EN : n_store n (snd c) (name_of addr c) = Some (s :: rest)) by exact H1. rewrite EN, H11. cbn [fst snd].
    destruct (send_ok' s rest seed (length (cv_sent (m c))) ck0 pt g H3 H4 H5) as (msg & EE & HW); [rewrite H0; exact Hb|exact Hpt|]. rewrite EE.
    eexists. eexists. split; [reflexivity|]. split; [constructor|].
    eapply (inv_put joins joins n m c _ _ HI (le_n _)).
    + intros c' HN. destruct (write_frame (snd c) c (Some (gset_chain (gck C (S (length (cv_sent (m c)))) ck0) s :: greload rest)) n c' HN) as (A1 & A2 & A3).
      cbn [post n_wire n_dist n_store]. split; [rewrite put_other by (exact channel_eqb_eq || exact HN); exact A1|]. split; [exact A2|exact A3].
    + right. exists ck0, (gset_chain (gck C (S (length (cv_sent (m c)))) ck0) s), (greload rest), seed.
      cbn [set_view cv_sent cv_dist cv_view gset_chain gs_signing gs_id gs_chain gs_keys]. split; [exact H0|]. split; [apply write_same|]. split; [rewrite greload_length; exact H2|].
      split; [exact H3|]. split; [exact H4|]. split; [rewrite app_length; cbn [length]; f_equal; lia|]. split; [exact H6|]. split; [exact HK|].
      cbn [post n_wire n_dist write]. rewrite put_same by exact channel_eqb_eq. cbn [write n_wire]. split; [rewrite !app_length, H7; reflexivity|]. split.
      * intros i pt' w' X Y. destruct (Nat.lt_ge_cases i (length (cv_sent (m c)))) as [HL|HL].
        -- rewrite nth_error_app1 in X by exact HL. rewrite nth_error_app1 in Y by lia. eapply H8; eassumption.
        -- assert (i = length (cv_sent (m c))) as ->.
           { assert (i < length (cv_sent (m c) ++ [pt]))%nat by (apply nth_error_Some; congruence). rewrite app_length in H. cbn [length] in H. lia. }
           rewrite nth_error_app2, Nat.sub_diag in X by lia. rewrite nth_error_app2 in Y by lia.
           rewrite H7, Nat.sub_diag in Y. cbn [nth_error] in X, Y. apply some_eq in X. apply some_eq in Y. subst pt' w'. exact HW.
      * split; [exact H9|]. split.
        -- intros k nn b X Y. destruct (H10 k nn b X Y) as [Hle HD]. split; [|exact HD]. rewrite app_length. cbn [length]. lia.
        -- split; [rewrite app_length; cbn [length]; rewrite put_same by apply Nat.eqb_eq; f_equal; f_equal; lia|].
           intros j Hj. rewrite put_other by (auto; apply Nat.eqb_eq).
           match goal with |- context[n_store ?N j (name_of addr c)] => assert (E : n_store N j (name_of addr c) = F j) by (exact (write_member (snd c) c _ n j (name_of addr c) (not_eq_sym Hj))) end.
           rewrite E. destruct (H12 j Hj) as [X|(v & r & V1 & V2 & V3 & V4 & V5)]; [left; exact X|].
           right. exists v, r. split; [exact V1|]. split; [exact V2|]. split; [exact V3|]. split; [exact V4|]. rewrite app_length. lia.
Qed.

Lemma gaccept_next : forall v k v', gaccept v k = Some v' -> gv_next v' = gv_next v \/ gv_next v' = (k + 1)%N.
Proof.
  intros v k v' H. unfold gaccept in H. destruct (k <? gv_next v)%N.
  - destruct (existsb _ _); [|discriminate]. injection H as <-. left. reflexivity.
  - destruct (2000 <? k - gv_next v)%N; [discriminate|]. injection H as <-. right. reflexivity.
Qed.

Lemma step_deliver : forall joins n m c j k, inv joins n m -> (N.of_nat (length (cv_sent (m c))) < u32_modulus)%N ->
  exists o n', mstep C addr (MDeliver c j k) n = (o, n') /\ Forall2 meets o (fst (rstep (MDeliver c j k) m)) /\ inv joins n' (snd (rstep (MDeliver c j k) m)).
Proof.
  intros joins n m c j k HI Hb. cbn [mstep rstep].
  pose proof (HI c) as HC. set (F := fun j => n_store n j (name_of addr c)) in HC.
  destruct HC as [(EX & EW & ED & H)|(ck0 & s & rest & seed & H0 & H1 & H2 & H3 & H4 & H5 & H6 & HK & H7 & H8 & H9 & H10 & H11 & H12)].
  - rewrite EW, EX. cbn [fresh_chan cv_sent]. assert (EN : forall A, nth_error (@nil A) k = None) by (intros A; destruct k; reflexivity). rewrite !EN.
    eexists. exists n. split; [reflexivity|]. split; [constructor|exact HI].
  - destruct (nth_error (cv_sent (m c)) k) as [pt|] eqn:E1.
    + assert (HL : (k < length (cv_sent (m c)))%nat) by (apply nth_error_Some; congruence).
      destruct (nth_error (n_wire n c) k) as [w|] eqn:E2; [|apply nth_error_None in E2; lia].
      pose proof (H8 k pt w E1 E2) as HW.
      assert (HF : gaccept (sender_at (length (cv_sent (m c)))) (N.of_nat k) = None).
      { unfold gaccept, sender_at. cbn [gv_next gv_kept existsb]. replace (N.of_nat k <? N.of_nat (length (cv_sent (m c))))%N with true; [reflexivity|]. symmetry. apply N.ltb_lt. lia. }
      assert (HD : forall v r, rcv_ok C ck0 (gs_id s) (kp_pub (gs_signing s)) v r -> (gv_next v <= N.of_nat (length (cv_sent (m c))))%N ->
        exists msg, skm_from_bytes w = Ok msg /\
        match gaccept v (N.of_nat k) with
        | Some v' => exists r', gw_decrypt C msg (Some r) = (Ok pt, Some r') /\ rcv_ok C ck0 (gs_id s) (kp_pub (gs_signing s)) v' r'
        | None => exists e, gw_decrypt C msg (Some r) = (Err e, Some r)
        end).
      { intros v r HR Hv. destruct (deliver_ok C L ck0 _ _ v r k pt w HR HW) as (msg & EM & HA); [rewrite H0; unfold u32_modulus in Hb; lia|unfold u32_modulus in Hb; lia|].
        exists msg. split; [exact EM|]. rewrite H0, N.add_0_l in HA. destruct (gaccept v (N.of_nat k)) as [v'|]; [|exact HA]. destruct HA as (r' & A1 & A2 & _). exists r'. auto. }
      unfold mdecrypt. destruct (Nat.eq_dec j (snd c)) as [->|HJ].
      * assert (EN : n_store n (snd c) (name_of addr c) = @Some grecord (s :: rest)) by exact H1. rewrite H11, HF. cbn [fst snd].
        destruct (HD (sender_at (length (cv_sent (m c)))) (s :: rest)) as (msg & EM & HA); [apply rcv_own; assumption|cbn [sender_at gv_next]; lia|].
        rewrite HF in HA. destruct HA as (e & EA). rewrite EM, EN, EA. eexists. eexists. split; [reflexivity|]. split; [constructor; [exists e; reflexivity|constructor]|].
        pose proof (inv_write_id joins n m (snd c) c HI) as X. rewrite EN in X. exact X.
      * destruct (H12 j HJ) as [(V1 & V2)|(v & r & V1 & V2 & V3 & V4 & V5)].
        -- assert (EN : n_store n j (name_of addr c) = None) by exact V2. rewrite V1. cbn [fst snd]. destruct HW as (msg & ct & EM & _). rewrite EM, EN.
           change (gw_decrypt C msg None) with (@Panic bytes, @None grecord). cbv iota. eexists. eexists. split; [reflexivity|]. split; [constructor; [reflexivity|constructor]|].
           pose proof (inv_write_id joins n m j c HI) as X. rewrite EN in X. exact X.
        -- assert (EN : n_store n j (name_of addr c) = Some r) by exact V2. rewrite V1.
           destruct (HD v r V4 V5) as (msg & EM & HA). rewrite EM, EN. destruct (gaccept v (N.of_nat k)) as [v'|] eqn:EG; cbn [fst snd].
           ++ destruct HA as (r' & EA & HR'). rewrite EA. eexists. eexists. split; [reflexivity|]. split; [constructor; [reflexivity|constructor]|].
              destruct (gw_decrypt_length msg r _ _ EA) as (x & Ex & Hx). apply some_eq in Ex. subst x.
              eapply (inv_put joins joins n m c _ _ HI (le_n _)); [apply write_frame|].
              right. exists ck0, s, rest, seed. cbn [set_view cv_sent cv_dist cv_view]. split; [exact H0|]. split; [rewrite write_member by exact HJ; exact H1|]. split; [exact H2|].
              split; [exact H3|]. split; [exact H4|]. split; [exact H5|]. split; [exact H6|]. split; [exact HK|]. split; [exact H7|]. split; [exact H8|]. split; [exact H9|]. split; [exact H10|].
              split; [rewrite put_other by (auto; apply Nat.eqb_eq); exact H11|].
              intros j' Hj'. destruct (Nat.eq_dec j j') as [<-|HJJ].
              ** right. exists v', r'. split; [apply put_same; apply Nat.eqb_eq|]. split; [apply write_same|]. split; [lia|]. split; [exact HR'|]. destruct (gaccept_next _ _ _ EG) as [->| ->]; lia.
              ** rewrite put_other by (auto; apply Nat.eqb_eq). rewrite write_member by exact HJJ. exact (H12 j' Hj').
           ++ destruct HA as (e & EA). rewrite EA. eexists. eexists. split; [reflexivity|]. split; [constructor; [exists e; reflexivity|constructor]|].
              pose proof (inv_write_id joins n m j c HI) as X. rewrite EN in X. exact X.
    + assert (HL : (length (cv_sent (m c)) <= k)%nat) by (apply nth_error_None; exact E1).
      replace (nth_error (n_wire n c) k) with (@None bytes) by (symmetry; apply nth_error_None; lia).
      eexists. exists n. split; [reflexivity|]. split; [constructor|exact HI].
Qed.

Lemma gw_decrypt_fail : forall m st o st', gw_decrypt C m st = (o, st') -> (forall pt, o <> Ok pt) -> st' = st.
Proof.
  intros m st o st' H HF. unfold gw_decrypt in H. destruct (group_decrypt C st m) as [[[o1 m1] r1] es] eqn:E. injection H as <- <-.
  unfold group_decrypt in E. destruct st as [[|s0 rest]|]; [injection E as _ _ _ <-; reflexivity| |injection E as _ _ _ <-; reflexivity].
  destruct (g_by_id (km_id m) (s0 :: rest)) as [s| |]; try (injection E as _ _ _ <-; reflexivity).
  destruct (negb _); [injection E as _ _ _ <-; reflexivity|].
  destruct (g_get_key C s (km_iter m)) as [[k| |] s']; try (injection E as _ _ _ <-; reflexivity).
  destruct (decrypt_cbc_full C _ _ _) as [[pt| |] ct']; try (injection E as _ _ _ <-; reflexivity).
  injection E as <- _ _ _. exfalso. exact (HF pt eq_refl).
Qed.

Lemma step_inject : forall joins n m c j b, inv joins n m ->
  exists o n', mstep C addr (MInject c j b) n = ([o], n') /\ ((exists pt, o = Ok pt) \/ ((forall pt, o <> Ok pt) /\ inv joins n' m)).
Proof.
  intros joins n m c j b HI. cbn [mstep]. unfold mdecrypt. destruct (skm_from_bytes b) as [msg|e|].
  - destruct (gw_decrypt C msg (n_store n j (name_of addr c))) as [o st] eqn:E. exists o. eexists. split; [reflexivity|].
    destruct o as [pt|e|]; [left; exists pt; reflexivity| |].
    + right. split; [discriminate|]. rewrite (gw_decrypt_fail _ _ _ _ E) by discriminate. apply inv_write_id. exact HI.
    + right. split; [discriminate|]. rewrite (gw_decrypt_fail _ _ _ _ E) by discriminate. apply inv_write_id. exact HI.
  - exists (Err e), n. split; [reflexivity|]. right. split; [discriminate|exact HI].
  - exists Panic, n. split; [reflexivity|]. right. split; [discriminate|exact HI].
Qed.

Lemma prescribed_app : forall a b os xs, Forall2 meets a b -> as_prescribed os xs -> as_prescribed (a ++ os) (b ++ xs).
Proof. intros a b os xs H HP. induction H as [|o x a b H1 H2 IH]; [exact HP|]. cbn [app]. apply AP_cons; assumption. Qed.

Definition total (m : channel -> chan_view) (n : nat) : Prop := forall c, (length (cv_sent (m c)) <= n)%nat.

Lemma rstep_total : forall e m t, total m t -> total (snd (rstep e m)) (t + sends_in [e]).
Proof.
  intros e m t HT c'. assert (HM : forall x c, (length (cv_sent x) <= t + sends_in [e])%nat -> (length (cv_sent (put channel_eqb c x m c')) <= t + sends_in [e])%nat).
  { intros x c Hx. unfold put. destruct (channel_eqb c c'); [exact Hx|]. specialize (HT c'). lia. }
  pose proof (HT c') as H0. destruct e as [c g|c j k|c pt g|c j k|c j b]; cbn [rstep]; cbn [snd sends_in filter length] in *.
  - apply HM. cbn [set_view cv_sent]. specialize (HT c). lia.
  - destruct (nth_error _ k) as [x|]; cbn [snd]; [|lia]. destruct (cv_view (m c) j); cbn [snd]; [lia|]. apply HM. cbn [set_view cv_sent]. specialize (HT c). lia.
  - destruct (cv_view (m c) (snd c)); cbn [snd]; [|unfold sends_in; cbn [filter length]; lia]. apply HM. cbn [set_view cv_sent]. rewrite app_length. unfold sends_in. cbn [filter length]. specialize (HT c). lia.
  - destruct (nth_error _ k) as [x|]; cbn [snd]; [|lia]. destruct (cv_view (m c) j); cbn [snd]; [|lia]. destruct (gaccept _ _); cbn [snd]; [|lia]. apply HM. cbn [set_view cv_sent]. specialize (HT c). lia.
  - lia.
Qed.

Lemma sends_cons : forall e evs, sends_in (e :: evs) = (sends_in [e] + sends_in evs)%nat.
Proof. intros e evs. unfold sends_in. cbn [filter]. destruct e; reflexivity. Qed.
Lemma joins_cons : forall e evs, joins_in (e :: evs) = (joins_in [e] + joins_in evs)%nat.
Proof. intros e evs. unfold joins_in. cbn [filter]. destruct e; reflexivity. Qed.

Lemma conversation : forall evs joins t n m, inv joins n m -> total m t -> (N.of_nat (t + sends_in evs) < 4294967296)%N -> (joins + joins_in evs < 2000)%nat -> Forall (proper C) evs ->
  as_prescribed (mrun C addr evs n) (rspec evs m).
Proof.
  induction evs as [|e evs IH]; intros joins t n m HI HT Hs Hj HP; [constructor|].
  rewrite sends_cons in Hs. rewrite joins_cons in Hj. inversion HP as [|e0 evs0 P1 P2]. subst e0 evs0. clear HP.
  pose proof (rstep_total e m t HT) as HT'.
  assert (HB : forall c, (N.of_nat (length (cv_sent (m c))) < u32_modulus)%N) by (intros c; specialize (HT c); unfold u32_modulus; lia).
  cbn [mrun rspec]. destruct (rstep e m) as [xs m'] eqn:ER. cbn [snd] in HT'.
  destruct e as [c g|c j k|c pt g|c j k|c j b].
  - destruct (step_create joins n m c g HI (HB c) P1) as (n' & E & HI'). rewrite E. rewrite ER in HI'. assert (xs = []) as -> by (cbn [rstep] in ER; injection ER as <- _; reflexivity).
    cbn [app]. assert (HJ1 : joins_in [MCreate c g] = 0%nat) by reflexivity. apply (IH joins (t + sends_in [MCreate c g])%nat n' m' HI' HT'); [lia|lia|exact P2].
  - assert (HJ1 : joins_in [MJoin c j k] = 1%nat) by reflexivity. rewrite HJ1 in Hj. destruct (step_join joins n m c j k HI) as (n' & E & HI' & EX); [unfold max_group_keys; lia|apply HB|]. rewrite E. rewrite ER in HI', EX. cbn [fst snd] in HI', EX. subst xs.
    cbn [app]. apply (IH (S joins) (t + sends_in [MJoin c j k])%nat n' m' HI' HT'); [lia|lia|exact P2].
  - destruct (step_send joins n m c pt g HI (HB c) P1) as (o & n' & E & HF & HI'). rewrite E. rewrite ER in HI', HF. cbn [fst snd] in HI', HF.
    apply prescribed_app; [exact HF|]. assert (HJ1 : joins_in [MSend c pt g] = 0%nat) by reflexivity. apply (IH joins (t + sends_in [MSend c pt g])%nat n' _ HI' HT'); [lia|lia|exact P2].
  - destruct (step_deliver joins n m c j k HI (HB c)) as (o & n' & E & HF & HI'). rewrite E. rewrite ER in HI', HF. cbn [fst snd] in HI', HF.
    apply prescribed_app; [exact HF|]. assert (HJ1 : joins_in [MDeliver c j k] = 0%nat) by reflexivity. apply (IH joins (t + sends_in [MDeliver c j k])%nat n' _ HI' HT'); [lia|lia|exact P2].
  - cbn [rstep] in ER. injection ER as <- <-. destruct (step_inject joins n m c j b HI) as (o & n' & E & [(pt & ->)|(HN & HI')]); rewrite E; cbn [app].
    + apply AP_forged.
    + apply AP_cons; [exact HN|]. assert (HJ1 : joins_in [MInject c j b] = 0%nat) by reflexivity. apply (IH joins (t + sends_in [MInject c j b])%nat n' _ HI' HT'); [lia|lia|exact P2].
Qed.

Lemma inv_quiet : inv 0 quiet (fun _ => fresh_chan).
Proof. intros c. left. repeat split. Qed.
End Conv.
