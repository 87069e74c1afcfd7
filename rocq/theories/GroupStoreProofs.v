(** GroupStoreProofs.v: proofs for C67. *)
From Verif Require Import Base Labels Crypto Bytehelper Ecc Cbc Messages SessionState Group GroupSpec GroupConvSpec GroupProofs GroupProofs2 GroupConvProofs GroupStoreSpec CryptoProofs SerialProofs.
From Coq Require Import Lia ZifyBool ZifyN ZifyNat.

(** * Stored records: every state has a private key *)

Definition keyed (s : gstate) : Prop := kp_priv (gs_signing s) <> None.
Definition stored (st : option grecord) : Prop := match st with Some r => Forall keyed r | None => True end.

Lemma zero_private_keyed : forall s, keyed (with_zero_private s).
Proof. intros s. unfold keyed, with_zero_private. cbn [gs_signing kp_priv]. destruct (kp_priv (gs_signing s)); intros H; discriminate H. Qed.

Lemma keyed_same : forall s, keyed s -> with_zero_private s = s.
Proof.
  intros [k i c [pub [p|]]] H; [|exfalso; apply H; reflexivity]. reflexivity.
Qed.

Lemma greload_stored : forall r, stored (Some (greload r)).
Proof. intros r. cbn [stored]. rewrite greload_map. apply Forall_forall. intros s Hs. apply in_map_iff in Hs. destruct Hs as (t & <- & _). apply zero_private_keyed. Qed.

Lemma stored_same : forall r, Forall keyed r -> greload r = r.
Proof. intros r H. rewrite greload_map. induction H as [|s r Hs _ IH]; [reflexivity|]. cbn [map]. rewrite IH, keyed_same by exact Hs. reflexivity. Qed.

(** * One-step equations *)

Section Calls.
Context (C : crypto).

Definition dec_state (m : skm) (s : gstate) : res bytes * option gstate :=
  if negb (verify_signature C (kp_pub (gs_signing s)) (skm_unsigned m) (skm_signature m)) then (Err EVerification, None)
  else match g_get_key C s (km_iter m) with
       | (Ok k, s') => match decrypt_cbc C (Some (gm_iv k)) (gm_cipher k) (skm_body m) with
                       | Ok pt => (Ok pt, Some s')
                       | Err e => (Err e, None)
                       | Panic => (Panic, None)
                       end
       | (Err e, _) => (Err e, None)
       | (Panic, _) => (Panic, None)
       end.

Lemma decrypt_char : forall m r, gw_decrypt C m (Some r) =
  match r with
  | [] => (Err ENoSenderKey, Some [])
  | _ => match by_id (km_id m) r with
         | None => (Err ENoSenderKeyForId, Some r)
         | Some s => match dec_state m s with
                     | (o, Some s') => (o, Some (greload (g_upd_id (km_id m) s' r)))
                     | (o, None) => (o, Some r)
                     end
         end
  end.
Proof.
  intros m r. unfold gw_decrypt, group_decrypt. destruct r as [|x r]; [reflexivity|]. rewrite by_id_spec.
  destruct (by_id (km_id m) (x :: r)) as [s|]; [|reflexivity]. unfold dec_state, decrypt_cbc.
  destruct (negb _); [reflexivity|]. destruct (g_get_key C s (km_iter m)) as [[k|e|] s']; [|reflexivity|reflexivity].
  destruct (decrypt_cbc_full C _ _ _) as [[pt|e|] ct']; reflexivity.
Qed.

Definition enc_state (pt : bytes) (g : rng) (s : gstate) : res skm * option gstate :=
  match g_message_key C (gs_chain s) with
  | Ok k => match encrypt_cbc C (gm_iv k) (gm_cipher k) pt with
            | Ok ct => match new_sender_key_message C (gs_id s) (gm_iter k) ct (kp_priv (gs_signing s)) g with
                       | (Ok m, _) => (Ok m, Some (gset_chain (g_next C (gs_chain s)) s))
                       | (Err e, _) => (Err e, None)
                       | (Panic, _) => (Panic, None)
                       end
            | Err e => (Err e, None)
            | Panic => (Panic, None)
            end
  | Err e => (Err e, None)
  | Panic => (Panic, None)
  end.

Lemma encrypt_char : forall pt g s r, gw_encrypt C pt g (Some (s :: r)) =
  match enc_state pt g s with
  | (o, Some s') => (o, Some (greload (s' :: r)))
  | (o, None) => (o, Some (s :: r))
  end.
Proof.
  intros pt g s r. unfold gw_encrypt, group_encrypt, enc_state. cbn [g_first].
  destruct (g_message_key C (gs_chain s)) as [k|e|]; [|reflexivity|reflexivity].
  destruct (encrypt_cbc C _ _ pt) as [ct|e|]; [|reflexivity|reflexivity].
  destruct (new_sender_key_message C _ _ ct _ g) as [[m|e|] g1]; reflexivity.
Qed.

Lemma create_char : forall g s r, gw_create C g (Some (s :: r)) = (Ok (skd_of_state s), Some (s :: r)).
Proof. reflexivity. Qed.

Lemma dec_state_keeps : forall m s o s', dec_state m s = (o, Some s') -> gs_id s' = gs_id s /\ gs_signing s' = gs_signing s.
Proof.
  intros m s o s' H. unfold dec_state in H. destruct (negb _); [discriminate|].
  destruct (g_get_key C s (km_iter m)) as [[k|e|] s1] eqn:E; [|discriminate|discriminate].
  destruct (decrypt_cbc C _ _ _); try discriminate. apply (f_equal snd) in H. cbn [snd] in H. apply some_eq in H. subst s1. exact (get_key_id C _ _ _ _ E).
Qed.

Lemma enc_state_keeps : forall pt g s o s', enc_state pt g s = (o, Some s') -> gs_id s' = gs_id s /\ gs_signing s' = gs_signing s.
Proof.
  intros pt g s o s' H. unfold enc_state in H. destruct (g_message_key C _); try discriminate. destruct (encrypt_cbc C _ _ pt); try discriminate.
  destruct (new_sender_key_message C _ _ _ _ g) as [[m|e|] g1]; try discriminate.
  apply (f_equal snd) in H. cbn [snd] in H. apply some_eq in H. subst s'. split; reflexivity.
Qed.

Lemma tl_last_2000 : forall (l : list gstate), (length l <= S max_group_keys)%nat -> (if (max_group_keys <? length l)%nat then tl l else l) = last_n max_group_keys l.
Proof.
  intros l H. destruct (Nat.ltb_spec max_group_keys (length l)) as [H1|H1].
  - apply tl_last. lia.
  - symmetry. apply last_n_all. exact H1.
Qed.

Lemma process_char : forall d r, Forall keyed r -> (length r <= max_group_keys)%nat -> gw_process d (Some r) = Some (last_n max_group_keys (r ++ [received d])).
Proof.
  intros d r HK HL. unfold gw_process, group_process, g_add_state. cbn [gcommit fold_left]. f_equal.
  rewrite tl_last_2000 by (rewrite app_length; cbn [length]; lia). rewrite greload_map, last_n_map, map_app.
  f_equal. f_equal. clear HL. induction HK as [|s r Hs _ IH]; [reflexivity|]. cbn [map]. rewrite keyed_same by exact Hs. f_equal. exact IH.
Qed.

Lemma process_none : forall d, gw_process d None = gw_process d (Some []).
Proof. reflexivity. Qed.

Lemma received_keyed : forall d, keyed (received d).
Proof. intros d. unfold keyed, received. cbn [gs_signing kp_priv]. intros H. discriminate H. Qed.

Lemma last_n_forall : forall {A} (P : A -> Prop) n l, Forall P l -> Forall P (last_n n l).
Proof. intros A P n l H. rewrite Forall_forall in *. intros x Hx. apply H. exact (last_n_in _ _ _ Hx). Qed.

(** Stores that calls leave. *)
Definition sane (st : option grecord) : Prop := match st with Some r => Forall keyed r /\ (length r <= max_group_keys)%nat | None => True end.

Lemma call_sane : forall c st, sane st -> sane (snd (gcall_run C c st)).
Proof.
  intros c st HS. destruct c as [pt g|m|d|g]; cbn [gcall_run].
  - destruct st as [[|s r]|]; [exact HS| |exact I]. rewrite encrypt_char. destruct (enc_state pt g s) as [o [s'|]] eqn:E; [|exact HS].
    cbn [snd sane]. split; [apply (greload_stored (s' :: r))|]. rewrite greload_length. exact (proj2 HS).
  - destruct st as [r|]; [|exact I]. rewrite decrypt_char. destruct r as [|x r]; [exact HS|].
    destruct (by_id (km_id m) (x :: r)) as [s|]; [|exact HS]. destruct (dec_state m s) as [o [s'|]]; [|exact HS].
    cbn [snd sane]. split; [apply (greload_stored (g_upd_id (km_id m) s' (x :: r)))|]. rewrite greload_length, upd_id_length. exact (proj2 HS).
  - cbn [snd]. destruct st as [r|]; [|rewrite process_none].
    + rewrite process_char by apply HS. cbn [sane]. split; [|apply last_n_length]. apply last_n_forall, Forall_app. split; [apply HS|]. constructor; [apply received_keyed|constructor].
    + rewrite process_char; [|constructor|apply Nat.le_0_l]. cbn [sane]. split; [|apply last_n_length]. apply last_n_forall. constructor; [apply received_keyed|constructor].
  - assert (HC : forall st, g_is_empty st = true -> sane st -> sane (snd (gw_create C g st))).
    { intros s HE Hs. unfold gw_create, group_create. rewrite HE. destruct (generate_key_pair C g) as [[p|e|] g1]; try exact Hs.
      destruct (generate_registration_id g1) as [id g2]. destruct (generate_sender_key g2) as [key g3]. cbn [g_set_state g_first gcommit fold_left snd sane].
      split; [apply (greload_stored [_])|]. rewrite greload_length. cbn [length]. apply Nat.leb_le. reflexivity. }
    assert (HC2 : sane (snd (gw_create C g st))).
    { destruct st as [[|s r]|]; [exact (HC (Some []) eq_refl HS)|exact HS|exact (HC None eq_refl I)]. }
    clear HC. destruct (gw_create C g st) as [o st']. exact HC2.
Qed.

Lemma play_cons : forall c cs st, gplay C (c :: cs) st =
  (fst (gcall_run C c st) :: fst (gplay C cs (snd (gcall_run C c st))), snd (gplay C cs (snd (gcall_run C c st)))).
Proof. intros c cs st. cbn [gplay]. destruct (gcall_run C c st) as [a st1]. cbn [fst snd]. destruct (gplay C cs st1). reflexivity. Qed.

Lemma play_app : forall a b st, gplay C (a ++ b) st =
  (fst (gplay C a st) ++ fst (gplay C b (snd (gplay C a st))), snd (gplay C b (snd (gplay C a st)))).
Proof.
  induction a as [|c a IH]; intros b st; [cbn [app gplay fst snd]; destruct (gplay C b st); reflexivity|].
  cbn [app]. rewrite !play_cons, IH. reflexivity.
Qed.

Lemma play_sane : forall cs st, sane st -> sane (snd (gplay C cs st)).
Proof.
  induction cs as [|c cs IH]; intros st H; [exact H|]. rewrite play_cons. cbn [snd]. apply IH, call_sane, H.
Qed.

End Calls.

Section More.
Context (C : crypto).

(** * A state whose id occurs earlier in the record is dead weight *)

Inductive shadowed : option grecord -> option grecord -> Prop :=
| Shadowed : forall a x b, In (gs_id x) (map gs_id a) -> shadowed (Some (a ++ x :: b)) (Some (a ++ b)).

Lemma find_app : forall id (a b : grecord), by_id id (a ++ b) = match by_id id a with Some s => Some s | None => by_id id b end.
Proof. unfold by_id. induction a as [|s a IH]; intros b; [reflexivity|]. cbn [app find]. destruct (gs_id s =? id)%N; [reflexivity|apply IH]. Qed.

Lemma by_id_none : forall id (a : grecord), by_id id a = None -> ~ In id (map gs_id a).
Proof.
  unfold by_id. induction a as [|s a IH]; intros H; [intros []|]. cbn [find] in H. destruct (N.eqb_spec (gs_id s) id) as [E|E]; [discriminate|].
  intros [H1|H1]; [exact (E H1)|exact (IH H H1)].
Qed.

Lemma upd_app : forall id s' (a b : grecord), g_upd_id id s' (a ++ b) = match by_id id a with Some _ => g_upd_id id s' a ++ b | None => a ++ g_upd_id id s' b end.
Proof.
  unfold by_id. induction a as [|s a IH]; intros b; [reflexivity|]. cbn [app find g_upd_id]. destruct (gs_id s =? id)%N; [reflexivity|].
  rewrite IH. destruct (find _ a); reflexivity.
Qed.

Lemma upd_ids : forall id s' (r : grecord) s, by_id id r = Some s -> gs_id s' = gs_id s -> map gs_id (g_upd_id id s' r) = map gs_id r.
Proof.
  unfold by_id. induction r as [|x r IH]; intros s H HI; [reflexivity|]. cbn [find g_upd_id map] in *.
  destruct (gs_id x =? id)%N; cbn [map]; [apply some_eq in H; subst s; rewrite HI; reflexivity|]. rewrite (IH _ H HI). reflexivity.
Qed.

Lemma reload_app : forall a b : grecord, greload (a ++ b) = greload a ++ greload b.
Proof. intros a b. rewrite !greload_map. apply map_app. Qed.

Lemma reload_ids : forall a : grecord, map gs_id (greload a) = map gs_id a.
Proof. intros a. rewrite greload_map, map_map. reflexivity. Qed.

Lemma shadowed_reload : forall a x b, In (gs_id x) (map gs_id a) -> shadowed (Some (greload (a ++ x :: b))) (Some (greload (a ++ b))).
Proof.
  intros a x b H. rewrite !reload_app. rewrite (greload_map (x :: b)). cbn [map]. rewrite <- (greload_map b). apply Shadowed. rewrite reload_ids. exact H.
Qed.

Lemma call_shadowed : forall c st1 st2, shadowed st1 st2 -> sane st1 -> (match c, st1 with CProcess _, Some r => length r < max_group_keys | _, _ => True end)%nat ->
  fst (gcall_run C c st1) = fst (gcall_run C c st2) /\ shadowed (snd (gcall_run C c st1)) (snd (gcall_run C c st2)) /\
  (match snd (gcall_run C c st1), st1 with Some r', Some r => length r' = (length r + processes [c])%nat | _, _ => True end).
Proof.
  intros c st1 st2 HS HN HP. destruct HS as [a x b Hx]. destruct a as [|s a]; [destruct Hx|]. destruct c as [pt g|m|d|g]; cbn [gcall_run].
  - cbn [app]. rewrite !encrypt_char. destruct (enc_state C pt g s) as [o [s'|]] eqn:E; cbn [fst snd].
    + split; [reflexivity|]. split.
      * apply (shadowed_reload (s' :: a)). destruct (enc_state_keeps C _ _ _ _ _ E) as [E1 _]. cbn [map]. rewrite E1. exact Hx.
      * rewrite greload_length. cbn [length processes filter]. lia.
    + split; [reflexivity|]. split; [apply (Shadowed (s :: a)); exact Hx|]. cbn [processes filter length]. lia.
  - rewrite !decrypt_char. cbn [app]. rewrite (find_app (km_id m) (s :: a) (x :: b) : by_id (km_id m) (s :: a ++ x :: b) = _), (find_app (km_id m) (s :: a) b : by_id (km_id m) (s :: a ++ b) = _).
    assert (HE : match by_id (km_id m) (s :: a) with Some t => Some t | None => by_id (km_id m) (x :: b) end = match by_id (km_id m) (s :: a) with Some t => Some t | None => by_id (km_id m) b end).
    { destruct (by_id (km_id m) (s :: a)) as [t|] eqn:EB; [reflexivity|]. apply by_id_none in EB. unfold by_id. cbn [find].
      destruct (N.eqb_spec (gs_id x) (km_id m)) as [E|_]; [|reflexivity]. rewrite E in Hx. destruct (EB Hx). }
    rewrite HE. destruct (match by_id (km_id m) (s :: a) with Some t => Some t | None => by_id (km_id m) b end) as [t|] eqn:ET; cbn [fst snd].
    2:{ split; [reflexivity|]. split; [apply (Shadowed (s :: a)); exact Hx|]. cbn [processes filter length]. lia. }
    destruct (dec_state C m t) as [o [s'|]] eqn:E; cbn [fst snd].
    2:{ split; [reflexivity|]. split; [apply (Shadowed (s :: a)); exact Hx|]. cbn [processes filter length]. lia. }
    split; [reflexivity|]. destruct (dec_state_keeps C _ _ _ _ E) as [E1 _].
    split; [|rewrite greload_length, upd_id_length; cbn [processes filter length]; lia].
    rewrite (upd_app (km_id m) s' (s :: a) (x :: b) : g_upd_id (km_id m) s' (s :: a ++ x :: b) = _), (upd_app (km_id m) s' (s :: a) b : g_upd_id (km_id m) s' (s :: a ++ b) = _).
    destruct (by_id (km_id m) (s :: a)) as [t0|] eqn:EB.
    + apply shadowed_reload. rewrite (upd_ids _ _ _ _ EB); [exact Hx|]. apply some_eq in ET. subst t. exact E1.
    + apply by_id_none in EB. assert (EX : g_upd_id (km_id m) s' (x :: b) = x :: g_upd_id (km_id m) s' b).
      { cbn [g_upd_id]. destruct (N.eqb_spec (gs_id x) (km_id m)) as [E2|_]; [|reflexivity]. rewrite E2 in Hx. destruct (EB Hx). }
      rewrite EX. apply shadowed_reload. exact Hx.
  - cbn [fst snd]. assert (HL : (length ((s :: a) ++ x :: b) = S (length ((s :: a) ++ b)))%nat) by (rewrite !app_length; cbn [length]; lia).
    cbn [sane] in HN. destruct HN as [HK _].
    assert (HK2 : Forall keyed ((s :: a) ++ b)). { rewrite Forall_forall in *. intros y Hy. apply HK. apply in_app_iff. apply in_app_iff in Hy. destruct Hy; [left; assumption|right; right; assumption]. }
    rewrite !process_char; try assumption; try lia. rewrite !last_n_all by (rewrite app_length; cbn [length]; lia).
    split; [reflexivity|]. split; [rewrite <- !app_assoc; apply (Shadowed (s :: a) x (b ++ [received d])); exact Hx|].
    rewrite app_length. cbn [length processes filter]. lia.
  - cbn [app]. rewrite !create_char. cbn [fst snd]. split; [reflexivity|]. split; [apply (Shadowed (s :: a)); exact Hx|]. cbn [processes filter length]. lia.
Qed.

Lemma processes_cons : forall c cs, processes (c :: cs) = (processes [c] + processes cs)%nat.
Proof. intros c cs. unfold processes. cbn [filter]. destruct c; reflexivity. Qed.

Lemma play_shadowed : forall cs st1 st2 r, shadowed st1 st2 -> sane st1 -> st1 = Some r -> (length r + processes cs <= max_group_keys)%nat ->
  fst (gplay C cs st1) = fst (gplay C cs st2).
Proof.
  induction cs as [|c cs IH]; intros st1 st2 r HS HN HR HL; [reflexivity|]. rewrite !play_cons. cbn [fst]. rewrite processes_cons in HL. subst st1.
  destruct (call_shadowed c (Some r) st2 HS HN) as (E & S1 & L1).
  { destruct c; try exact I. change (processes [CProcess d]) with 1%nat in HL. lia. }
  rewrite E. f_equal. pose proof (call_sane C c (Some r) HN) as N1.
  destruct (snd (gcall_run C c (Some r))) as [r1|]; [|inversion S1]. eapply IH; [exact S1|exact N1|reflexivity|]. lia.
Qed.

(** Every distribution message processed leaves its id in the record, as long as nothing is dropped. *)
Definition ids (st : option grecord) : list N := match st with Some r => map gs_id r | None => [] end.
Definition size (st : option grecord) : nat := match st with Some r => length r | None => 0 end.

Lemma call_ids : forall c st, sane st -> (size st + processes [c] <= max_group_keys)%nat ->
  (forall i, In i (ids st) -> In i (ids (snd (gcall_run C c st)))) /\ (forall d, c = CProcess d -> In (dm_id d) (ids (snd (gcall_run C c st)))) /\
  (size (snd (gcall_run C c st)) <= Nat.max 1 (size st + processes [c]))%nat.
Proof.
  intros c st HN HL. destruct c as [pt g|m|d|g]; cbn [gcall_run].
  - destruct st as [[|s r]|].
    + split; [intros i []|]. split; [intros d H; discriminate H|]. cbn [size snd length]. apply Nat.le_0_l.
    + rewrite encrypt_char. destruct (enc_state C pt g s) as [o [s'|]] eqn:E; cbn [fst snd].
      * destruct (enc_state_keeps C _ _ _ _ _ E) as [E1 _]. cbn [ids size]. rewrite reload_ids, greload_length. cbn [map]. rewrite E1. split; [intros i H; exact H|]. split; [intros d H; discriminate H|].
        cbn [length]. lia.
      * split; [intros i H; exact H|]. split; [intros d H; discriminate H|]. cbn [size]. lia.
    + split; [intros i []|]. split; [intros d H; discriminate H|]. apply Nat.le_0_l.
  - destruct st as [r|]; [|split; [intros i []|]; split; [intros d H; discriminate H|]; apply Nat.le_0_l]. rewrite decrypt_char. destruct r as [|x r].
    { split; [intros i []|]. split; [intros d H; discriminate H|]. apply Nat.le_0_l. }
    destruct (by_id (km_id m) (x :: r)) as [s|] eqn:EB; cbn [fst snd].
    2:{ split; [intros i H; exact H|]. split; [intros d H; discriminate H|]. cbn [size]. lia. }
    destruct (dec_state C m s) as [o [s'|]] eqn:E; cbn [fst snd].
    2:{ split; [intros i H; exact H|]. split; [intros d H; discriminate H|]. cbn [size]. lia. }
    destruct (dec_state_keeps C _ _ _ _ E) as [E1 _]. cbn [ids size]. rewrite reload_ids, greload_length, upd_id_length, (upd_ids _ _ _ _ EB E1).
    split; [intros i H; exact H|]. split; [intros d H; discriminate H|]. lia.
  - cbn [snd].
    assert (HA : forall r, sane (Some r) -> (length r + 1 <= max_group_keys)%nat -> (forall i, In i (map gs_id r) -> In i (ids (gw_process d (Some r)))) /\
      (forall d0, CProcess d = CProcess d0 -> In (dm_id d0) (ids (gw_process d (Some r)))) /\ (size (gw_process d (Some r)) <= Nat.max 1 (length r + 1))%nat).
    { intros r [HK _] Hr. rewrite process_char; [|exact HK|lia]. rewrite last_n_all by (rewrite app_length; cbn [length]; lia). cbn [ids size].
      rewrite map_app, app_length. cbn [map length]. split; [intros i Hi; apply in_app_iff; left; exact Hi|].
      split; [|lia]. intros d0 H. injection H as <-. apply in_app_iff. right. left. reflexivity. }
    cbn [processes filter length] in *. destruct st as [r|]; [exact (HA r HN HL)|]. cbn [ids size] in *. apply (HA []); [split; [constructor|apply Nat.le_0_l]|exact HL].
  - assert (HE : forall st, g_is_empty st = true -> (size (snd (gw_create C g st)) <= 1)%nat).
    { intros s HE. unfold gw_create, group_create. rewrite HE. destruct (generate_key_pair C g) as [[p|e|] g1]; try (destruct s as [[|? ?]|]; [apply Nat.le_0_l|discriminate HE|apply Nat.le_0_l]).
      destruct (generate_registration_id g1) as [id g2]. destruct (generate_sender_key g2) as [key g3]. cbn [g_set_state g_first gcommit fold_left snd size].
      rewrite greload_length. apply le_n. }
    assert (HG : (forall i, In i (ids st) -> In i (ids (snd (gw_create C g st)))) /\ (size (snd (gw_create C g st)) <= Nat.max 1 (size st))%nat).
    { destruct st as [[|s r]|].
      - split; [intros i []|]. eapply Nat.le_trans; [apply HE; reflexivity|apply Nat.le_max_l].
      - rewrite create_char. cbn [snd]. split; [intros i H; exact H|apply Nat.le_max_r].
      - split; [intros i []|]. eapply Nat.le_trans; [apply HE; reflexivity|apply Nat.le_max_l]. }
    destruct (gw_create C g st) as [o st']. cbn [snd] in *. split; [exact (proj1 HG)|]. split; [intros d H; discriminate H|].
    cbn [processes filter length]. rewrite Nat.add_0_r. exact (proj2 HG).
Qed.

Lemma play_ids : forall cs st, sane st -> (Nat.max 1 (size st) + processes cs <= max_group_keys)%nat ->
  (forall i, In i (ids st) -> In i (ids (snd (gplay C cs st)))) /\ (forall d, In (CProcess d) cs -> In (dm_id d) (ids (snd (gplay C cs st)))) /\
  (size (snd (gplay C cs st)) <= Nat.max 1 (size st) + processes cs)%nat.
Proof.
  induction cs as [|c cs IH]; intros st HN HL.
  { cbn [gplay snd]. split; [intros i H; exact H|]. split; [intros d []|]. lia. }
  rewrite processes_cons in *. destruct (call_ids c st HN) as (A & B & D); [lia|]. rewrite play_cons. cbn [snd].
  destruct (IH _ (call_sane C c st HN)) as (A1 & B1 & D1); [lia|]. split; [intros i Hi; apply A1, A, Hi|]. split; [|lia].
  intros d [H|H]; [apply A1, (B d H)|exact (B1 d H)].
Qed.
End More.

(** * When calls panic *)

Section Panics.
Context (C : crypto) (L : crypto_laws C).

(** What a stored state looks like: at most 2000 kept keys, of the right sizes, and a private key. *)
Definition sound (s : gstate) : Prop :=
  keyed s /\ small s /\ Forall (fun k => length (gm_iv k) = 16%nat /\ length (gm_cipher k) = 32%nat) (gs_keys s).

Lemma add_key_sized : forall (P : gmsg_key -> Prop) k s, Forall P (gs_keys s) -> P k -> Forall P (gs_keys (g_add_key k s)).
Proof.
  intros P k s HS HK. unfold g_add_key. cbn [gset_keys gs_keys]. assert (H : Forall P (gs_keys s ++ [k])) by (apply Forall_app; split; [exact HS|constructor; [exact HK|constructor]]).
  destruct (max_group_keys <? _)%nat; [|exact H]. destruct (gs_keys s ++ [k]) as [|x l]; [constructor|]. inversion H. assumption.
Qed.

Lemma skip_sized : forall f n ck s o s', g_skip C f n ck s = (o, s') ->
  Forall (fun k => length (gm_iv k) = 16%nat /\ length (gm_cipher k) = 32%nat) (gs_keys s) ->
  Forall (fun k => length (gm_iv k) = 16%nat /\ length (gm_cipher k) = 32%nat) (gs_keys s').
Proof.
  induction f as [|f IH]; intros n ck s o s' H HS; cbn [g_skip] in H; [apply (f_equal snd) in H; cbn [snd] in H; subst s'; exact HS|].
  destruct (gc_iter ck <? n)%N; [|apply (f_equal snd) in H; cbn [snd] in H; subst s'; exact HS].
  rewrite (message_key_ok C L) in H. eapply IH; [exact H|]. apply add_key_sized; [exact HS|apply (gmk_sizes C L)].
Qed.

Lemma get_key_sized : forall s n o s', g_get_key C s n = (o, s') ->
  Forall (fun k => length (gm_iv k) = 16%nat /\ length (gm_cipher k) = 32%nat) (gs_keys s) ->
  Forall (fun k => length (gm_iv k) = 16%nat /\ length (gm_cipher k) = 32%nat) (gs_keys s').
Proof.
  intros s n o s' H HS. unfold g_get_key in H. destruct (n <? gc_iter (gs_chain s))%N.
  - destruct (g_has_key n s) eqn:EH; [|apply (f_equal snd) in H; cbn [snd] in H; subst s'; exact HS]. apply has_key_in in EH.
    destruct (remove_some _ _ EH) as (a & k & b & E1 & _ & _ & E4). rewrite E4 in H. apply (f_equal snd) in H. cbn [snd] in H. subst s'. cbn [gset_keys gs_keys].
    rewrite E1 in HS. apply Forall_app in HS. destruct HS as [H1 H2]. inversion H2. apply Forall_app. split; assumption.
  - destruct (group_max_future <? _)%N; [apply (f_equal snd) in H; cbn [snd] in H; subst s'; exact HS|].
    destruct (g_skip C _ n (gs_chain s) s) as [[ck| |] s1] eqn:E; apply skip_sized in E; try exact HS; apply (f_equal snd) in H; cbn [snd] in H; subst s'; exact E.
Qed.

Definition all_sound (st : option grecord) : Prop := match st with Some r => Forall sound r | None => True end.

Lemma sound_reload : forall r, Forall (fun s => small s /\ Forall (fun k => length (gm_iv k) = 16%nat /\ length (gm_cipher k) = 32%nat) (gs_keys s)) r -> all_sound (Some (greload r)).
Proof.
  intros r H. cbn [all_sound]. rewrite greload_map. apply Forall_forall. intros s Hs. apply in_map_iff in Hs. destruct Hs as (t & <- & Ht).
  rewrite Forall_forall in H. destruct (H t Ht) as [H1 H2]. split; [apply zero_private_keyed|]. split; [exact H1|exact H2].
Qed.

Lemma sound_weak : forall r, Forall sound r -> Forall (fun s => small s /\ Forall (fun k => length (gm_iv k) = 16%nat /\ length (gm_cipher k) = 32%nat) (gs_keys s)) r.
Proof. intros r H. eapply Forall_impl; [|exact H]. intros s Hs. exact (proj2 Hs). Qed.

Lemma received_sound : forall d, sound (received d).
Proof. intros d. split; [apply received_keyed|]. split; [apply Nat.le_0_l|constructor]. Qed.

Lemma call_sound : forall c st, sane st -> all_sound st -> all_sound (snd (gcall_run C c st)).
Proof.
  intros c st HN HS. destruct c as [pt g|m|d|g]; cbn [gcall_run].
  - destruct st as [[|s r]|]; [exact HS| |exact I]. rewrite encrypt_char. destruct (enc_state C pt g s) as [o [s'|]] eqn:E; [|exact HS].
    cbn [snd]. apply (sound_reload (s' :: r)). unfold enc_state in E. destruct (g_message_key C _); try discriminate. destruct (encrypt_cbc C _ _ pt); try discriminate.
    destruct (new_sender_key_message C _ _ _ _ g) as [[m|e|] g1]; try discriminate. apply (f_equal snd) in E. cbn [snd] in E. apply some_eq in E. subst s'.
    apply sound_weak in HS. inversion HS. constructor; assumption.
  - destruct st as [r|]; [|exact I]. rewrite decrypt_char. destruct r as [|x r]; [exact HS|].
    destruct (by_id (km_id m) (x :: r)) as [s|] eqn:EB; [|exact HS]. destruct (dec_state C m s) as [o [s'|]] eqn:E; [|exact HS].
    cbn [snd]. apply sound_reload. apply by_id_in in EB. destruct EB as [HI _]. cbn [all_sound] in HS.
    assert (Hs : sound s) by (rewrite Forall_forall in HS; exact (HS s HI)). apply upd_id_forall; [apply sound_weak; exact HS|].
    unfold dec_state in E. destruct (negb _); [discriminate|]. destruct (g_get_key C s (km_iter m)) as [[k|e|] s1] eqn:EG; try discriminate.
    destruct (decrypt_cbc C _ _ _); try discriminate. apply (f_equal snd) in E. cbn [snd] in E. apply some_eq in E. subst s1. destruct Hs as (_ & H2 & H3).
    split; [exact (get_key_small C _ _ _ _ EG H2)|exact (get_key_sized _ _ _ _ EG H3)].
  - cbn [snd]. assert (HA : forall r, sane (Some r) -> Forall sound r -> all_sound (gw_process d (Some r))).
    { intros r [H1 H2] H3. rewrite process_char by assumption. cbn [all_sound]. apply last_n_forall, Forall_app. split; [exact H3|]. constructor; [apply received_sound|constructor]. }
    destruct st as [r|]; [exact (HA r HN HS)|]. apply (HA []); [split; [constructor|apply Nat.le_0_l]|constructor].
  - assert (HC : forall st, g_is_empty st = true -> all_sound st -> all_sound (snd (gw_create C g st))).
    { intros s HE Hs. unfold gw_create, group_create. rewrite HE. destruct (generate_key_pair C g) as [[p|e|] g1]; try exact Hs.
      destruct (generate_registration_id g1) as [id g2]. destruct (generate_sender_key g2) as [key g3]. cbn [g_set_state g_first gcommit fold_left snd].
      apply (sound_reload [_]). constructor; [|constructor]. split; [apply Nat.le_0_l|constructor]. }
    assert (HC2 : all_sound (snd (gw_create C g st))).
    { destruct st as [[|s r]|]; [exact (HC (Some []) eq_refl HS)|exact HS|exact (HC None eq_refl I)]. }
    clear HC. destruct (gw_create C g st) as [o st']. exact HC2.
Qed.

Lemma play_sound : forall cs st, sane st -> all_sound st -> all_sound (snd (gplay C cs st)).
Proof.
  induction cs as [|c cs IH]; intros st HN HS; [exact HS|]. rewrite play_cons. cbn [snd]. apply IH; [apply call_sane; exact HN|apply call_sound; assumption].
Qed.

Lemma encrypt_panic : forall pt g r, Forall sound r -> fst (gw_encrypt C pt g (Some r)) <> Panic.
Proof.
  intros pt g [|s r] HS; [intros H; discriminate H|]. rewrite encrypt_char. unfold enc_state. rewrite (message_key_ok C L).
  destruct (gmk_sizes C L (gs_chain s)) as [Z1 Z2].
  assert (HK : aes_key_ok (gm_cipher (gmk C (gs_chain s))) = true) by (unfold aes_key_ok; rewrite Z2; reflexivity).
  destruct (cbc_roundtrip_given C L (gm_iv (gmk C (gs_chain s))) (gm_cipher (gmk C (gs_chain s))) pt HK Z1) as (ct & E1 & _). rewrite E1.
  inversion HS as [|y l [H1 _]]; subst. unfold new_sender_key_message. destruct (kp_priv (gs_signing s)) as [k|] eqn:EK; [|destruct (H1 EK)].
  destruct (calculate_signature C k _ g) as [sg g1]. cbn [fst]. intros HX; discriminate HX.
Qed.

Lemma get_key_accept : forall s n, sound s -> (n < u32_modulus)%N ->
  match g_get_key C s n with
  | (Ok k, _) => gaccept (view_of s) n <> None /\ length (gm_iv k) = 16%nat /\ length (gm_cipher k) = 32%nat
  | (Err _, _) => gaccept (view_of s) n = None
  | (Panic, _) => False
  end.
Proof.
  intros s n (_ & HS & HF) Hn. unfold gaccept, view_of. cbn [gv_next gv_kept]. destruct (N.ltb_spec n (gc_iter (gs_chain s))) as [H|H].
  - destruct (get_key_old C s n H) as [[H1 ->]|(a & k & b & E1 & E2 & _ & ->)].
    + destruct (existsb (N.eqb n) (map gm_iter (gs_keys s))) eqn:E; [|reflexivity]. apply existsb_exists in E. destruct E as (x & Hx & E). apply N.eqb_eq in E. subst x. destruct (H1 Hx).
    + assert (E : existsb (N.eqb n) (map gm_iter (gs_keys s)) = true).
      { apply existsb_exists. exists n. split; [|apply N.eqb_refl]. rewrite E1, map_app. apply in_app_iff. right. left. exact E2. }
      rewrite E. split; [intros X; discriminate X|]. rewrite E1 in HF. apply Forall_app in HF. destruct HF as [_ HF]. inversion HF. assumption.
  - destruct (N.ltb_spec 2000 (n - gc_iter (gs_chain s))) as [H1|H1].
    + rewrite (get_key_far C s n Hn) by lia. reflexivity.
    + rewrite (get_key_new C L s n H Hn HS H1). split; [intros X; discriminate X|]. apply (gmk_sizes C L).
Qed.

Lemma decrypt_panic : forall m r, Forall sound r -> (km_iter m < u32_modulus)%N ->
  (fst (gw_decrypt C m (Some r)) = Panic <->
   exists s, by_id (km_id m) r = Some s /\ verify_signature C (kp_pub (gs_signing s)) (skm_unsigned m) (skm_signature m) = true /\
     gaccept (view_of s) (km_iter m) <> None /\ (16 <= length (skm_body m))%nat /\ (length (skm_body m) mod 16 <> 0)%nat).
Proof.
  intros m r HS Hn. rewrite decrypt_char. destruct r as [|x r].
  { split; [intros H; discriminate H|intros (s & H & _); discriminate H]. }
  destruct (by_id (km_id m) (x :: r)) as [s|] eqn:EB.
  2:{ split; [intros H; discriminate H|intros (s & H & _); discriminate H]. }
  assert (Hs : sound s). { apply by_id_in in EB. destruct EB as [HI _]. rewrite Forall_forall in HS. exact (HS s HI). }
  assert (HE : forall (d : res bytes * option gstate) (f : gstate -> option grecord) (z : option grecord),
    fst (match d with (o, Some s') => (o, f s') | (o, None) => (o, z) end) = fst d) by (intros [o [s'|]] f z; reflexivity).
  match goal with |- fst ?t = _ <-> _ => assert (E : fst t = fst (dec_state C m s)) by exact (HE (dec_state C m s) (fun s' => Some (greload (g_upd_id (km_id m) s' (x :: r)))) (Some (x :: r))) end.
  rewrite E. clear E HE.
  transitivity (verify_signature C (kp_pub (gs_signing s)) (skm_unsigned m) (skm_signature m) = true /\
     gaccept (view_of s) (km_iter m) <> None /\ (16 <= length (skm_body m))%nat /\ (length (skm_body m) mod 16 <> 0)%nat).
  2:{ split; [intros H; exists s; split; [reflexivity|exact H]|intros (t & E & H); apply some_eq in E; subst t; exact H]. }
  unfold dec_state. destruct (verify_signature C _ _ _); cbn [negb].
  2:{ split; [intros H; discriminate H|intros (H & _); discriminate H]. }
  pose proof (get_key_accept s (km_iter m) Hs Hn) as HG. destruct (g_get_key C s (km_iter m)) as [[k|e|] s1].
  - destruct HG as (H1 & H2 & H3). assert (HP := decrypt_cbc_panics C L (Some (gm_iv k)) (gm_cipher k) (skm_body m)).
    assert (HK : aes_key_ok (gm_cipher k) = true) by (unfold aes_key_ok; rewrite H3; reflexivity).
    destruct (decrypt_cbc C (Some (gm_iv k)) (gm_cipher k) (skm_body m)) as [pt|e|]; cbn [fst].
    + split; [intros H; discriminate H|]. intros (_ & _ & H4 & H5). assert (H : Ok pt = Panic) by (apply HP; split; [exact HK|split; [exact H4|right; exact H5]]). discriminate H.
    + split; [intros H; discriminate H|]. intros (_ & _ & H4 & H5). assert (H : @Err bytes e = Panic) by (apply HP; split; [exact HK|split; [exact H4|right; exact H5]]). discriminate H.
    + split; [intros _|reflexivity]. destruct (proj1 HP eq_refl) as (_ & H4 & [H5|H5]); [destruct (H5 H2)|]. split; [reflexivity|]. split; [exact H1|]. split; assumption.
  - cbn [fst]. split; [intros H; discriminate H|]. intros (_ & H & _). destruct (H HG).
  - destruct HG.
Qed.
End Panics.

(** * Helpers for PropertiesGroupStore.v *)

Lemma call_created : forall C c st d, sane st -> fst (gcall_run C c st) = ADistribution (Ok d) -> In (dm_id d) (ids (snd (gcall_run C c st))).
Proof.
  intros C c st d HN H. destruct c as [pt g|m|d0|g]; cbn [gcall_run] in *.
  - destruct (gw_encrypt C pt g st) as [o st']. discriminate H.
  - destruct (gw_decrypt C m st) as [o st']. discriminate H.
  - discriminate H.
  - assert (HE : forall st, g_is_empty st = true -> fst (gw_create C g st) = Ok d -> In (dm_id d) (ids (snd (gw_create C g st)))).
    { intros s HE. unfold gw_create, group_create. rewrite HE. destruct (generate_key_pair C g) as [[p|e|] g1]; try (intros X; discriminate X).
      destruct (generate_registration_id g1) as [id g2]. destruct (generate_sender_key g2) as [key g3]. cbn [g_set_state g_first gcommit fold_left fst snd ids].
      intros X. rewrite reload_ids. cbn [map]. left. apply (f_equal (fun z => match z with Ok q => dm_id q | _ => 0%N end)) in X. exact X. }
    assert (HG : fst (gw_create C g st) = Ok d -> In (dm_id d) (ids (snd (gw_create C g st)))).
    { destruct st as [[|s r]|]; [exact (HE (Some []) eq_refl)| |exact (HE None eq_refl)]. rewrite create_char. cbn [fst snd ids]. intros X. left.
      apply (f_equal (fun z => match z with Ok q => dm_id q | _ => 0%N end)) in X. exact X. }
    clear HE. destruct (gw_create C g st) as [o st']. cbn [fst snd] in *. apply HG.
    apply (f_equal (fun z => match z with ADistribution q => q | _ => Panic end)) in H. exact H.
Qed.

Lemma play_created : forall C cs st, sane st -> (Nat.max 1 (size st) + processes cs <= max_group_keys)%nat ->
  forall d, In (ADistribution (Ok d)) (fst (gplay C cs st)) -> In (dm_id d) (ids (snd (gplay C cs st))).
Proof.
  induction cs as [|c cs IH]; intros st HN HL d HD; [destruct HD|]. rewrite processes_cons in HL. rewrite play_cons in *. cbn [fst snd] in *.
  destruct (call_ids C c st HN) as (_ & _ & D); [lia|]. pose proof (call_sane C c st HN) as HN1.
  destruct HD as [HD|HD].
  - destruct (play_ids C cs _ HN1) as (A & _ & _); [lia|]. apply A. apply call_created; assumption.
  - apply IH; [exact HN1|lia|exact HD].
Qed.

Lemma last_n_step : forall {A} n (a b : list A), last_n n (last_n n a ++ b) = last_n n (a ++ b).
Proof. intros. apply last_n_app. Qed.

Lemma processed : forall C st ds, sane st -> ds <> [] ->
  snd (gplay C (map CProcess ds) st) = Some (last_n (N.to_nat 2000) (match st with Some r => r | None => [] end ++ map received ds)).
Proof.
  intros C st ds HN HD.
  assert (HE : forall (ds : list skd) r, sane (Some r) -> snd (gplay C (map CProcess ds) (Some r)) = Some (last_n max_group_keys (r ++ map received ds))).
  { clear. induction ds as [|d ds IH]; intros r HN.
    - cbn [map gplay snd]. rewrite app_nil_r, last_n_all by exact (proj2 HN). reflexivity.
    - pose proof (call_sane C (CProcess d) (Some r) HN) as H1. cbn [map]. rewrite play_cons. cbn [gcall_run snd] in *.
      rewrite process_char in * by apply HN. rewrite IH by exact H1. rewrite last_n_app, <- app_assoc. reflexivity. }
  destruct st as [r|]; [exact (HE ds r HN)|]. destruct ds as [|d ds]; [destruct (HD eq_refl)|]. cbn [map]. rewrite play_cons. cbn [gcall_run snd].
  rewrite process_none. assert (H0 : sane (Some [])) by (split; [constructor|apply Nat.le_0_l]). specialize (HE (d :: ds) [] H0). cbn [map] in HE. rewrite play_cons in HE. exact HE.
Qed.

Lemma map_repeat' : forall {A B} (f : A -> B) x n, map f (repeat x n) = repeat (f x) n.
Proof. induction n as [|n IH]; [reflexivity|]. cbn [repeat map]. rewrite IH. reflexivity. Qed.

Lemma skipn_repeat : forall {A} (x : A) k n, skipn k (repeat x n) = repeat x (n - k).
Proof. induction k as [|k IH]; intros n; [cbn [skipn]; rewrite Nat.sub_0_r; reflexivity|]. destruct n as [|n]; [reflexivity|]. cbn [repeat skipn]. apply IH. Qed.

Lemma by_id_head : forall id s r, gs_id s = id -> by_id id (s :: r) = Some s.
Proof. intros id s r H. unfold by_id. cbn [find]. rewrite (proj2 (N.eqb_eq _ _) H). reflexivity. Qed.

Lemma by_id_split : forall id (r : grecord) s, by_id id r = Some s -> exists a b, r = a ++ s :: b /\ forall t, In t a -> gs_id t <> id.
Proof.
  unfold by_id. induction r as [|x r IH]; intros s H; [discriminate H|]. cbn [find] in H. destruct (N.eqb_spec (gs_id x) id) as [E|E].
  - apply some_eq in H. subst x. exists [], r. split; [reflexivity|intros t []].
  - destruct (IH s H) as (a & b & -> & Ha). exists (x :: a), b. split; [reflexivity|]. intros t [<-|Ht]; [exact E|exact (Ha t Ht)].
Qed.
