(** JsonFateProofs.v: the message parsers of JsonMessages.v do with every text exactly what JsonFateSpec.v says. *)
From Verif Require Import Base Ecc Messages Json JsonSpec JsonValueSpec JsonRecords JsonMessages MembersSpec JsonValueProofs JsonRecordProofs JsonProofs3 LoadProofs WireGrammarSpec WireFateProofs JsonFateSpec.
From Coq Require Import NArith ZArith List Lia Bool.
Import ListNotations.
Open Scope list_scope.

Lemma exact_fate : forall A (parse : bytes -> res A) (fate : bytes -> res A -> Prop), (forall l o, fate l o -> parse l = o) -> (forall l, exists o, fate l o) -> forall l o, fate l o <-> parse l = o.
Proof. intros A parse fate S T l o. split; [apply S|]. intros <-. destruct (T l) as (o & H). rewrite (S _ _ H). exact H. Qed.
Lemma key_fate_total : forall k, exists o, key_fate k o.
Proof. intros k. exists (decode_point k). apply key_fate_spec. reflexivity. Qed.
Lemma key_decode : forall k o, key_fate k o -> decode_point k = o.
Proof. intros k o. apply key_fate_spec. Qed.

Lemma sig_low : forall s, (sg_version s <= 1)%Z -> sig_from_struct s = Err ELegacy.
Proof. intros s H. unfold sig_from_struct, unsupported_version. rewrite (proj2 (Z.leb_le _ _) H). reflexivity. Qed.
Lemma sig_high : forall s, (3 < sg_version s)%Z -> sig_from_struct s = Err EUnknownVersion.
Proof. intros s H. unfold sig_from_struct, unsupported_version, current_version. rewrite (proj2 (Z.leb_gt _ _)) by lia. rewrite Z.gtb_ltb, (proj2 (Z.ltb_lt _ _) H). reflexivity. Qed.
Lemma sig_mid : forall s, (2 <= sg_version s <= 3)%Z -> sig_from_struct s = match sg_ct s, sg_ratchet s with Some _, Some rk => k <- decode_point rk ;; Ok {| sm_struct := s; sm_ratchet := k |} | _, _ => Err EIncomplete end.
Proof. intros s H. unfold sig_from_struct, unsupported_version, current_version. rewrite (proj2 (Z.leb_gt _ _)) by lia. rewrite Z.gtb_ltb, (proj2 (Z.ltb_ge _ _)) by lia. reflexivity. Qed.
Lemma z_range : forall v : Z, (v <= 1 \/ 3 < v \/ 2 <= v <= 3)%Z.
Proof. lia. Qed.
Lemma n_range : forall v : N, (v <= 1 \/ 3 < v \/ 2 <= v <= 3)%N.
Proof. lia. Qed.

Lemma signal_text_sound : forall l o, signal_text_fate l o -> sig_from_json l = o.
Proof.
  intros l o H. unfold sig_from_json, sig_of_json.
  destruct H as [l N|l rk c p ct v mac R V|l rk c p ct v mac R V|l rk c p ct v mac R V I|l k c p ct v mac e R V K|l k c p ct v mac R V K|l k c p ct v mac key R V K];
    [rewrite (unread_unmarshal sig_ty _ N); reflexivity| | | | | |]; destruct (read_unmarshal sig_ty _ _ R) as (E & _); rewrite E; cbn [bind].
  - rewrite sig_low by exact V. reflexivity.
  - rewrite sig_high by exact V. reflexivity.
  - rewrite sig_mid by exact V. cbn [sg_ct sg_ratchet]. destruct I as [-> | ->]; [destruct ct; reflexivity|reflexivity].
  - rewrite sig_mid by exact V. cbn [sg_ct sg_ratchet]. rewrite (key_decode _ _ K). reflexivity.
  - rewrite sig_mid by exact V. cbn [sg_ct sg_ratchet]. rewrite (key_decode _ _ K). reflexivity.
  - rewrite sig_mid by exact V. cbn [sg_ct sg_ratchet]. rewrite (key_decode _ _ K). reflexivity.
Qed.
Lemma signal_text_total : forall l, exists o, signal_text_fate l o.
Proof.
  intros l. destruct (unmarshal_cases sig_ty l) as [(vs & R & _ & T)|(N & _)]; [|eexists; apply ST_unreadable; exact N]. unfold sig_ty in T. typed_list T. typed.
  match goal with R : structure_read _ _ [VBytes ?a; VU32 ?c; VU32 ?p; VBytes ?d; VInt ?v; VBytes ?m] |- _ => rename a into rk, d into ct, v into ver end.
  destruct (z_range ver) as [V|[V|V]]; [eexists; eapply ST_legacy; eassumption|eexists; eapply ST_newer; eassumption|].
  destruct rk as [k|]; [|eexists; eapply ST_incomplete; [eassumption|exact V|left; reflexivity]]. destruct ct as [ct|]; [|eexists; eapply ST_incomplete; [eassumption|exact V|right; reflexivity]].
  destruct (key_fate_total k) as ([key|e|] & K); eexists; [eapply ST_read|eapply ST_bad_key|eapply ST_crash]; eassumption.
Qed.
Lemma signal_text_exact : forall l o, signal_text_fate l o <-> sig_from_json l = o.
Proof. exact (exact_fate _ _ _ signal_text_sound signal_text_total). Qed.

Lemma prekey_id_sound : forall v o, prekey_id_member v o -> opt_u32_of v = o.
Proof. intros v o []; reflexivity. Qed.
Lemma prekey_id_total : forall v, has_ty (VPtr v) (TPtr opt_u32_ty) -> exists o, prekey_id_member v o.
Proof. intros [vs|] H; [|exists None; constructor]. apply (proj1 (has_ptr _ _)) in H. unfold opt_u32_ty in H. typed_list H. typed. eexists. constructor. Qed.

Lemma pk_low : forall s, (pk_version s <= 1)%Z -> pk_from_struct_json s = Err ELegacy.
Proof. intros s H. unfold pk_from_struct_json, unsupported_version. rewrite (proj2 (Z.leb_le _ _) H). reflexivity. Qed.
Lemma pk_high : forall s, (3 < pk_version s)%Z -> pk_from_struct_json s = Err EUnknownVersion.
Proof. intros s H. unfold pk_from_struct_json, unsupported_version, current_version. rewrite (proj2 (Z.leb_gt _ _)) by lia. rewrite Z.gtb_ltb, (proj2 (Z.ltb_lt _ _) H). reflexivity. Qed.
Lemma pk_mid : forall s, (2 <= pk_version s <= 3)%Z -> pk_from_struct_json s = match pk_base s, pk_identity s, pk_message s with
  | Some b, Some i, Some m => base <- decode_point b ;; ident <- decode_point i ;; msg <- sig_from_json m ;; Ok {| pm_struct := s; pm_base := base; pm_identity := ident; pm_message := msg |}
  | _, _, _ => Err EIncomplete end.
Proof. intros s H. unfold pk_from_struct_json, unsupported_version, current_version. rewrite (proj2 (Z.leb_gt _ _)) by lia. rewrite Z.gtb_ltb, (proj2 (Z.ltb_ge _ _)) by lia. reflexivity. Qed.

Lemma prekey_text_sound : forall l o, prekey_text_fate l o -> pk_from_json l = o.
Proof.
  intros l o H. unfold pk_from_json, pk_of_json.
  destruct H as [l N|l reg id sid b i m v R V|l reg id sid b i m v R V|l reg id sid b i m v R V I|l reg id sid b i m v e R V B|l reg id sid b i m v R V B|l reg id sid b i m v base e R V B I|
    l reg id sid b i m v base R V B I|l reg id sid b i m v base ident e R V B I M|l reg id sid b i m v base ident R V B I M|l reg id sid b i m v base ident inner o R V B I M O];
    [rewrite (unread_unmarshal pk_ty _ N); reflexivity| | | | | | | | | |]; destruct (read_unmarshal pk_ty _ _ R) as (E & _); rewrite E; cbn [bind].
  - rewrite pk_low by exact V. reflexivity.
  - rewrite pk_high by exact V. reflexivity.
  - rewrite pk_mid by exact V. cbn [pk_base pk_identity pk_message]. destruct I as [-> |[-> | ->]]; [reflexivity|destruct b; reflexivity|destruct b; [destruct i|]; reflexivity].
  - rewrite pk_mid by exact V. cbn [pk_base pk_identity pk_message]. rewrite (key_decode _ _ B). reflexivity.
  - rewrite pk_mid by exact V. cbn [pk_base pk_identity pk_message]. rewrite (key_decode _ _ B). reflexivity.
  - rewrite pk_mid by exact V. cbn [pk_base pk_identity pk_message]. rewrite (key_decode _ _ B). cbn [bind]. rewrite (key_decode _ _ I). reflexivity.
  - rewrite pk_mid by exact V. cbn [pk_base pk_identity pk_message]. rewrite (key_decode _ _ B). cbn [bind]. rewrite (key_decode _ _ I). reflexivity.
  - rewrite pk_mid by exact V. cbn [pk_base pk_identity pk_message]. rewrite (key_decode _ _ B). cbn [bind]. rewrite (key_decode _ _ I). cbn [bind]. rewrite (signal_text_sound _ _ M). reflexivity.
  - rewrite pk_mid by exact V. cbn [pk_base pk_identity pk_message]. rewrite (key_decode _ _ B). cbn [bind]. rewrite (key_decode _ _ I). cbn [bind]. rewrite (signal_text_sound _ _ M). reflexivity.
  - rewrite pk_mid by exact V. cbn [pk_base pk_identity pk_message]. rewrite (key_decode _ _ B). cbn [bind]. rewrite (key_decode _ _ I). cbn [bind]. rewrite (signal_text_sound _ _ M). cbn [bind]. rewrite (prekey_id_sound _ _ O). reflexivity.
Qed.
Lemma prekey_text_total : forall l, exists o, prekey_text_fate l o.
Proof.
  intros l. destruct (unmarshal_cases pk_ty l) as [(vs & R & _ & T)|(N & _)]; [|eexists; apply PT_unreadable; exact N]. unfold pk_ty in T. typed_list T. rename T1 into TI. typed.
  match goal with R : structure_read _ _ [VU32 ?a; VPtr ?id; VU32 ?c; VBytes ?x; VBytes ?y; VBytes ?z; VInt ?v] |- _ => rename x into b, y into i, z into m, v into ver end.
  destruct (prekey_id_total _ TI) as (o & O). destruct (z_range ver) as [V|[V|V]]; [eexists; eapply PT_legacy; eassumption|eexists; eapply PT_newer; eassumption|].
  destruct b as [b|]; [|eexists; eapply PT_incomplete; [eassumption|exact V|left; reflexivity]]. destruct i as [i|]; [|eexists; eapply PT_incomplete; [eassumption|exact V|right; left; reflexivity]].
  destruct m as [m|]; [|eexists; eapply PT_incomplete; [eassumption|exact V|right; right; reflexivity]].
  destruct (key_fate_total b) as ([kb|e|] & B); [|eexists; eapply PT_bad_base; eassumption|eexists; eapply PT_base_crash; eassumption].
  destruct (key_fate_total i) as ([ki|e|] & I); [|eexists; eapply PT_bad_identity; eassumption|eexists; eapply PT_identity_crash; eassumption].
  destruct (signal_text_total m) as ([inner|e|] & M); eexists; [eapply PT_read|eapply PT_bad_inner|eapply PT_inner_crash]; eassumption.
Qed.
Lemma prekey_text_exact : forall l o, prekey_text_fate l o <-> pk_from_json l = o.
Proof. exact (exact_fate _ _ _ prekey_text_sound prekey_text_total). Qed.

Lemma skm_low : forall s, (km_version s <= 1)%N -> skm_from_struct s = Err ELegacy.
Proof. intros s H. unfold skm_from_struct. rewrite (proj2 (N.leb_le _ _) H). reflexivity. Qed.
Lemma skm_high : forall s, (3 < km_version s)%N -> skm_from_struct s = Err EUnknownVersion.
Proof. intros s H. unfold skm_from_struct. rewrite (proj2 (N.leb_gt _ _)) by lia. rewrite (proj2 (N.ltb_lt _ _) H). reflexivity. Qed.
Lemma skm_mid : forall s, (2 <= km_version s <= 3)%N -> skm_from_struct s = match km_ct s with Some _ => Ok s | None => Err EIncomplete end.
Proof. intros s H. unfold skm_from_struct. rewrite (proj2 (N.leb_gt _ _)) by lia. rewrite (proj2 (N.ltb_ge _ _)) by lia. reflexivity. Qed.
Lemma group_text_sound : forall l o, group_text_fate l o -> skm_from_json l = o.
Proof.
  intros l o H. unfold skm_from_json, skm_of_json.
  destruct H as [l N|l id it ct v sig R V|l id it ct v sig R V|l id it v sig R V|l id it ct v sig R V];
    [rewrite (unread_unmarshal skm_ty _ N); reflexivity| | | |]; destruct (read_unmarshal skm_ty _ _ R) as (E & _); rewrite E; cbn [bind].
  - rewrite skm_low by exact V. reflexivity.
  - rewrite skm_high by exact V. reflexivity.
  - rewrite skm_mid by exact V. reflexivity.
  - rewrite skm_mid by exact V. reflexivity.
Qed.
Lemma group_text_total : forall l, exists o, group_text_fate l o.
Proof.
  intros l. destruct (unmarshal_cases skm_ty l) as [(vs & R & _ & T)|(N & _)]; [|eexists; apply GT_unreadable; exact N]. unfold skm_ty in T. typed_list T. typed.
  match goal with R : structure_read _ _ [VU32 ?a; VU32 ?c; VBytes ?x; VU32 ?v; VBytes ?z] |- _ => rename x into ct, v into ver end.
  destruct (n_range ver) as [V|[V|V]]; [eexists; eapply GT_legacy; eassumption|eexists; eapply GT_newer; eassumption|].
  destruct ct as [ct|]; eexists; [eapply GT_read|eapply GT_incomplete]; eassumption.
Qed.
Lemma group_text_exact : forall l o, group_text_fate l o <-> skm_from_json l = o.
Proof. exact (exact_fate _ _ _ group_text_sound group_text_total). Qed.

Lemma skd_low : forall s, (ds_version s <= 1)%N -> skd_from_struct s = Err ELegacy.
Proof. intros s H. unfold skd_from_struct. rewrite (proj2 (N.leb_le _ _) H). reflexivity. Qed.
Lemma skd_high : forall s, (3 < ds_version s)%N -> skd_from_struct s = Err EUnknownVersion.
Proof. intros s H. unfold skd_from_struct. rewrite (proj2 (N.leb_gt _ _)) by lia. rewrite (proj2 (N.ltb_lt _ _) H). reflexivity. Qed.
Lemma skd_mid : forall s, (2 <= ds_version s <= 3)%N -> skd_from_struct s = match ds_signing s, ds_chain s with
  | Some k, Some _ => sk <- decode_point k ;; Ok {| dm_id := ds_id s; dm_iter := ds_iter s; dm_chain := ds_chain s; dm_version := ds_version s; dm_sigkey := sk |} | _, _ => Err EIncomplete end.
Proof. intros s H. unfold skd_from_struct. rewrite (proj2 (N.leb_gt _ _)) by lia. rewrite (proj2 (N.ltb_ge _ _)) by lia. reflexivity. Qed.
Lemma distribution_text_sound : forall l o, distribution_text_fate l o -> skd_from_json l = o.
Proof.
  intros l o H. unfold skd_from_json, skd_of_json.
  destruct H as [l N|l id it ck k v R V|l id it ck k v R V|l id it ck k v R V I|l id it ck k v e R V K|l id it ck k v R V K|l id it ck k v key R V K];
    [rewrite (unread_unmarshal skd_ty _ N); reflexivity| | | | | |]; destruct (read_unmarshal skd_ty _ _ R) as (E & _); rewrite E; cbn [bind].
  - rewrite skd_low by exact V. reflexivity.
  - rewrite skd_high by exact V. reflexivity.
  - rewrite skd_mid by exact V. cbn [ds_signing ds_chain]. destruct I as [-> | ->]; [destruct k; reflexivity|reflexivity].
  - rewrite skd_mid by exact V. cbn [ds_signing ds_chain]. rewrite (key_decode _ _ K). reflexivity.
  - rewrite skd_mid by exact V. cbn [ds_signing ds_chain]. rewrite (key_decode _ _ K). reflexivity.
  - rewrite skd_mid by exact V. cbn [ds_signing ds_chain]. rewrite (key_decode _ _ K). reflexivity.
Qed.
Lemma distribution_text_total : forall l, exists o, distribution_text_fate l o.
Proof.
  intros l. destruct (unmarshal_cases skd_ty l) as [(vs & R & _ & T)|(N & _)]; [|eexists; apply DT_unreadable; exact N]. unfold skd_ty in T. typed_list T. typed.
  match goal with R : structure_read _ _ [VU32 ?a; VU32 ?c; VBytes ?x; VBytes ?z; VU32 ?v] |- _ => rename x into ck, z into sk, v into ver end.
  destruct (n_range ver) as [V|[V|V]]; [eexists; eapply DT_legacy; eassumption|eexists; eapply DT_newer; eassumption|].
  destruct ck as [ck|]; [|eexists; eapply DT_incomplete; [eassumption|exact V|left; reflexivity]]. destruct sk as [k|]; [|eexists; eapply DT_incomplete; [eassumption|exact V|right; reflexivity]].
  destruct (key_fate_total k) as ([key|e|] & K); eexists; [eapply DT_read|eapply DT_bad_key|eapply DT_crash]; eassumption.
Qed.
Lemma distribution_text_exact : forall l o, distribution_text_fate l o <-> skd_from_json l = o.
Proof. exact (exact_fate _ _ _ distribution_text_sound distribution_text_total). Qed.
