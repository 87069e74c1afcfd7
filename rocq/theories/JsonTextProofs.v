(** JsonTextProofs.v: the serializers write the texts of JsonStorageSpec. *)
From Coq Require Import String.
From Verif Require Import Base Itoa Crypto Ecc Keys Messages SessionState SessionRecord Group PreKeyRecords World SerialProofs Json JsonProofs3 JsonRecords JsonRecordProofs JsonMessages JsonStorageSpec.
Open Scope list_scope.
Local Open Scope N_scope.

Lemma join_cons : forall a b l, join (a :: b :: l) = a ++ x2c :: join (b :: l). Proof. reflexivity. Qed.
Lemma join_comma : forall l, join l = comma_separated l.
Proof.
  destruct l as [|a l]; [reflexivity|]. unfold comma_separated. revert a. induction l as [|b l IH]; intros a; [cbn [join map concat]; rewrite app_nil_r; reflexivity|].
  rewrite join_cons, (IH b). reflexivity.
Qed.
Fixpoint print_members (vs : list gval) (fs : fields) : list bytes :=
  match vs, fs with v :: vs, (k, t) :: fs => (x22 :: k ++ x22 :: x3a :: print (enc v t)) :: print_members vs fs | _, _ => [] end.
Lemma print_obj : forall vs fs, print (enc (VPtr (Some vs)) (TPtr fs)) = x7b :: comma_separated (print_members vs fs) ++ [x7d].
Proof.
  intros vs fs. rewrite enc_ptr. cbn [print]. rewrite join_comma. f_equal. f_equal. f_equal. revert fs. induction vs as [|v vs IH]; intros [|[k t] fs]; try reflexivity. cbn [enc_fields map print_members]. rewrite IH. reflexivity.
Qed.
Lemma print_arr : forall l t, print (enc (VSlice (Some l)) (TSlice t)) = array (map (fun v => print (enc v t)) l).
Proof. intros l t. cbn [enc print]. rewrite join_comma, map_map. reflexivity. Qed.
Lemma print_u32 : forall n t, print (enc (VU32 n) t) = dec_n n. Proof. reflexivity. Qed.
Lemma print_int : forall z t, print (enc (VInt z) t) = itoa z. Proof. reflexivity. Qed.
Lemma print_bool : forall b t, print (enc (VBool b) t) = boolean b. Proof. intros [] t; reflexivity. Qed.
Lemma print_bytes : forall b t, print (enc (VBytes b) t) = or_null base64_string b. Proof. intros [b|] t; reflexivity. Qed.
Lemma print_nil : forall t, print (enc (VPtr None) t) = str "null". Proof. intros []; reflexivity. Qed.
Lemma print_some_bytes : forall b t, print (enc (VBytes (Some b)) t) = base64_string b. Proof. reflexivity. Qed.
Ltac texts := repeat first [rewrite print_u32|rewrite print_int|rewrite print_bool|rewrite print_some_bytes|rewrite print_bytes].

Lemma chain_key_print : forall k, print (enc (VPtr (Some (chain_key_val k))) (TPtr chain_key_ty)) = chain_key_text k.
Proof. intros k. rewrite print_obj. unfold chain_key_val, chain_key_ty. cbn [print_members]. texts. reflexivity. Qed.
Lemma msg_keys_print : forall k, print (enc (VPtr (Some (msg_keys_val k))) (TPtr msg_keys_ty)) = msg_keys_text k.
Proof. intros k. rewrite print_obj. unfold msg_keys_val, msg_keys_ty. cbn [print_members]. texts. reflexivity. Qed.
Lemma chain_print : forall c, print (enc (VPtr (Some (chain_val (chain_structure c)))) (TPtr chain_ty)) = chain_text c.
Proof.
  intros c. rewrite print_obj. unfold chain_val, chain_ty. cbn [print_members chain_structure cs_pub cs_priv cs_key cs_msgs]. rewrite print_arr, map_map, chain_key_print. texts. rewrite (map_ext _ _ msg_keys_print). unfold chain_text. destruct (kp_priv (ch_pair c)); reflexivity.
Qed.
Lemma optional_print : forall o, print (enc (VPtr (option_map opt_u32_val o)) (TPtr opt_u32_ty)) = or_null optional_text o.
Proof. intros [o|]; [|reflexivity]. cbn [option_map or_null]. rewrite print_obj. unfold opt_u32_val, opt_u32_ty. cbn [print_members]. texts. reflexivity. Qed.
Lemma pending_print : forall p, print (enc (VPtr (option_map pp_val (option_map pp_structure p))) (TPtr pp_ty)) = or_null pending_text p.
Proof. intros [p|]; [|reflexivity]. cbn [option_map or_null]. rewrite print_obj. unfold pp_val, pp_ty. cbn [print_members pp_structure ps_id ps_signed ps_base]. rewrite optional_print. texts. reflexivity. Qed.
Lemma state_print : forall s li ri bk rk sc, s_local_id s = Some li -> s_remote_id s = Some ri -> s_base s = Some bk -> s_root s = Some rk -> s_sender s = Some sc -> s_pending_kx s = None ->
  exists t, state_structure s = Ok t /\ print (enc (VPtr (Some (state_val t))) (TPtr state_ty)) = state_text li ri bk rk sc s.
Proof.
  intros s li ri bk rk sc H1 H2 H3 H4 H5 H6. unfold state_structure. rewrite H1, H2, H3, H4, H5, H6. cbn [bind]. eexists. split; [reflexivity|].
  rewrite print_obj. unfold state_val, state_ty. cbn [print_members ss_local_id ss_local_reg ss_needs_refresh ss_pending_kx ss_pending ss_prev_counter ss_recv ss_remote_id ss_remote_reg ss_root ss_base ss_sender ss_version option_map].
  rewrite print_arr, !map_map, chain_print, (map_ext _ _ chain_print), print_nil.
  change (match s_pending s with Some p => Some (pp_structure p) | None => None end) with (option_map pp_structure (s_pending s)). rewrite pending_print. texts. reflexivity.
Qed.
Lemma gmsg_key_print : forall k, print (enc (VPtr (Some (gmsg_key_val k))) (TPtr gmsg_key_ty)) = sender_message_key_text k.
Proof. intros k. rewrite print_obj. unfold gmsg_key_val, gmsg_key_ty. cbn [print_members]. texts. reflexivity. Qed.
Lemma gchain_print : forall k, print (enc (VPtr (Some (gchain_val k))) (TPtr gchain_ty)) = sender_chain_text k.
Proof. intros k. rewrite print_obj. unfold gchain_val, gchain_ty. cbn [print_members]. texts. reflexivity. Qed.
Lemma gstate_print : forall s, print (enc (VPtr (Some (gstate_val (gstate_structure s)))) (TPtr gstate_ty)) = sender_state_text s.
Proof.
  intros s. rewrite print_obj. unfold gstate_val, gstate_ty. cbn [print_members gstate_structure gss_keys gss_id gss_chain gss_priv gss_pub]. rewrite print_arr, map_map, gchain_print, (map_ext _ _ gmsg_key_print). texts.
  unfold sender_state_text. destruct (kp_priv (gs_signing s)); reflexivity.
Qed.
Lemma sender_key_print : forall r, save_sender_key r = sender_key_text r.
Proof.
  intros r. unfold save_sender_key, marshal. rewrite print_obj. unfold grecord_val, sender_key_ty. cbn [print_members]. rewrite print_arr. unfold grecord_structure. rewrite !map_map, (map_ext _ _ gstate_print). reflexivity.
Qed.
Lemma prekey_print : forall id p r, new_pkr id p = Ok r -> forall k, kp_priv p = Some k -> save_prekey r = prekey_text id (kp_pub p) k.
Proof.
  intros id p r H k Hk. unfold new_pkr in H. rewrite Hk in H. injection H as <-. unfold save_prekey, marshal. rewrite print_obj. unfold prekey_val, prekey_ty. cbn [print_members pkr_serialize kr_struct ks_id ks_pub ks_priv]. texts. reflexivity.
Qed.
Lemma signed_prekey_print : forall id time p sig r, new_skr id time p sig = Ok r -> forall k, kp_priv p = Some k -> save_signed_prekey r = signed_prekey_text id (kp_pub p) k sig time.
Proof.
  intros id time p sig r H k Hk. unfold new_skr in H. rewrite Hk in H. injection H as <-. unfold save_signed_prekey, marshal. rewrite print_obj. unfold signed_prekey_val, signed_prekey_ty. cbn [print_members skr_serialize zr_struct zs_id zs_pub zs_priv zs_sig zs_time]. texts. reflexivity.
Qed.
Lemma sig_print : forall s, sig_to_json s = signal_message_text s.
Proof. intros s. unfold sig_to_json, marshal. rewrite print_obj. unfold sig_ty. cbn [print_members]. texts. reflexivity. Qed.
Lemma pk_print : forall s, pk_to_json s = prekey_message_text s.
Proof. intros s. unfold pk_to_json, marshal. rewrite print_obj. unfold pk_ty. cbn [print_members]. rewrite optional_print. texts. reflexivity. Qed.
Lemma skm_print : forall s, skm_to_json s = sender_message_text s.
Proof. intros s. unfold skm_to_json, marshal. rewrite print_obj. unfold skm_ty. cbn [print_members]. texts. reflexivity. Qed.
Lemma skd_print : forall s, skd_to_json s = distribution_message_text s.
Proof. intros s. unfold skd_to_json, marshal. rewrite print_obj. unfold skd_ty. cbn [print_members]. texts. reflexivity. Qed.

(** * Messages *)
Lemma wf_sig : wf_ty (TPtr sig_ty). Proof. apply wf_tyb_ok. vm_compute. reflexivity. Qed.
Lemma wf_pk : wf_ty (TPtr pk_ty). Proof. apply wf_tyb_ok. vm_compute. reflexivity. Qed.
Lemma wf_skm : wf_ty (TPtr skm_ty). Proof. apply wf_tyb_ok. vm_compute. reflexivity. Qed.
Lemma wf_skd : wf_ty (TPtr skd_ty). Proof. apply wf_tyb_ok. vm_compute. reflexivity. Qed.
Lemma sig_json : forall s, go_sig s -> sig_of_json (sig_to_json s) = Ok s.
Proof.
  intros s (H1 & H2 & H3). apply int_ok_b in H3. unfold sig_of_json, sig_to_json. rewrite (unmarshal_marshal _ _ wf_sig).
  - cbn [bind]. destruct s; reflexivity.
  - cbn [have_tys sig_ty]. repeat match goal with |- _ /\ _ => split end; try exact I; assumption.
Qed.
Lemma opt_u32_of_val : forall o, opt_u32_of (option_map opt_u32_val o) = o. Proof. intros [[v e]|]; reflexivity. Qed.
Lemma pk_json : forall s, go_pk s -> pk_of_json (pk_to_json s) = Ok s.
Proof.
  intros s (H1 & H2 & H3 & H4). apply int_ok_b in H3. unfold pk_of_json, pk_to_json. rewrite (unmarshal_marshal _ _ wf_pk).
  - cbn [bind]. rewrite opt_u32_of_val. destruct s; reflexivity.
  - cbn [have_tys pk_ty]. repeat match goal with |- _ /\ _ => split end; try exact I; try assumption. destruct (pk_prekey_id s) as [o|]; [|exact I]. apply has_ptr. cbn [have_tys opt_u32_val opt_u32_ty]. split; [apply H4; reflexivity|]. split; exact I.
Qed.
Lemma skm_json : forall s, go_skm s -> skm_of_json (skm_to_json s) = Ok s.
Proof.
  intros s (H1 & H2 & H3). unfold skm_of_json, skm_to_json. rewrite (unmarshal_marshal _ _ wf_skm).
  - cbn [bind]. destruct s; reflexivity.
  - cbn [have_tys skm_ty]. repeat match goal with |- _ /\ _ => split end; try exact I; assumption.
Qed.
Lemma skd_json_rt : forall s, go_skd s -> skd_of_json (skd_to_json s) = Ok s.
Proof.
  intros s (H1 & H2 & H3). unfold skd_of_json, skd_to_json. rewrite (unmarshal_marshal _ _ wf_skd).
  - cbn [bind]. destruct s; reflexivity.
  - cbn [have_tys skd_ty]. repeat match goal with |- _ /\ _ => split end; try exact I; assumption.
Qed.
(** ** Every accepted structure is in range *)
Lemma sig_of_json_go : forall l s, sig_of_json l = Ok s -> go_sig s.
Proof.
  intros l s H. unfold sig_of_json in H. destruct (unmarshal sig_ty l) as [vs|e|] eqn:E; try discriminate H. cbn [bind] in H. apply unmarshal_typed in E.
  destruct vs as [|v1 [|v2 [|v3 [|v4 [|v5 [|v6 [|v7 vs]]]]]]]; try discriminate H; destruct v1; try discriminate H; destruct v2; try discriminate H; destruct v3; try discriminate H; destruct v4; try discriminate H; destruct v5; try discriminate H; destruct v6; try discriminate H.
  injection H as <-. cbn [have_tys sig_ty] in E. destruct E as (_ & A & B & _ & D & _). split; [exact A|]. split; [exact B|]. apply int_ok_b. exact D.
Qed.
Lemma sig_no_panic_decode : forall l, sig_of_json l <> Panic.
Proof.
  intros l H. unfold sig_of_json in H. destruct (unmarshal sig_ty l) as [vs|e|] eqn:E; try discriminate H; [|exact (unmarshal_no_panic _ _ E)]. cbn [bind] in H. apply unmarshal_typed in E.
  unfold sig_ty in E. destruct vs as [|v1 [|v2 [|v3 [|v4 [|v5 [|v6 [|v7 vs]]]]]]]; cbn [have_tys] in E; repeat match type of E with _ /\ _ => let A := fresh "A" in destruct E as (A & E) end; try (exfalso; exact E).
  destruct v1 as [| | |?|[?|]|[?|]]; try (exfalso; exact A); destruct v2 as [| | |?|[?|]|[?|]]; try (exfalso; exact A0); destruct v3 as [| | |?|[?|]|[?|]]; try (exfalso; exact A1); destruct v4 as [| | |?|[?|]|[?|]]; try (exfalso; exact A2); destruct v5 as [| | |?|[?|]|[?|]]; try (exfalso; exact A3); destruct v6 as [| | |?|[?|]|[?|]]; try (exfalso; exact A4); discriminate H.
Qed.
(** ** The MAC *)
Section Mac.
Context (C : crypto).
Lemma sig_from_struct_struct : forall s m, sig_from_struct s = Ok m -> sm_struct m = s.
Proof.
  intros s m H. unfold sig_from_struct in H. destruct (sg_version s <=? unsupported_version)%Z; [discriminate H|]. destruct (sg_version s >? current_version)%Z; [discriminate H|].
  destruct (sg_ct s); [|discriminate H]. destruct (sg_ratchet s); [|discriminate H]. destruct (decode_point b0); try discriminate H. cbn [bind] in H. injection H as <-. reflexivity.
Qed.
Lemma new_message_json_verifies : forall v c p key rk ct a b m, new_signal_message_json C v c p key rk ct a b = Ok m -> u32_ok c -> u32_ok p ->
  sig_from_json (sig_msg_json m) = Ok m /\ verify_mac_json C m v a b key = Ok tt.
Proof.
  intros v c p key rk ct a b m H Hc Hp. unfold new_signal_message_json in H. destruct (get_mac C v a b key _) as [mac|e|] eqn:E; try discriminate H. cbn [bind] in H.
  pose proof (sig_from_struct_struct _ _ H) as S. split.
  - unfold sig_from_json, sig_msg_json. rewrite S, sig_json; [exact H|]. split; [exact Hc|]. split; [exact Hp|]. cbn [sg_version]. unfold sig_from_struct in H. cbn [sg_version] in H.
    destruct (v <=? unsupported_version)%Z eqn:V1; [discriminate H|]. destruct (v >? current_version)%Z eqn:V2; [discriminate H|]. unfold unsupported_version, current_version in *. unfold int_ok. lia.
  - unfold verify_mac_json. rewrite S, H. cbn [bind sg_version sg_mac]. unfold strip_struct. rewrite S. cbn [sg_ratchet sg_counter sg_prev sg_ct]. rewrite E. cbn [bind].
    assert (Q : bytes_eqb mac mac = true) by (apply bytes_eqb_eq; reflexivity). rewrite Q. reflexivity.
Qed.
End Mac.
