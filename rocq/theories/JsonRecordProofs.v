(** JsonRecordProofs.v: records survive the JSON serializers. *)
From Coq Require Import String.
From Verif Require Import Base Crypto Ecc Keys Messages SessionState SessionRecord Group PreKeyRecords World SerialProofs Json JsonSpec JsonProofs JsonProofs2 JsonProofs3 JsonRecords JsonStorageSpec.
Open Scope list_scope.
Local Open Scope N_scope.

(** * Well-formed schemas *)
Fixpoint nodupb (l : list bytes) : bool := match l with [] => true | a :: l => negb (existsb (bytes_eqb a) l) && nodupb l end.
Lemma nodupb_ok : forall l, nodupb l = true -> NoDup l.
Proof.
  induction l as [|a l IH]; intros H; [constructor|]. cbn [nodupb] in H. apply andb_prop in H. destruct H as (H1 & H2). constructor; [|apply IH; exact H2].
  intros H. assert (E : existsb (bytes_eqb a) l = true) by (apply existsb_exists; exists a; split; [exact H|apply bytes_eqb_eq; reflexivity]). rewrite E in H1. discriminate.
Qed.
Fixpoint wf_tyb (t : ty) : bool :=
  match t with
  | TPtr fs => nodupb (map fst fs) && (fix go (fs : fields) : bool := match fs with [] => true | (k, t) :: fs => forallb plain_char k && wf_tyb t && go fs end) fs
  | TSlice t => wf_tyb t
  | _ => true
  end.
Fixpoint wf_tyb_ok (t : ty) : wf_tyb t = true -> wf_ty t.
Proof.
  destruct t as [| | | |fs|t]; intros H; try exact I.
  - cbn [wf_tyb] in H. apply andb_prop in H. destruct H as (H1 & H2). cbn [wf_ty]. split; [apply nodupb_ok; exact H1|]. clear H1.
    revert H2. induction fs as [|[k t] fs IH]; intros H2; [exact I|]. apply andb_prop in H2. destruct H2 as (H2 & H3). apply andb_prop in H2. destruct H2 as (H1 & H2).
    split; [exact H1|]. split; [apply wf_tyb_ok; exact H2|apply IH; exact H3].
  - cbn [wf_tyb] in H. cbn [wf_ty]. apply wf_tyb_ok. exact H.
Qed.
Lemma wf_session : wf_ty (TPtr session_ty). Proof. apply wf_tyb_ok. vm_compute. reflexivity. Qed.
Lemma wf_state : wf_ty (TPtr state_ty). Proof. apply wf_tyb_ok. vm_compute. reflexivity. Qed.
Lemma wf_sender_key : wf_ty (TPtr sender_key_ty). Proof. apply wf_tyb_ok. vm_compute. reflexivity. Qed.
Lemma wf_gstate : wf_ty (TPtr gstate_ty). Proof. apply wf_tyb_ok. vm_compute. reflexivity. Qed.
Lemma wf_prekey : wf_ty (TPtr prekey_ty). Proof. apply wf_tyb_ok. vm_compute. reflexivity. Qed.
Lemma wf_signed_prekey : wf_ty (TPtr signed_prekey_ty). Proof. apply wf_tyb_ok. vm_compute. reflexivity. Qed.

(** * Saved values have the type of their structure *)
Lemma int_ok_b : forall z, int_ok z <-> int64_ok z = true.
Proof. intros z. unfold int_ok, int64_ok. rewrite andb_true_iff, !Z.leb_le. tauto. Qed.
Lemma has_chain : forall c, go_chain c -> have_tys (chain_val (chain_structure c)) chain_ty.
Proof.
  intros c (H1 & H2). unfold chain_val, chain_ty. cbn [have_tys]. split; [exact I|]. split; [exact I|]. split.
  - apply has_ptr. cbn [have_tys chain_key_val chain_key_ty]. split; [exact I|]. split; [exact H1|exact I].
  - split; [|exact I]. apply has_slice. apply Forall_map. cbn [cs_msgs chain_structure]. eapply Forall_impl; [|exact H2].
    intros m Hm. apply has_ptr. cbn [have_tys msg_keys_val msg_keys_ty]. split; [exact I|]. split; [exact I|]. split; [exact I|]. split; [exact Hm|exact I].
Qed.
Lemma has_state : forall s t, go_state s -> state_structure s = Ok t -> have_tys (state_val t) state_ty.
Proof.
  intros s t (H1 & H2 & H3 & H4 & H5 & H6 & H7 & H8) E. unfold state_structure in E.
  destruct (s_pending_kx s) as [p|] eqn:Ep.
  - unfold px_structure in E. destruct (kp_priv (px_base p)) as [b|]; [|discriminate]. destruct (kp_priv (px_ratchet p)) as [r|]; [|discriminate]. cbn [bind] in E.
    destruct (s_local_id s); [|discriminate]. destruct (s_remote_id s); [|discriminate]. destruct (s_root s); [|discriminate]. destruct (s_base s); [|discriminate].
    destruct (s_sender s) as [c|]; [|discriminate]. injection E as <-. unfold state_val, state_ty. cbn [have_tys option_map ss_local_reg ss_pending_kx ss_pending ss_prev_counter ss_recv ss_remote_reg ss_sender ss_version].
    repeat match goal with |- _ /\ _ => split end; try exact I; try assumption.
    + apply has_ptr. cbn. repeat split. apply H5. reflexivity.
    + destruct (s_pending s) as [q|]; [|exact I]. destruct (H6 q eq_refl) as (A & B). apply has_ptr. cbn [have_tys pp_val pp_ty option_map pp_structure ps_signed ps_id]. repeat match goal with |- _ /\ _ => split end; try exact I; [|exact A].
      destruct (pp_id q) as [o|]; [|exact I]. apply has_ptr. cbn [have_tys opt_u32_val opt_u32_ty]. split; [apply B; reflexivity|]. split; exact I.
    + apply has_slice. rewrite map_map. apply Forall_map. eapply Forall_impl; [|exact H7]. intros x Hx. apply has_ptr. apply has_chain. exact Hx.
    + apply has_ptr. apply has_chain. apply H8. reflexivity.
    + apply int_ok_b. exact H4.
  - cbn [bind] in E.
    destruct (s_local_id s); [|discriminate]. destruct (s_remote_id s); [|discriminate]. destruct (s_root s); [|discriminate]. destruct (s_base s); [|discriminate].
    destruct (s_sender s) as [c|]; [|discriminate]. injection E as <-. unfold state_val, state_ty. cbn [have_tys option_map ss_local_reg ss_pending_kx ss_pending ss_prev_counter ss_recv ss_remote_reg ss_sender ss_version].
    repeat match goal with |- _ /\ _ => split end; try exact I; try assumption.
    + destruct (s_pending s) as [q|]; [|exact I]. destruct (H6 q eq_refl) as (A & B). apply has_ptr. cbn [have_tys pp_val pp_ty option_map pp_structure ps_signed ps_id]. repeat match goal with |- _ /\ _ => split end; try exact I; [|exact A].
      destruct (pp_id q) as [o|]; [|exact I]. apply has_ptr. cbn [have_tys opt_u32_val opt_u32_ty]. split; [apply B; reflexivity|]. split; exact I.
    + apply has_slice. rewrite map_map. apply Forall_map. eapply Forall_impl; [|exact H7]. intros x Hx. apply has_ptr. apply has_chain. exact Hx.
    + apply has_ptr. apply has_chain. apply H8. reflexivity.
    + apply int_ok_b. exact H4.
Qed.
Lemma map_res_ok : forall {A B} (f : A -> res B) l r, map_res f l = Ok r -> Forall2 (fun a b => f a = Ok b) l r.
Proof.
  intros A B f. induction l as [|a l IH]; intros r H; cbn [map_res] in H; [injection H as <-; constructor|].
  destruct (f a) as [b|e|] eqn:E; try discriminate H. cbn [bind] in H. destruct (map_res f l) as [bs|e|] eqn:E2; try discriminate H. cbn [bind] in H. injection H as <-.
  constructor; [exact E|apply IH; reflexivity].
Qed.
Lemma map_res_of_ok : forall {A B} (f : A -> res B) l r, Forall2 (fun a b => f a = Ok b) l r -> map_res f l = Ok r.
Proof. intros A B f l r H. induction H as [|a b l r E _ IH]; [reflexivity|]. cbn [map_res]. rewrite E. cbn [bind]. rewrite IH. reflexivity. Qed.
Lemma has_record : forall r t, go_record r -> record_structure r = Ok t -> have_tys (record_val t) session_ty.
Proof.
  intros r t (H1 & H2) E. unfold record_structure in E. destruct (map_res state_structure (r_prev r)) as [ps|e|] eqn:Ep; try discriminate E. cbn [bind] in E.
  destruct (state_structure (r_cur r)) as [c|e|] eqn:Ec; try discriminate E. cbn [bind] in E. injection E as <-.
  unfold record_val, session_ty. cbn [have_tys]. split; [apply has_ptr; eapply has_state; eassumption|]. split; [|exact I]. apply has_slice. apply Forall_map. cbn [rs_prev].
  apply map_res_ok in Ep. clear Ec. revert H2. induction Ep as [|a b l r' E _ IH]; intros H2; [constructor|]. inversion H2; subst. constructor; [apply has_ptr; eapply has_state; eassumption|apply IH; assumption].
Qed.

(** * Reading back what was written *)
Lemma chain_of_val : forall c, chain_of (VPtr (Some (chain_val c))) = chain_from_structure c.
Proof.
  intros c. unfold chain_of, chain_val, chain_from_structure. cbn [nb items]. destruct (decode_point (cs_pub c)) as [k|e|]; cbn [bind]; try reflexivity.
  assert (E : map_res msg_keys_of (map (fun k => VPtr (Some (msg_keys_val k))) (cs_msgs c)) = Ok (cs_msgs c)).
  { induction (cs_msgs c) as [|m l IH]; [reflexivity|]. cbn [map map_res]. destruct m as [mc mm mi mx]. cbn [msg_keys_of msg_keys_val nb mk_cipher mk_mac mk_iv mk_index bind]. rewrite IH. reflexivity. }
  rewrite E. cbn [bind]. destruct (cs_key c) as [kk ki]. cbn [chain_key_of chain_key_val nb ck_key ck_index bind]. destruct (cs_priv c); reflexivity.
Qed.
Lemma pp_of_val : forall p, pp_of (option_map pp_val p) = match p with Some p => x <- pp_from_structure p ;; Ok (Some x) | None => Ok None end.
Proof.
  intros [[id sg b]|]; [|reflexivity]. cbn [option_map pp_val pp_of ps_id ps_signed ps_base nb]. unfold pp_from_structure. cbn [ps_id ps_signed ps_base].
  destruct (decode_point b) as [k|e|]; cbn [bind]; try reflexivity. destruct id as [[v f]|]; reflexivity.
Qed.
Lemma px_of_val : forall p, px_of (option_map px_val p) = option_map px_from_structure p.
Proof. intros [p|]; reflexivity. Qed.
Lemma map_res_id : forall {A B} (f : A -> res B) l, map_res (fun r => r) (map f l) = map_res f l.
Proof. intros A B f. induction l as [|a l IH]; [reflexivity|]. cbn [map map_res]. destruct (f a); cbn [bind]; try reflexivity. rewrite IH. reflexivity. Qed.
Lemma state_of_val : forall t s, state_from_structure t = Ok s -> state_of (VPtr (Some (state_val t))) = Ok s.
Proof.
  intros t s H. unfold state_of, state_val. cbn [nb items].
  unfold state_from_structure in H. rewrite chain_of_val, pp_of_val, px_of_val, map_map.
  destruct (decode_point (ss_local_id t)) as [li|e|]; try discriminate H. cbn [bind] in H.
  destruct (decode_point (ss_remote_id t)) as [ri|e|]; try discriminate H. cbn [bind] in H.
  destruct (decode_point (ss_base t)) as [bk|e|]; try discriminate H. cbn [bind] in H.
  destruct (match ss_pending t with Some p => x <- pp_from_structure p ;; Ok (Some x) | None => Ok None end) as [pp|e|]; try discriminate H. cbn [bind] in H.
  destruct (chain_from_structure (ss_sender t)) as [sc|e|]; try discriminate H. cbn [bind] in H.
  destruct (map_res chain_from_structure (ss_recv t)) as [rc|e|] eqn:Er; try discriminate H. cbn [bind] in H.
  assert (E : map (fun x => chain_of (VPtr (Some (chain_val x)))) (ss_recv t) = map chain_from_structure (ss_recv t)) by (apply map_ext; apply chain_of_val). rewrite E.
  assert (P : existsb panics (map chain_from_structure (ss_recv t)) = false).
  { clear E H. apply map_res_ok in Er. induction Er as [|a b l r E' _ IH]; [reflexivity|]. cbn [map existsb]. rewrite E'. cbn [panics orb]. exact IH. }
  rewrite P. cbn [panics orb bind]. rewrite map_res_id, Er. cbn [bind]. rewrite <- H. destruct (ss_pending_kx t); reflexivity.
Qed.
Lemma record_of_val : forall r t, record_structure r = Ok t -> record_of (record_val t) = Ok (unfresh r).
Proof.
  intros r t E. unfold record_structure in E. destruct (map_res state_structure (r_prev r)) as [ps|e|] eqn:Ep; try discriminate E. cbn [bind] in E.
  destruct (state_structure (r_cur r)) as [c|e|] eqn:Ec; try discriminate E. cbn [bind] in E. injection E as <-.
  unfold record_of, record_val. cbn [items rs_prev rs_cur]. rewrite (state_of_val _ _ (state_roundtrip _ _ Ec)).
  assert (E : map_res state_of (map (fun s => VPtr (Some (state_val s))) ps) = Ok (r_prev r)).
  { apply map_res_of_ok. apply map_res_ok in Ep. clear Ec c. induction Ep as [|a b l l' E _ IH]; [constructor|]. cbn [map]. constructor; [apply state_of_val; apply state_roundtrip; exact E|exact IH]. }
  rewrite E. reflexivity.
Qed.
Lemma session_roundtrip : forall r b, go_record r -> save_session r = Ok b -> load_session b = Ok (unfresh r).
Proof.
  intros r b G H. unfold save_session in H. destruct (record_structure r) as [t|e|] eqn:E; try discriminate H. cbn [bind] in H. injection H as <-.
  unfold load_session. rewrite (unmarshal_marshal _ _ wf_session (has_record _ _ G E)). cbn [bind]. apply (record_of_val _ _ E).
Qed.
Lemma record_structure_ok : forall r, initialised (r_cur r) -> Forall initialised (r_prev r) -> exists t, record_structure r = Ok t.
Proof.
  intros r Hc Hp. assert (HP : exists t, map_res state_structure (r_prev r) = Ok t).
  { induction Hp as [|s l Hs Hl IH]; [exists []; reflexivity|]. destruct (proj1 (state_structure_iff s) Hs) as [t Ht]. destruct IH as [ts Hts]. exists (t :: ts). cbn. rewrite Ht. cbn. rewrite Hts. reflexivity. }
  destruct HP as [tp Htp]. destruct (proj1 (state_structure_iff _) Hc) as [t Ht]. unfold record_structure. rewrite Htp. cbn [bind]. rewrite Ht. cbn [bind]. eexists. reflexivity.
Qed.
Lemma session_persist : forall r, go_record r -> (b <- save_session r ;; load_session b) = persist r.
Proof.
  intros r G. destruct (record_structure r) as [t|e|] eqn:E.
  - assert (S : save_session r = Ok (marshal session_ty (record_val t))) by (unfold save_session; rewrite E; reflexivity). rewrite S. cbn [bind]. rewrite (session_roundtrip r _ G S).
    unfold persist. rewrite E. cbn [bind]. unfold record_structure in E. destruct (map_res state_structure (r_prev r)) as [ps|e|] eqn:Ep; try discriminate E. cbn [bind] in E.
    destruct (state_structure (r_cur r)) as [c|e|] eqn:Ec; try discriminate E. cbn [bind] in E. injection E as <-. unfold record_from_structure. cbn [rs_prev rs_cur].
    rewrite (map_res_comp _ _ state_structure state_from_structure _ _ state_roundtrip Ep). cbn [bind]. rewrite (state_roundtrip _ _ Ec). reflexivity.
  - unfold save_session, persist. rewrite E. reflexivity.
  - unfold save_session, persist. rewrite E. reflexivity.
Qed.
Lemma state_json_roundtrip : forall s b, go_state s -> save_state s = Ok b -> load_state b = Ok s.
Proof.
  intros s b G H. unfold save_state in H. destruct (state_structure s) as [t|e|] eqn:E; try discriminate H. cbn [bind] in H. injection H as <-.
  unfold load_state. rewrite (unmarshal_marshal _ _ wf_state (has_state _ _ G E)). cbn [bind]. apply state_of_val. apply state_roundtrip. exact E.
Qed.

(** * What was read is in range and can be written again *)
Ltac tys H := cbn [have_tys] in H; repeat match type of H with _ /\ _ => let A := fresh "T" in destruct H as (A & H) end.
Lemma chain_of_go : forall v c, has_ty v (TPtr chain_ty) -> chain_of v = Ok c -> go_chain c.
Proof.
  intros v c T H. unfold chain_of in H. destruct v as [| | | |[vs|]|]; try discriminate H.
  destruct vs as [|v1 [|v2 [|v3 [|v4 [|v5 vs]]]]]; try discriminate H; destruct v1 as [| | |pub| |]; try discriminate H; destruct v2 as [| | |priv| |]; try discriminate H;
    destruct v4 as [| | | | |ms]; try discriminate H.
  apply has_ptr in T. unfold chain_ty in T. cbn [have_tys] in T. destruct T as (_ & _ & T3 & T4 & _).
  destruct (decode_point (nb pub)) as [k|e|]; try discriminate H. cbn [bind] in H. destruct (map_res msg_keys_of (items ms)) as [keys|e|] eqn:Em; try discriminate H. cbn [bind] in H.
  destruct (chain_key_of v3) as [ck|e|] eqn:Ek; try discriminate H. cbn [bind] in H. injection H as <-. split; cbn [ch_key ch_msgs].
  - unfold chain_key_of in Ek. destruct v3 as [| | | |[vs|]|]; try discriminate Ek. destruct vs as [|w1 [|w2 [|w3 vs]]]; try discriminate Ek; destruct w1; try discriminate Ek; destruct w2; try discriminate Ek.
    injection Ek as <-. apply has_ptr in T3. cbn [have_tys chain_key_ty] in T3. exact (proj1 (proj2 T3)).
  - apply map_res_ok in Em. destruct ms as [l|]; cbn [items] in Em; [|inversion Em; constructor].
    assert (T : Forall (fun v => has_ty v (TPtr msg_keys_ty)) l) by (apply has_slice; exact T4). clear T3 T4 Ek.
    induction Em as [|a b l r E _ IH]; [constructor|]. inversion T as [|? ? Ta Tl]; subst. constructor; [|apply IH; exact Tl].
    unfold msg_keys_of in E. destruct a as [| | | |[vs|]|]; try discriminate E. destruct vs as [|w1 [|w2 [|w3 [|w4 [|w5 vs]]]]]; try discriminate E; destruct w1; try discriminate E; destruct w2; try discriminate E; destruct w3; try discriminate E; destruct w4; try discriminate E.
    injection E as <-. apply has_ptr in Ta. cbn [have_tys msg_keys_ty] in Ta. exact (proj1 (proj2 (proj2 (proj2 Ta)))).
Qed.
Definition loaded (s : state) : Prop := initialised s /\ go_state s.
Lemma state_of_loaded : forall v s, has_ty v (TPtr state_ty) -> state_of v = Ok s -> loaded s.
Proof.
  intros v s T H. unfold state_of in H. destruct v as [| | | |[vs|]|]; try discriminate H.
  destruct vs as [|v1 [|v2 [|v3 [|v4 [|v5 [|v6 [|v7 [|v8 [|v9 [|v10 [|v11 [|v12 [|v13 [|v14 vs]]]]]]]]]]]]]]; try discriminate H;
    destruct v1 as [| | |li| |]; try discriminate H; destruct v2 as [lreg| | | | |]; try discriminate H; destruct v3 as [| |refresh| | |]; try discriminate H;
    destruct v4 as [| | | |px|]; try discriminate H; destruct v5 as [| | | |pp|]; try discriminate H; destruct v6 as [pc| | | | |]; try discriminate H; destruct v7 as [| | | | |rcs]; try discriminate H;
    destruct v8 as [| | |ri| |]; try discriminate H; destruct v9 as [rreg| | | | |]; try discriminate H; destruct v10 as [| | |rk| |]; try discriminate H; destruct v11 as [| | |bk| |]; try discriminate H;
    destruct v13 as [|ver| | | |]; try discriminate H.
  apply has_ptr in T. unfold state_ty in T. cbn [have_tys] in T. destruct T as (_ & T2 & _ & T4 & T5 & T6 & T7 & _ & T9 & _ & _ & T12 & T13 & _).
  destruct (panics (decode_point (nb li)) || panics (decode_point (nb ri)) || panics (decode_point (nb bk)) || panics (pp_of pp) || panics (chain_of v12) || existsb panics (map chain_of (items rcs))); [discriminate H|].
  destruct (decode_point (nb li)) as [li'|e|]; try discriminate H. destruct (decode_point (nb ri)) as [ri'|e|]; try discriminate H. destruct (decode_point (nb bk)) as [bk'|e|]; try discriminate H.
  cbn [bind] in H. destruct (pp_of pp) as [pp'|e|] eqn:Ep; try discriminate H. cbn [bind] in H. destruct (chain_of v12) as [sc|e|] eqn:Es; try discriminate H. cbn [bind] in H.
  rewrite map_res_id in H. destruct (map_res chain_of (items rcs)) as [rc|e|] eqn:Er; try discriminate H. cbn [bind] in H. injection H as <-.
  split.
  - unfold initialised. cbn [s_local_id s_remote_id s_root s_base s_sender s_pending_kx]. split; [discriminate|]. split; [discriminate|]. split; [discriminate|]. split; [discriminate|]. split; [discriminate|].
    unfold px_of. destruct px as [l|]; [|exact I].
    destruct l as [|w1 [|w2 [|w3 [|w4 [|w5 [|w6 [|w7 [|w8 l]]]]]]]]; try exact I; destruct w1; try exact I; destruct w2; try exact I; destruct w3; try exact I; destruct w4; try exact I; destruct w5; try exact I; destruct w6; try exact I; destruct w7; try exact I.
    split; discriminate.
  - unfold go_state. cbn [s_local_reg s_remote_reg s_prev_counter s_version s_pending_kx s_pending s_recv s_sender].
    split; [exact T2|]. split; [exact T9|]. split; [exact T6|]. split; [apply int_ok_b; exact T13|]. split; [|split; [|split]].
    + intros p E. unfold px_of in E. destruct px as [l|]; [|discriminate E].
      destruct l as [|w1 [|w2 [|w3 [|w4 [|w5 [|w6 [|w7 [|w8 l]]]]]]]]; try discriminate E; destruct w1; try discriminate E; destruct w2; try discriminate E; destruct w3; try discriminate E; destruct w4; try discriminate E; destruct w5; try discriminate E; destruct w6; try discriminate E; destruct w7; try discriminate E.
      injection E as <-. apply has_ptr in T4. cbn [have_tys px_ty] in T4. exact (proj1 T4).
    + intros p ->. unfold pp_of in Ep. destruct pp as [l|]; [|discriminate Ep].
      destruct l as [|w1 [|w2 [|w3 [|w4 l]]]]; try discriminate Ep; destruct w1 as [| | | |id|]; try discriminate Ep; destruct w2 as [sg| | | | |]; try discriminate Ep; destruct w3 as [| | |b| |]; try discriminate Ep.
      destruct (decode_point (nb b)) as [b'|e|]; try discriminate Ep. cbn [bind] in Ep. injection Ep as <-. apply has_ptr in T5. cbn [have_tys pp_ty] in T5. destruct T5 as (A & B & _).
      split; [exact B|]. cbn [pp_id]. intros o E. unfold opt_u32_of in E. destruct id as [l|]; [|discriminate E].
      destruct l as [|u1 [|u2 [|u3 l]]]; try discriminate E; destruct u1; try discriminate E; destruct u2; try discriminate E. injection E as <-. apply has_ptr in A. cbn [have_tys opt_u32_ty] in A. exact (proj1 A).
    + apply map_res_ok in Er. destruct rcs as [l|]; cbn [items] in Er; [|inversion Er; constructor].
      assert (T : Forall (fun v => has_ty v (TPtr chain_ty)) l) by (apply has_slice; exact T7). clear -Er T.
      induction Er as [|a b l r E _ IH]; [constructor|]. inversion T as [|? ? Ta Tl]; subst. constructor; [exact (chain_of_go a b Ta E)|apply IH; exact Tl].
    + intros c E. injection E as <-. exact (chain_of_go v12 sc T12 Es).
Qed.
Lemma load_session_loaded : forall s r, load_session s = Ok r -> loaded (r_cur r) /\ Forall loaded (r_prev r) /\ r_fresh r = false.
Proof.
  intros s r H. unfold load_session in H. destruct (unmarshal session_ty s) as [vs|e|] eqn:E; try discriminate H. cbn [bind] in H. apply unmarshal_typed in E.
  unfold record_of in H. destruct vs as [|v1 [|v2 [|v3 vs]]]; try discriminate H; destruct v2 as [| | | | |prev]; try discriminate H.
  destruct (map_res state_of (items prev)) as [p|e|] eqn:Ep; try discriminate H. cbn [bind] in H. destruct (state_of v1) as [c|e|] eqn:Ec; try discriminate H. cbn [bind] in H. injection H as <-.
  cbn [have_tys session_ty] in E. destruct E as (T1 & T2 & _). cbn [r_cur r_prev r_fresh]. split; [exact (state_of_loaded _ _ T1 Ec)|]. split; [|reflexivity].
  apply map_res_ok in Ep. destruct prev as [l|]; cbn [items] in Ep; [|inversion Ep; constructor].
  assert (T : Forall (fun v => has_ty v (TPtr state_ty)) l) by (apply has_slice; exact T2). clear -Ep T.
  induction Ep as [|a b l r E _ IH]; [constructor|]. inversion T as [|? ? Ta Tl]; subst. constructor; [exact (state_of_loaded a b Ta E)|apply IH; exact Tl].
Qed.
Lemma load_session_again : forall s r, load_session s = Ok r -> exists b, save_session r = Ok b /\ load_session b = Ok r.
Proof.
  intros s r H. destruct (load_session_loaded _ _ H) as (H1 & H2 & H3).
  assert (G : go_record r) by (split; [apply H1|eapply Forall_impl; [|exact H2]; intros x X; apply X]).
  destruct (record_structure_ok r) as (t & Et); [apply H1|eapply Forall_impl; [|exact H2]; intros x X; apply X|].
  exists (marshal session_ty (record_val t)). assert (S : save_session r = Ok (marshal session_ty (record_val t))) by (unfold save_session; rewrite Et; reflexivity).
  split; [exact S|]. rewrite (session_roundtrip r _ G S). unfold unfresh. destruct r as [c p f]. cbn [r_cur r_prev r_fresh] in *. rewrite H3. reflexivity.
Qed.

(** * Sender keys *)
Definition with_zero_key (s : gstate) : gstate :=
  {| gs_keys := gs_keys s; gs_id := gs_id s; gs_chain := gs_chain s;
     gs_signing := {| kp_pub := kp_pub (gs_signing s); kp_priv := Some (match kp_priv (gs_signing s) with Some k => k | None => zero_arr 32 end) |} |}.
Lemma has_gstate : forall s, go_gstate s -> have_tys (gstate_val (gstate_structure s)) gstate_ty.
Proof.
  intros s (H1 & H2 & H3). unfold gstate_val, gstate_ty. cbn [have_tys gstate_structure gss_keys gss_id gss_chain gss_priv gss_pub].
  split; [|split; [exact H1|split; [|split; [exact I|split; exact I]]]].
  - apply has_slice. apply Forall_map. eapply Forall_impl; [|exact H3]. intros k Hk. apply has_ptr. cbn [have_tys gmsg_key_val gmsg_key_ty]. split; [exact Hk|]. split; [exact I|]. split; [exact I|]. split; exact I.
  - apply has_ptr. cbn [have_tys gchain_val gchain_ty]. split; [exact H2|]. split; exact I.
Qed.
Lemma gstate_of_val : forall s, gstate_of (VPtr (Some (gstate_val (gstate_structure s)))) = Ok (with_zero_key s).
Proof.
  intros s. unfold gstate_of, gstate_val. cbn [gstate_structure gss_keys gss_id gss_chain gss_priv gss_pub nb items]. rewrite CodecProofs.decode_ser_pub. cbn [bind].
  assert (E : map_res gmsg_key_of (map (fun k => VPtr (Some (gmsg_key_val k))) (gs_keys s)) = Ok (gs_keys s)).
  { induction (gs_keys s) as [|[a b c d] l IH]; [reflexivity|]. cbn [map map_res]. cbn [gmsg_key_of gmsg_key_val nb gm_iter gm_iv gm_cipher gm_seed bind]. rewrite IH. reflexivity. }
  rewrite E. cbn [bind]. unfold with_zero_key. destruct (gs_chain s) as [gk gi]. cbn [gchain_of gchain_val nb gc_key gc_iter bind].
  destruct (kp_priv (gs_signing s)) as [k|]; [|reflexivity]. cbn [nb]. rewrite to_arr_abytes. reflexivity.
Qed.
Lemma sender_key_roundtrip : forall r, Forall go_gstate r -> load_sender_key (save_sender_key r) = Ok (map with_zero_key r).
Proof.
  intros r G. unfold load_sender_key, save_sender_key. rewrite (unmarshal_marshal _ _ wf_sender_key).
  - cbn [bind grecord_of grecord_val items]. apply map_res_of_ok. unfold grecord_structure. rewrite map_map. clear G. induction r as [|s r IH]; [constructor|]. cbn [map]. constructor; [apply gstate_of_val|exact IH].
  - cbn [have_tys grecord_val sender_key_ty]. split; [|exact I]. apply has_slice. unfold grecord_structure. rewrite map_map. apply Forall_map. eapply Forall_impl; [|exact G]. intros s Hs. apply has_ptr. apply has_gstate. exact Hs.
Qed.
Lemma sender_state_roundtrip : forall s, go_gstate s -> load_sender_state (save_sender_state s) = Ok (with_zero_key s).
Proof. intros s G. unfold load_sender_state, save_sender_state. rewrite (unmarshal_marshal _ _ wf_gstate (has_gstate s G)). cbn [bind]. apply gstate_of_val. Qed.
Lemma grecord_from_structure_eq : forall r, grecord_from_structure (grecord_structure r) = Ok (map with_zero_key r).
Proof.
  intros r. apply map_res_of_ok. unfold grecord_structure. induction r as [|s r IH]; [constructor|]. cbn [map]. constructor; [|exact IH].
  unfold gstate_from_structure. cbn [gstate_structure gss_keys gss_id gss_chain gss_priv gss_pub]. rewrite CodecProofs.decode_ser_pub. cbn [bind]. unfold with_zero_key.
  destruct (kp_priv (gs_signing s)) as [k|]; [rewrite to_arr_abytes|]; reflexivity.
Qed.

(** * Prekeys *)
Lemma prekey_roundtrip : forall r, u32_ok (ks_id (kr_struct r)) -> load_prekey (save_prekey r) = Ok (pkr_from_struct (kr_struct r)).
Proof.
  intros r G. unfold load_prekey, save_prekey. rewrite (unmarshal_marshal _ _ wf_prekey); [|cbn [have_tys prekey_val prekey_ty]; split; [exact G|]; split; [exact I|]; split; exact I].
  cbn [bind prekey_of prekey_val nb]. unfold pkr_serialize. destruct (kr_struct r); reflexivity.
Qed.
Lemma signed_prekey_roundtrip : forall r, u32_ok (zs_id (zr_struct r)) -> int_ok (zs_time (zr_struct r)) -> load_signed_prekey (save_signed_prekey r) = Ok (skr_from_struct (zr_struct r)).
Proof.
  intros r G G2. apply int_ok_b in G2. unfold load_signed_prekey, save_signed_prekey. rewrite (unmarshal_marshal _ _ wf_signed_prekey); [|cbn [have_tys signed_prekey_val signed_prekey_ty]; split; [exact G|]; split; [exact I|]; split; [exact I|]; split; [exact I|]; split; [exact G2|exact I]].
  cbn [bind signed_prekey_of signed_prekey_val nb]. unfold skr_serialize. destruct (zr_struct r); reflexivity.
Qed.

(** * Truncation *)
Lemma truncated : forall fs vs s r, wf_ty (TPtr fs) -> marshal fs vs = s ++ r -> r <> [] -> unmarshal fs s = Err EDecode.
Proof.
  intros fs vs s r W E N. unfold unmarshal. destruct (json_parse s) as [j|] eqn:P; [|reflexivity]. exfalso. apply parse_iff in P. exact (prefix_not_json fs vs s r j W E N P).
Qed.
Lemma load_session_not_json : forall s, (forall j, ~ json_text j s) -> load_session s = Err EDecode.
Proof. intros s H. unfold load_session, unmarshal. destruct (json_parse s) as [j|] eqn:P; [|reflexivity]. exfalso. apply parse_iff in P. exact (H j P). Qed.
