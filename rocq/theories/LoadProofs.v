(** LoadProofs.v: the loaders of JsonRecords.v do exactly what LoadSpec.v says. *)
From Verif Require Import Base Ecc Keys Messages SessionState SessionRecord Group PreKeyRecords Json JsonSpec JsonValueSpec JsonRecords JsonProofs3 JsonValueProofs JsonRecordProofs MembersSpec LoadSpec.
From Coq Require Import NArith ZArith List Lia Bool.
Import ListNotations.
Open Scope list_scope.

Lemma result_inj : forall A (f g : fate A), result f = result g -> f = g.
Proof. intros A [a| | |] [b| | |] E; try discriminate E; try reflexivity. injection E as ->. reflexivity. Qed.
Lemma cut_to_arr : forall n l a, cut n l a -> to_arr n l = a.
Proof. intros n l a H. apply arr_eq. rewrite H. reflexivity. Qed.
Lemma to_arr_cut : forall n l, cut n l (to_arr n l).
Proof. intros n l. reflexivity. Qed.
Lemma content_nb : forall b, content b = nb b.
Proof. intros [b|]; reflexivity. Qed.

(** Soundness: the relation fixes the result of the loader. *)
Lemma key_sound : forall b f, key_member b f -> decode_point (nb b) = result f.
Proof.
  intros b f H. destruct H as [b l k E K|b t l E T|b E]; rewrite content_nb in E; rewrite E; cbn [decode_point].
  - change djb_type with x05. cbn. rewrite (cut_to_arr _ _ _ K). reflexivity.
  - change djb_type with x05. destruct (Byte.eqb t x05) eqn:B; [|reflexivity]. exfalso. apply T. destruct t; (discriminate B || reflexivity).
  - reflexivity.
Qed.
Lemma key_total : forall b, exists f, key_member b f /\ f <> Unreadable.
Proof.
  intros b. destruct (content b) as [|t l] eqn:E; [exists Crashes; split; [constructor; exact E|discriminate]|].
  destruct (Byte.eqb t x05) eqn:B.
  - exists (Loads (to_arr 32 l)). split; [|discriminate]. apply (Key_good b l); [|reflexivity]. rewrite E. f_equal. destruct t; (discriminate B || reflexivity).
  - exists Refused. split; [|discriminate]. apply (Key_other b t l E). intros ->. discriminate B.
Qed.
Lemma private_sound : forall b p, private_member b p -> (if (length (nb b) =? 32)%nat then Some (to_arr 32 (nb b)) else None) = p.
Proof.
  intros b p H. destruct H as [b k E|b E]; rewrite content_nb in E.
  - rewrite E. rewrite (alen k), to_arr_abytes. reflexivity.
  - rewrite (proj2 (Nat.eqb_neq _ _) E). reflexivity.
Qed.
Lemma private_total : forall b, exists p, private_member b p.
Proof.
  intros b. destruct (Nat.eq_dec (length (content b)) 32) as [E|E]; [|exists None; constructor; exact E].
  exists (Some (to_arr 32 (content b))). constructor. unfold to_arr. cbn [abytes]. unfold take_pad. rewrite firstn_app, E, Nat.sub_diag, firstn_O, app_nil_r, firstn_all2; [reflexivity|lia].
Qed.

Lemma msg_keys_sound : forall v k, msg_keys_member v k -> msg_keys_of v = Ok k.
Proof. intros v k []. reflexivity. Qed.
Lemma msg_keys_null : forall l, Forall (fun v => v = VPtr None \/ exists k, msg_keys_member v k) l -> In (VPtr None) l -> map_res msg_keys_of l = Panic.
Proof.
  induction 1 as [|v l [->|(k & K)] _ IH]; intros I; [destruct I|reflexivity|]. cbn [map_res]. rewrite (msg_keys_sound _ _ K). cbn [bind]. destruct I as [->|I]; [inversion K|]. rewrite (IH I). reflexivity.
Qed.
Lemma msg_keys_all : forall l r, Forall2 msg_keys_member l r -> map_res msg_keys_of l = Ok r.
Proof. intros l r H. apply map_res_of_ok. induction H; constructor; [apply msg_keys_sound|]; assumption. Qed.

Ltac typed_list H := repeat match type of H with
  | have_tys ?vs (_ :: _) => let v := fresh "v" in let vs' := fresh "vs" in destruct vs as [|v vs']; [exfalso; exact H|]; let T := fresh "T" in destruct H as (T & H)
  | have_tys ?vs [] => destruct vs; [clear H|exfalso; exact H]
  end.
Ltac typed := repeat match goal with
  | H : has_ty ?v TU32 |- _ => is_var v; destruct v as [|?|?|?|[|]|[|]]; try (exfalso; exact H); []
  | H : has_ty ?v TInt |- _ => is_var v; destruct v as [|?|?|?|[|]|[|]]; try (exfalso; exact H); []
  | H : has_ty ?v TBool |- _ => is_var v; destruct v as [|?|?|?|[|]|[|]]; try (exfalso; exact H); []
  | H : has_ty ?v TBytes |- _ => is_var v; destruct v as [|?|?|?|[|]|[|]]; try (exfalso; exact H); []
  | H : has_ty ?v (TPtr _) |- _ => is_var v; destruct v as [| | | |v|[|]]; try (exfalso; exact H); []
  | H : has_ty ?v (TSlice _) |- _ => is_var v; destruct v as [| | | |[|]|v]; try (exfalso; exact H); []
  end.
Lemma typed_elements : forall l t, has_ty (VSlice l) (TSlice t) -> Forall (fun v => has_ty v t) (elements l).
Proof. intros [l|] t H; [apply has_slice; exact H|constructor]. Qed.
Lemma typed_ptr : forall v fs, has_ty v (TPtr fs) -> v = VPtr None \/ exists vs, v = VPtr (Some vs) /\ have_tys vs fs.
Proof. intros v fs H. destruct v as [| | | |[vs|]|[|]]; try (exfalso; exact H); [right; exists vs; split; [reflexivity|apply has_ptr; exact H]|left; reflexivity]. Qed.
Lemma msg_keys_total : forall v, has_ty v (TPtr msg_keys_ty) -> v = VPtr None \/ exists k, msg_keys_member v k.
Proof.
  intros v H. destruct (typed_ptr _ _ H) as [->|(vs & -> & T)]; [left; reflexivity|right]. unfold msg_keys_ty in T. typed_list T. typed. eexists. constructor.
Qed.
Lemma all_or_null : forall (l : list gval) A (R : gval -> A -> Prop), Forall (fun v => v = VPtr None \/ exists k, R v k) l -> In (VPtr None) l \/ exists r, Forall2 R l r.
Proof.
  intros l A R H. induction H as [|v l [->|(k & K)] _ IH]; [right; exists []; constructor|left; left; reflexivity|].
  destruct IH as [I|(r & F)]; [left; right; exact I|right; exists (k :: r); constructor; assumption].
Qed.

Definition typed_chain (v : gval) : Prop := has_ty v (TPtr chain_ty).
Lemma elements_items : forall l, elements l = items l.
Proof. intros [l|]; reflexivity. Qed.
Lemma chain_sound : forall v f, typed_chain v -> chain_member v f -> chain_of v = result f.
Proof.
  intros v f T H. destruct H as [|pub priv ck ms K|pub priv ck ms K|pub priv ck ms k K G|pub priv key i ms k p keys K P M]; [reflexivity| | | |]; cbn [chain_of]; rewrite (key_sound _ _ K); cbn [result bind]; [reflexivity|reflexivity| |].
  - unfold typed_chain in T. apply (proj1 (has_ptr _ _)) in T. cbn [have_tys chain_ty] in T. destruct T as (_ & _ & T1 & T2 & _).
    assert (F : Forall (fun v => v = VPtr None \/ exists k, msg_keys_member v k) (items ms)).
    { rewrite <- elements_items. eapply Forall_impl; [|exact (typed_elements _ _ T2)]. exact msg_keys_total. }
    rewrite elements_items in G. destruct (all_or_null _ _ _ F) as [I|(r & M)]; [rewrite (msg_keys_null _ F I); reflexivity|].
    destruct G as [->|I]; [|rewrite (msg_keys_null _ F I); reflexivity]. rewrite (msg_keys_all _ _ M). reflexivity.
  - rewrite elements_items in M. rewrite (msg_keys_all _ _ M). cbn [bind chain_key_of]. rewrite (private_sound _ _ P). reflexivity.
Qed.
Lemma chain_total : forall v, typed_chain v -> exists f, chain_member v f /\ f <> Unreadable.
Proof.
  intros v H. destruct (typed_ptr _ _ H) as [->|(vs & -> & T)]; [exists Crashes; split; [constructor|discriminate]|]. unfold chain_ty in T. typed_list T. rename T3 into TM, T2 into TC. typed. rename b0 into pub, b into priv, v2 into ms.
  destruct (key_total pub) as ([k| | |] & K & N); [| |exfalso; apply N; reflexivity|].
  - destruct (all_or_null (elements ms) _ msg_keys_member) as [I|(r & M)].
    + eapply Forall_impl; [|exact (typed_elements _ _ TM)]. exact msg_keys_total.
    + exists Crashes. split; [|discriminate]. apply (Chain_gap _ _ _ _ k K). right. exact I.
    + destruct (typed_ptr _ _ TC) as [E|(vs & E & T)].
      * exists Crashes. split; [|discriminate]. apply (Chain_gap _ _ _ _ k K). left. exact E.
      * rewrite E. unfold chain_key_ty in T. typed_list T. typed. destruct (private_total priv) as (p & P). eexists. split; [apply (Chain_good _ _ _ _ _ k p r K P M)|discriminate].
  - exists Refused. split; [apply Chain_bad_key; exact K|discriminate].
  - exists Crashes. split; [apply Chain_no_key; exact K|discriminate].
Qed.

Lemma key_det : forall b f g, key_member b f -> key_member b g -> f = g.
Proof. intros b f g F G. apply result_inj. rewrite <- (key_sound _ _ F), <- (key_sound _ _ G). reflexivity. Qed.
Lemma chain_det : forall v f g, typed_chain v -> chain_member v f -> chain_member v g -> f = g.
Proof. intros v f g T F G. apply result_inj. rewrite <- (chain_sound _ _ T F), <- (chain_sound _ _ T G). reflexivity. Qed.

Lemma optional_sound : forall v o, optional_member v o -> opt_u32_of v = o.
Proof. intros v o []; reflexivity. Qed.
Lemma optional_total : forall v, has_ty (VPtr v) (TPtr opt_u32_ty) -> exists o, optional_member v o.
Proof.
  intros [vs|] H; [|exists None; constructor]. apply (proj1 (has_ptr _ _)) in H. unfold opt_u32_ty in H. typed_list H. typed. eexists. constructor.
Qed.
Definition typed_pending (v : option (list gval)) : Prop := has_ty (VPtr v) (TPtr pp_ty).
Lemma pending_sound : forall v f, pending_member v f -> pp_of v = result f.
Proof.
  intros v f [|id n b K|id n b K|id n b o k K O]; [reflexivity| | |]; cbn [pp_of]; rewrite (key_sound _ _ K); [reflexivity|reflexivity|]. cbn [result bind]. rewrite (optional_sound _ _ O). reflexivity.
Qed.
Lemma pending_total : forall v, typed_pending v -> exists f, pending_member v f /\ f <> Unreadable.
Proof.
  intros [vs|] H; [|exists (Loads None); split; [constructor|discriminate]]. apply (proj1 (has_ptr _ _)) in H. unfold pp_ty in H. typed_list H. rename T into TI. typed. destruct (optional_total _ TI) as (o & O).
  match goal with |- exists f, pending_member (Some [_; _; VBytes ?b]) f /\ _ => destruct (key_total b) as ([k| | |] & K & N) end; [| |exfalso; apply N; reflexivity|].
  - eexists. split; [apply (Pending_good _ _ _ o k K O)|discriminate].
  - exists Refused. split; [apply Pending_bad_key; exact K|discriminate].
  - exists Crashes. split; [apply Pending_no_key; exact K|discriminate].
Qed.
Lemma pending_det : forall b f g, pending_member b f -> pending_member b g -> f = g.
Proof. intros b f g F G. apply result_inj. rewrite <- (pending_sound _ _ F), <- (pending_sound _ _ G). reflexivity. Qed.
Lemma exchange_sound : forall v o, exchange_member v o -> px_of v = o.
Proof.
  intros v o [|n a b c d e f a' b' c' d' e' f' H1 H2 H3 H4 H5 H6]; [reflexivity|]. cbn [px_of].
  change nb with content. rewrite (cut_to_arr _ _ _ H1), (cut_to_arr _ _ _ H2), (cut_to_arr _ _ _ H3), (cut_to_arr _ _ _ H4), (cut_to_arr _ _ _ H5), (cut_to_arr _ _ _ H6). reflexivity.
Qed.
Lemma exchange_total : forall v, has_ty (VPtr v) (TPtr px_ty) -> exists o, exchange_member v o.
Proof.
  intros [vs|] H; [|exists None; constructor]. apply (proj1 (has_ptr _ _)) in H. unfold px_ty in H. typed_list H. typed. eexists. constructor; apply to_arr_cut.
Qed.

(** * States *)
Definition typed_state (v : gval) : Prop := has_ty v (TPtr state_ty).
Lemma no_crash_panics : forall A (f : fate A), f <> Crashes -> panics (result f) = false.
Proof. intros A [a| | |] N; try reflexivity. exfalso. apply N. reflexivity. Qed.
Lemma chains_no_crash : forall l, Forall typed_chain l -> (forall c, In c l -> ~ chain_member c Crashes) -> existsb panics (map chain_of l) = false.
Proof.
  induction 1 as [|c l T _ IH]; intros N; [reflexivity|]. cbn [map existsb]. rewrite IH by (intros x I; apply N; right; exact I). rewrite orb_false_r.
  destruct (chain_total _ T) as (f & F & _). rewrite (chain_sound _ _ T F). apply no_crash_panics. intros ->. exact (N c (or_introl eq_refl) F).
Qed.
Lemma chains_crash : forall l c, Forall typed_chain l -> In c l -> chain_member c Crashes -> existsb panics (map chain_of l) = true.
Proof.
  intros l c T I F. apply existsb_exists. exists (chain_of c). split; [apply in_map; exact I|]. rewrite Forall_forall in T. rewrite (chain_sound _ _ (T c I) F). reflexivity.
Qed.
Lemma chains_refused : forall l, Forall typed_chain l -> (forall c, In c l -> ~ chain_member c Crashes) -> (exists c, In c l /\ chain_member c Refused) -> map_res (fun r => r) (map chain_of l) = Err EBadKeyType.
Proof.
  induction 1 as [|c l T Tl IH]; intros N (x & I & R); [destruct I|]. cbn [map map_res]. destruct (chain_total _ T) as ([a| | |] & F & U); [| |exfalso; apply U; reflexivity|exfalso; exact (N c (or_introl eq_refl) F)]; rewrite (chain_sound _ _ T F); cbn [result bind].
  - rewrite IH; [reflexivity|intros y Y; apply N; right; exact Y|]. destruct I as [->|I]; [discriminate (chain_det _ _ _ T F R)|exists x; split; assumption].
  - reflexivity.
Qed.
Lemma chains_fine : forall l r, Forall typed_chain l -> Forall2 (fun c c' => chain_member c (Loads c')) l r -> map_res (fun r => r) (map chain_of l) = Ok r.
Proof.
  intros l r T F. induction F as [|c c' l r H _ IH]; [reflexivity|]. inversion T as [|? ? Tc Tl]; subst. cbn [map map_res]. rewrite (chain_sound _ _ Tc H). cbn [result bind]. rewrite (IH Tl). reflexivity.
Qed.
Lemma chains_cases : forall l, Forall typed_chain l ->
  (exists c, In c l /\ chain_member c Crashes) \/ (forall c, In c l -> ~ chain_member c Crashes) /\ ((exists c, In c l /\ chain_member c Refused) \/ exists r, Forall2 (fun c c' => chain_member c (Loads c')) l r).
Proof.
  induction 1 as [|c l T Tl IH]; [right; split; [intros c []|right; exists []; constructor]|]. destruct (chain_total _ T) as ([a| | |] & F & U); [| |exfalso; apply U; reflexivity|].
  - destruct IH as [(x & I & X)|(N & IH)]; [left; exists x; split; [right; exact I|exact X]|]. right. split; [intros y [<-|I] Y; [discriminate (chain_det _ _ _ T F Y)|exact (N y I Y)]|].
    destruct IH as [(x & I & X)|(r & R)]; [left; exists x; split; [right; exact I|exact X]|right; exists (a :: r); constructor; assumption].
  - destruct IH as [(x & I & X)|(N & _)]; [left; exists x; split; [right; exact I|exact X]|]. right. split; [intros y [<-|I] Y; [discriminate (chain_det _ _ _ T F Y)|exact (N y I Y)]|].
    left. exists c. split; [left; reflexivity|exact F].
  - left. exists c. split; [left; reflexivity|exact F].
Qed.

Lemma state_sound : forall v f, typed_state v -> state_member v f -> state_of v = result f.
Proof.
  intros v f T H. destruct H as [|li lreg nr px pp pc rcs ri rreg rk bk sc ver H|li lreg nr px pp pc rcs ri rreg rk bk sc ver N1 N2 N3 N4 N5 N6 R|li lreg nr px pp pc rcs ri rreg rk bk sc ver li' px' pp' rcs' ri' bk' sc' H1 H2 H3 H4 H5 H6 H7];
    [reflexivity| | |]; unfold typed_state in T; apply (proj1 (has_ptr _ _)) in T; cbn [have_tys state_ty] in T; destruct T as (_ & _ & _ & _ & TP & _ & TR & _ & _ & _ & _ & TS & _); apply typed_elements in TR; cbn [state_of]; cbv zeta.
  - assert (X : panics (decode_point (nb li)) || panics (decode_point (nb ri)) || panics (decode_point (nb bk)) || panics (pp_of pp) || panics (chain_of sc) || existsb panics (map chain_of (items rcs)) = true).
    { destruct H as [H|[H|[H|[H|[H|(c & I & H)]]]]].
      - rewrite (key_sound _ _ H). reflexivity.
      - rewrite (key_sound _ _ H). cbn [result panics]. rewrite ?orb_true_r. reflexivity.
      - rewrite (key_sound _ _ H). cbn [result panics]. rewrite ?orb_true_r. reflexivity.
      - rewrite (pending_sound _ _ H). cbn [result panics]. rewrite ?orb_true_r. reflexivity.
      - rewrite (chain_sound _ _ TS H). cbn [result panics]. rewrite ?orb_true_r. reflexivity.
      - rewrite (chains_crash (items rcs) c TR I H). rewrite ?orb_true_r. reflexivity. }
    rewrite X. reflexivity.
  - destruct (key_total li) as (f1 & F1 & U1). destruct (key_total ri) as (f2 & F2 & U2). destruct (key_total bk) as (f3 & F3 & U3). destruct (pending_total pp TP) as (f4 & F4 & U4). destruct (chain_total sc TS) as (f5 & F5 & U5).
    rewrite (key_sound _ _ F1), (key_sound _ _ F2), (key_sound _ _ F3), (pending_sound _ _ F4), (chain_sound _ _ TS F5). change (items rcs) with (elements rcs). rewrite (chains_no_crash _ TR N6).
    rewrite !no_crash_panics by (intros ->; contradiction). cbn [orb].
    destruct f1 as [k1| | |]; [|reflexivity|exfalso; apply U1; reflexivity|contradiction]. cbn [result bind].
    destruct f2 as [k2| | |]; [|reflexivity|exfalso; apply U2; reflexivity|contradiction]. cbn [result bind].
    destruct f3 as [k3| | |]; [|reflexivity|exfalso; apply U3; reflexivity|contradiction]. cbn [result bind].
    destruct f4 as [k4| | |]; [|reflexivity|exfalso; apply U4; reflexivity|contradiction]. cbn [result bind].
    destruct f5 as [k5| | |]; [|reflexivity|exfalso; apply U5; reflexivity|contradiction]. cbn [result bind].
    destruct R as [R|[R|[R|[R|[R|R]]]]]; [discriminate (key_det _ _ _ F1 R)|discriminate (key_det _ _ _ F2 R)|discriminate (key_det _ _ _ F3 R)|discriminate (pending_det _ _ _ F4 R)|discriminate (chain_det _ _ _ TS F5 R)|].
    rewrite (chains_refused _ TR N6 R). reflexivity.
  - rewrite (key_sound _ _ H1), (key_sound _ _ H2), (key_sound _ _ H3), (pending_sound _ _ H4), (chain_sound _ _ TS H5), (exchange_sound _ _ H7). cbn [result panics orb bind]. change (items rcs) with (elements rcs).
    rewrite (chains_fine _ _ TR H6). rewrite chains_no_crash; [reflexivity|exact TR|]. intros c I X. clear -TR H6 I X.
    induction H6 as [|a b l r H _ IH]; [destruct I|]. inversion TR as [|? ? Ta Tl]; subst. destruct I as [->|I]; [discriminate (chain_det _ _ _ Ta H X)|exact (IH Tl I)].
Qed.
Lemma state_total : forall v, typed_state v -> exists f, state_member v f /\ f <> Unreadable.
Proof.
  intros v H. destruct (typed_ptr _ _ H) as [->|(vs & -> & T)]; [exists Crashes; split; [constructor|discriminate]|]. clear H. unfold state_ty in T.
  do 13 (destruct vs as [|? vs]; [exfalso; cbn [have_tys] in T; decompose [and] T; assumption|]). destruct vs; [|exfalso; cbn [have_tys] in T; decompose [and] T; assumption].
  cbn [have_tys] in T. destruct T as (T1 & T2 & T3 & T4 & T5 & T6 & T7 & T8 & T9 & T10 & T11 & T12 & T13 & _). change (has_ty g10 (TPtr chain_ty)) with (typed_chain g10) in T12. typed.
  pose proof (typed_elements _ _ T7) as TR.
  destruct (exchange_total _ T4) as (xo & XO).
  match goal with |- exists f, state_member (VPtr (Some [VBytes ?li; _; _; _; VPtr ?pp; _; VSlice ?rcs; VBytes ?ri; _; _; VBytes ?bk; ?sc; _])) f /\ _ =>
    destruct (key_total li) as (f1 & F1 & U1); destruct (key_total ri) as (f2 & F2 & U2); destruct (key_total bk) as (f3 & F3 & U3); destruct (pending_total pp T5) as (f4 & F4 & U4); destruct (chain_total sc T12) as (f5 & F5 & U5);
    destruct (chains_cases _ TR) as [C6|(C6 & F6)] end; [exists Crashes; split; [apply State_crash; tauto|discriminate]|].
  destruct f1 as [k1| | |]; [| |exfalso; apply U1; reflexivity|exists Crashes; split; [apply State_crash; tauto|discriminate]].
  all: destruct f2 as [k2| | |]; [| |exfalso; apply U2; reflexivity|exists Crashes; split; [apply State_crash; tauto|discriminate]].
  all: destruct f3 as [k3| | |]; [| |exfalso; apply U3; reflexivity|exists Crashes; split; [apply State_crash; tauto|discriminate]].
  all: destruct f4 as [k4| | |]; [| |exfalso; apply U4; reflexivity|exists Crashes; split; [apply State_crash; tauto|discriminate]].
  all: destruct f5 as [k5| | |]; [| |exfalso; apply U5; reflexivity|exists Crashes; split; [apply State_crash; tauto|discriminate]].
  2-32: exists Refused; (split; [|discriminate]); apply State_refused; [intros X; discriminate (key_det _ _ _ F1 X)|intros X; discriminate (key_det _ _ _ F2 X)|intros X; discriminate (key_det _ _ _ F3 X)|
    intros X; discriminate (pending_det _ _ _ F4 X)|intros X; discriminate (chain_det _ _ _ T12 F5 X)|exact C6|tauto].
  destruct F6 as [R|(r & F6)].
  - exists Refused. split; [|discriminate]. apply State_refused; [intros X; discriminate (key_det _ _ _ F1 X)|intros X; discriminate (key_det _ _ _ F2 X)|intros X; discriminate (key_det _ _ _ F3 X)|
    intros X; discriminate (pending_det _ _ _ F4 X)|intros X; discriminate (chain_det _ _ _ T12 F5 X)|exact C6|tauto].
  - eexists. split; [eapply State_good; eassumption|discriminate].
Qed.

(** * Sequences and files *)
Lemma sequence_sound : forall A (of : gval -> res A) (member : gval -> fate A -> Prop) (ok : gval -> Prop), (forall v f, ok v -> member v f -> of v = result f) ->
  forall l f, Forall ok l -> sequence member l f -> map_res of l = result f.
Proof.
  intros A of member ok S l f T H. induction H as [|v l H|v l H|v a l f H _ IH N|v a l r H _ IH]; [reflexivity| | | |]; inversion T as [|? ? Tv Tl]; subst; cbn [map_res]; rewrite (S _ _ Tv H); cbn [result bind]; [reflexivity|reflexivity| |]; rewrite (IH Tl).
  - destruct f as [x| | |]; [exfalso; exact (N x eq_refl)|reflexivity|reflexivity|reflexivity].
  - reflexivity.
Qed.
Lemma sequence_total : forall A (member : gval -> fate A -> Prop) (ok : gval -> Prop), (forall v, ok v -> exists f, member v f /\ f <> Unreadable) ->
  forall l, Forall ok l -> exists f, sequence member l f /\ f <> Unreadable.
Proof.
  intros A member ok S l T. induction T as [|v l Tv _ (f & F & U)]; [exists (Loads []); split; [constructor|discriminate]|].
  destruct (S v Tv) as ([a| | |] & H & N); [| |exfalso; apply N; reflexivity|].
  - destruct f as [r| | |]; [exists (Loads (a :: r)); split; [apply Seq_good; assumption|discriminate]|exists Refused; split; [apply (Seq_stop _ v a); [exact H|exact F|discriminate]|discriminate]|exfalso; apply U; reflexivity|
      exists Crashes; split; [apply (Seq_stop _ v a); [exact H|exact F|discriminate]|discriminate]].
  - exists Refused. split; [apply Seq_refused; exact H|discriminate].
  - exists Crashes. split; [apply Seq_crash; exact H|discriminate].
Qed.

Lemma unmarshal_cases : forall fs s, (exists vs, structure_read fs s vs /\ unmarshal fs s = Ok vs /\ have_tys vs fs) \/ (forall vs, ~ structure_read fs s vs) /\ unmarshal fs s = Err EDecode.
Proof.
  intros fs s. destruct (unmarshal fs s) as [vs|e|] eqn:E.
  - left. exists vs. split; [apply unmarshal_exact; exact E|]. split; [reflexivity|exact (unmarshal_typed _ _ _ E)].
  - right. assert (N : forall vs, ~ structure_read fs s vs) by (intros vs R; apply unmarshal_exact in R; rewrite R in E; discriminate E). split; [exact N|]. rewrite (unmarshal_err _ _ _ E). reflexivity.
  - exfalso. exact (unmarshal_no_panic _ _ E).
Qed.
Lemma read_unmarshal : forall fs s vs, structure_read fs s vs -> unmarshal fs s = Ok vs /\ have_tys vs fs.
Proof. intros fs s vs R. apply unmarshal_exact in R. split; [exact R|exact (unmarshal_typed _ _ _ R)]. Qed.
Lemma unread_unmarshal : forall fs s, (forall vs, ~ structure_read fs s vs) -> unmarshal fs s = Err EDecode.
Proof. intros fs s N. destruct (unmarshal_cases fs s) as [(vs & R & _)|(_ & E)]; [exfalso; exact (N vs R)|exact E]. Qed.

Lemma session_sound : forall s f, session_file s f -> load_session s = result f.
Proof.
  intros s f H. unfold load_session. destruct H as [s N|s cur prev R H|s cur prev R H|s cur prev p R H1 H2|s cur prev p R H1 H2|s cur prev p c R H1 H2]; [rewrite (unread_unmarshal session_ty _ N); reflexivity| | | | |];
    destruct (read_unmarshal session_ty _ _ R) as (E & T); rewrite E; cbn [bind record_of]; cbn [have_tys session_ty] in T; destruct T as (TC & TP & _); apply typed_elements in TP; change (items prev) with (elements prev).
  - rewrite (sequence_sound _ _ _ _ state_sound _ _ TP H). reflexivity.
  - rewrite (sequence_sound _ _ _ _ state_sound _ _ TP H). reflexivity.
  - rewrite (sequence_sound _ _ _ _ state_sound _ _ TP H1), (state_sound _ _ TC H2). reflexivity.
  - rewrite (sequence_sound _ _ _ _ state_sound _ _ TP H1), (state_sound _ _ TC H2). reflexivity.
  - rewrite (sequence_sound _ _ _ _ state_sound _ _ TP H1), (state_sound _ _ TC H2). reflexivity.
Qed.
Lemma session_total : forall s, exists f, session_file s f.
Proof.
  intros s. destruct (unmarshal_cases session_ty s) as [(vs & R & _ & T)|(N & _)]; [|exists Unreadable; apply Session_unreadable; exact N]. unfold session_ty in T. typed_list T. rename T0 into TC, T1 into TP.
  destruct v0 as [| | | |[|]|prev]; try (exfalso; exact TP). destruct (sequence_total _ _ _ state_total _ (typed_elements _ _ TP)) as ([p| | |] & F & U); [| |exfalso; apply U; reflexivity|].
  - destruct (state_total v TC) as ([c| | |] & G & V); [| |exfalso; apply V; reflexivity|]; eexists.
    + eapply Session_good; eassumption.
    + eapply Session_refused; eassumption.
    + eapply Session_crash; eassumption.
  - eexists. eapply Session_archive_refused; eassumption.
  - eexists. eapply Session_archive_crash; eassumption.
Qed.
Lemma file_exact : forall A (load : bytes -> res A) (file : bytes -> fate A -> Prop), (forall s f, file s f -> load s = result f) -> (forall s, exists f, file s f) -> forall s f, file s f <-> load s = result f.
Proof. intros A load file S T s f. split; [apply S|]. intros E. destruct (T s) as (g & G). rewrite (S _ _ G) in E. apply result_inj in E. rewrite <- E. exact G. Qed.

(** * Group senders *)
Lemma sender_msg_key_sound : forall v k, sender_msg_key_member v k -> gmsg_key_of v = Ok k.
Proof. intros v k []. reflexivity. Qed.
Lemma sender_msg_keys_null : forall l, Forall (fun v => v = VPtr None \/ exists k, sender_msg_key_member v k) l -> In (VPtr None) l -> map_res gmsg_key_of l = Panic.
Proof.
  induction 1 as [|v l [->|(k & K)] _ IH]; intros I; [destruct I|reflexivity|]. cbn [map_res]. rewrite (sender_msg_key_sound _ _ K). cbn [bind]. destruct I as [->|I]; [inversion K|]. rewrite (IH I). reflexivity.
Qed.
Lemma sender_msg_keys_all : forall l r, Forall2 sender_msg_key_member l r -> map_res gmsg_key_of l = Ok r.
Proof. intros l r H. apply map_res_of_ok. induction H; constructor; [apply sender_msg_key_sound|]; assumption. Qed.
Lemma sender_msg_key_total : forall v, has_ty v (TPtr gmsg_key_ty) -> v = VPtr None \/ exists k, sender_msg_key_member v k.
Proof. intros v H. destruct (typed_ptr _ _ H) as [->|(vs & -> & T)]; [left; reflexivity|right]. unfold gmsg_key_ty in T. typed_list T. typed. eexists. constructor. Qed.
Definition typed_sender (v : gval) : Prop := has_ty v (TPtr gstate_ty).
Lemma sender_state_sound : forall v f, typed_sender v -> sender_state_member v f -> gstate_of v = result f.
Proof.
  intros v f T H. destruct H as [|ks id ck priv pub K|ks id ck priv pub K|ks id ck priv pub k K G|ks id i key priv pub k p keys K P M]; [reflexivity| | | |]; cbn [gstate_of]; rewrite (key_sound _ _ K); cbn [result bind]; [reflexivity|reflexivity| |].
  - unfold typed_sender in T. apply (proj1 (has_ptr _ _)) in T. cbn [have_tys gstate_ty] in T. destruct T as (T1 & _ & T2 & _).
    assert (F : Forall (fun v => v = VPtr None \/ exists k, sender_msg_key_member v k) (items ks)).
    { change (items ks) with (elements ks). eapply Forall_impl; [|exact (typed_elements _ _ T1)]. exact sender_msg_key_total. }
    change (elements ks) with (items ks) in G. destruct (all_or_null _ _ _ F) as [I|(r & M)]; [rewrite (sender_msg_keys_null _ F I); reflexivity|].
    destruct G as [->|I]; [|rewrite (sender_msg_keys_null _ F I); reflexivity]. rewrite (sender_msg_keys_all _ _ M). reflexivity.
  - change (elements ks) with (items ks) in M. rewrite (sender_msg_keys_all _ _ M). cbn [bind gchain_of]. change nb with content. rewrite (cut_to_arr _ _ _ P). reflexivity.
Qed.
Lemma sender_state_total : forall v, typed_sender v -> exists f, sender_state_member v f /\ f <> Unreadable.
Proof.
  intros v H. destruct (typed_ptr _ _ H) as [->|(vs & -> & T)]; [exists Crashes; split; [constructor|discriminate]|]. clear H. unfold gstate_ty in T.
  do 5 (destruct vs as [|? vs]; [exfalso; cbn [have_tys] in T; decompose [and] T; assumption|]). destruct vs; [|exfalso; cbn [have_tys] in T; decompose [and] T; assumption].
  cbn [have_tys] in T. destruct T as (T1 & T2 & T3 & T4 & T5 & _). destruct g as [| | | |[|]|ks]; try (exfalso; exact T1). destruct g0 as [id| | | |[|]|[|]]; try (exfalso; exact T2).
  destruct g2 as [| | |priv|[|]|[|]]; try (exfalso; exact T4). destruct g3 as [| | |pub|[|]|[|]]; try (exfalso; exact T5). rename g1 into ck.
  destruct (key_total pub) as ([k| | |] & K & N); [| |exfalso; apply N; reflexivity|].
  - destruct (all_or_null (elements ks) _ sender_msg_key_member) as [I|(r & M)].
    + eapply Forall_impl; [|exact (typed_elements _ _ T1)]. exact sender_msg_key_total.
    + exists Crashes. split; [|discriminate]. apply (Sender_gap _ _ _ _ _ k K). right. exact I.
    + destruct (typed_ptr _ _ T3) as [E|(vs & E & T)].
      * exists Crashes. split; [|discriminate]. apply (Sender_gap _ _ _ _ _ k K). left. exact E.
      * rewrite E. unfold gchain_ty in T. typed_list T. typed. eexists. split; [apply (Sender_good _ _ _ _ _ _ k _ r K (to_arr_cut _ _) M)|discriminate].
  - exists Refused. split; [apply Sender_bad_key; exact K|discriminate].
  - exists Crashes. split; [apply Sender_no_key; exact K|discriminate].
Qed.
Lemma sender_sound : forall s f, sender_file s f -> load_sender_key s = result f.
Proof.
  intros s f H. unfold load_sender_key. destruct H as [s N|s l f R H]; [rewrite (unread_unmarshal sender_key_ty _ N); reflexivity|].
  destruct (read_unmarshal sender_key_ty _ _ R) as (E & T). rewrite E. cbn [bind grecord_of]. cbn [have_tys sender_key_ty] in T. destruct T as (T & _). apply typed_elements in T.
  exact (sequence_sound _ _ _ _ sender_state_sound _ _ T H).
Qed.
Lemma sender_total : forall s, exists f, sender_file s f.
Proof.
  intros s. destruct (unmarshal_cases sender_key_ty s) as [(vs & R & _ & T)|(N & _)]; [|exists Unreadable; apply Sender_unreadable; exact N]. unfold sender_key_ty in T. typed_list T.
  destruct v as [| | | |[|]|l]; try (exfalso; exact T0). destruct (sequence_total _ _ _ sender_state_total _ (typed_elements _ _ T0)) as (f & F & _). exists f. exact (Sender_states s l f R F).
Qed.

(** * Prekeys *)
Lemma prekey_sound : forall s f, prekey_file s f -> match f with Loads (id, p, k) => exists r, load_prekey s = Ok r /\ pkr_id r = ou_some id /\ kr_pair r = {| kp_pub := p; kp_priv := Some k |} | Unreadable => load_prekey s = Err EDecode | _ => False end.
Proof.
  intros s f H. unfold load_prekey. destruct H as [s N|s id pub priv p k R P K]; [rewrite (unread_unmarshal prekey_ty _ N); reflexivity|].
  destruct (read_unmarshal prekey_ty _ _ R) as (E & _). rewrite E. cbn [bind prekey_of]. eexists. split; [reflexivity|]. split; [reflexivity|]. cbn [pkr_from_struct kr_pair ks_pub ks_priv]. change nb with content. rewrite (cut_to_arr _ _ _ P), (cut_to_arr _ _ _ K). reflexivity.
Qed.
Lemma prekey_total : forall s, exists f, prekey_file s f.
Proof.
  intros s. destruct (unmarshal_cases prekey_ty s) as [(vs & R & _ & T)|(N & _)]; [|exists Unreadable; apply Prekey_unreadable; exact N]. unfold prekey_ty in T. typed_list T. typed.
  eexists. eapply Prekey_good; [exact R|apply to_arr_cut|apply to_arr_cut].
Qed.
Lemma signed_prekey_sound : forall s f, signed_prekey_file s f -> match f with Loads (id, p, k, g, time) => exists r, load_signed_prekey s = Ok r /\ zs_id (zr_struct r) = id /\ zs_time (zr_struct r) = time /\
  zr_pair r = {| kp_pub := p; kp_priv := Some k |} /\ zr_sig r = g | Unreadable => load_signed_prekey s = Err EDecode | _ => False end.
Proof.
  intros s f H. unfold load_signed_prekey. destruct H as [s N|s id pub priv sig time p k g R P K G]; [rewrite (unread_unmarshal signed_prekey_ty _ N); reflexivity|].
  destruct (read_unmarshal signed_prekey_ty _ _ R) as (E & _). rewrite E. cbn [bind signed_prekey_of]. eexists. split; [reflexivity|]. split; [reflexivity|]. split; [reflexivity|]. cbn [skr_from_struct zr_pair zr_sig zs_pub zs_priv zs_sig]. change nb with content. rewrite (cut_to_arr _ _ _ P), (cut_to_arr _ _ _ K), (cut_to_arr _ _ _ G). split; reflexivity.
Qed.
Lemma signed_prekey_total : forall s, exists f, signed_prekey_file s f.
Proof.
  intros s. destruct (unmarshal_cases signed_prekey_ty s) as [(vs & R & _ & T)|(N & _)]; [|exists Unreadable; apply Signed_unreadable; exact N]. unfold signed_prekey_ty in T. typed_list T. typed.
  eexists. eapply Signed_good; [exact R|apply to_arr_cut|apply to_arr_cut|apply to_arr_cut].
Qed.
