(** LoggerProofs.v: proofs for C90. *)
From Verif Require Import Base Itoa Logger LoggerSpec.
From Coq Require Import String List.
Import ListNotations.
Local Open Scope list_scope.

Lemma split_not_nil : forall sep l, split_on sep l <> [].
Proof. intros sep [|b r]; cbn [split_on]; [discriminate|]. destruct (Byte.eqb b sep); [discriminate|]. destruct (split_on sep r); discriminate. Qed.

(** The parts are those that joined by separators give the text, and none holds a separator. *)
Fixpoint join (sep : byte) (l : list bytes) : bytes := match l with [] => [] | [p] => p | p :: r => p ++ sep :: join sep r end.
Lemma split_join : forall sep l, join sep (split_on sep l) = l.
Proof.
  intros sep l. induction l as [|b r IH]; [reflexivity|]. cbn [split_on]. destruct (Byte.eqb b sep) eqn:E.
  - apply Byte.byte_dec_bl in E. subst b. destruct (split_on sep r) as [|p ps] eqn:F; [destruct (split_not_nil _ _ F)|].
    change (sep :: join sep (p :: ps) = sep :: r). rewrite IH. reflexivity.
  - destruct (split_on sep r) as [|p ps] eqn:F; [destruct (split_not_nil _ _ F)|]. rewrite <- IH. destruct ps; reflexivity.
Qed.
Lemma split_free : forall sep l p, In p (split_on sep l) -> ~ In sep p.
Proof.
  intros sep l. induction l as [|b r IH]; intros p H; cbn [split_on] in H.
  - destruct H as [<-|[]]. intros [].
  - destruct (Byte.eqb b sep) eqn:E.
    + destruct H as [<-|H]; [intros []|exact (IH _ H)].
    + destruct (split_on sep r) as [|q qs] eqn:F; [destruct (split_not_nil _ _ F)|]. destruct H as [<-|H]; [|exact (IH _ (or_intror H))].
      intros [-> |HI]; [rewrite (Byte.byte_dec_lb eq_refl) in E; discriminate E|exact (IH _ (or_introl eq_refl) HI)].
Qed.
Lemma join_part : forall sep l p, In p l -> exists u v, join sep l = u ++ p ++ v /\ (u = [] \/ exists u', u = u' ++ [sep]) /\ (v = [] \/ exists v', v = sep :: v').
Proof.
  intros sep l. induction l as [|q qs IH]; intros p H; [destruct H|]. destruct H as [-> |H].
  - destruct qs as [|r rs]; [exists [], []|exists [], (sep :: join sep (r :: rs))]; cbn [join app]; rewrite ?app_nil_r; (split; [reflexivity|]); (split; [left; reflexivity|]); [left; reflexivity|right; eexists; reflexivity].
  - destruct (IH _ H) as (u & v & E & HU & HV). destruct qs as [|r rs]; [destruct H|]. exists (q ++ sep :: u), v. change (join sep (q :: r :: rs)) with (q ++ sep :: join sep (r :: rs)).
    rewrite E, <- app_assoc. split; [reflexivity|]. split; [|exact HV]. right. destruct HU as [-> |[u' ->]]; [exists q; reflexivity|]. exists (q ++ sep :: u'). rewrite <- app_assoc. reflexivity.
Qed.
Lemma split_app : forall sep u v, split_on sep (u ++ sep :: v) = split_on sep u ++ split_on sep v.
Proof.
  intros sep u v. induction u as [|b u IH]; cbn [app split_on].
  - rewrite (Byte.byte_dec_lb eq_refl). reflexivity.
  - destruct (Byte.eqb b sep); rewrite IH; [reflexivity|]. destruct (split_on sep u) as [|p ps] eqn:F; [destruct (split_not_nil _ _ F)|]. reflexivity.
Qed.
Lemma split_single : forall sep p, ~ In sep p -> split_on sep p = [p].
Proof.
  intros sep p. induction p as [|b p IH]; intros H; [reflexivity|]. cbn [split_on]. destruct (Byte.eqb b sep) eqn:E.
  - apply Byte.byte_dec_bl in E. destruct H. left. exact E.
  - rewrite IH; [reflexivity|]. intros HI. apply H. right. exact HI.
Qed.
Lemma split_part : forall sep l p, In p (split_on sep l) <-> part sep p l.
Proof.
  intros sep l p. split.
  - intros H. split; [exact (split_free _ _ _ H)|]. destruct (join_part sep _ _ H) as (u & v & E & HU & HV). rewrite split_join in E. exists u, v. split; [exact E|]. split; assumption.
  - intros (HF & u & v & -> & HU & HV). assert (HP := split_single _ _ HF).
    assert (R : In p (split_on sep (p ++ v))).
    { destruct HV as [-> |[v' ->]]; [rewrite app_nil_r, HP; left; reflexivity|]. rewrite split_app, HP. left. reflexivity. }
    destruct HU as [-> |[u' ->]]; [exact R|]. rewrite <- app_assoc. cbn [app]. rewrite split_app. apply in_or_app. right. exact R.
Qed.

Lemma starts_spec : forall p l, starts_with p l = true <-> exists v, l = p ++ v.
Proof.
  induction p as [|x p IH]; intros l; cbn [starts_with].
  - split; [intros _; exists l; reflexivity|reflexivity].
  - destruct l as [|y l]; [split; [discriminate|intros [v H]; discriminate H]|]. rewrite andb_true_iff, IH. split.
    + intros [E [v ->]]. apply Byte.byte_dec_bl in E. subst y. exists v. reflexivity.
    + intros [v H]. injection H as -> ->. split; [apply Byte.byte_dec_lb; reflexivity|exists v; reflexivity].
Qed.
Lemma contains_spec : forall l p, contains p l = true <-> inside p l.
Proof.
  induction l as [|b l IH]; intros p; cbn [contains]; rewrite orb_true_iff, starts_spec.
  - split; [intros [[v H]|H]; [exists [], v; exact H|discriminate H]|]. intros (u & v & H). left. destruct u; [exists v; exact H|discriminate H].
  - rewrite IH. split.
    + intros [[v H]|(u & v & ->)]; [exists [], v; exact H|exists (b :: u), v; reflexivity].
    + intros (u & v & H). destruct u as [|c u]; [left; exists v; exact H|]. injection H as -> ->. right. exists u, v. reflexivity.
Qed.
Lemma through_spec : forall t caller, existsb (fun ns => bytes_eqb ns all_name || contains ns caller) (split_on x2c t) = true <-> lets_through t caller.
Proof.
  intros t caller. rewrite existsb_exists. unfold lets_through. split; intros (p & HP & HQ); exists p.
  - apply split_part in HP. split; [exact HP|]. apply orb_true_iff in HQ. rewrite bytes_eqb_eq, contains_spec in HQ. exact HQ.
  - apply split_part in HP. split; [exact HP|]. apply orb_true_iff. rewrite bytes_eqb_eq, contains_spec. exact HQ.
Qed.

(** * Histories *)

Definition matches (f : in_force) (s : shared) : Prop :=
  match f with
  | Own id => s = Custom id
  | Standard None => s = Unset \/ s = Default None \/ s = Default (Some [all_name])
  | Standard (Some t) => s = Default (Some (split_on x2c t))
  end.
Lemma force_step : forall c f s, matches f s -> matches (force_after [c] f) (fst (lstep c s)).
Proof.
  intros c f s H. destruct c as [[id|]|t|lv path line msg]; cbn [lstep force_after fst matches].
  - reflexivity.
  - left. reflexivity.
  - destruct f as [id|[t'|]]; cbn [matches] in *; [subst s; reflexivity|subst s; reflexivity|]. destruct H as [-> |[-> | ->]]; reflexivity.
  - destruct f as [id|[t'|]]; cbn [matches] in *; [subst s; reflexivity| |].
    + subst s. cbn [ensure_logger]. destruct lv; reflexivity.
    + destruct H as [-> |[-> | ->]]; destruct lv; cbn; auto.
Qed.
Lemma force_app : forall l1 l2 f, force_after (l1 ++ l2) f = force_after l2 (force_after l1 f).
Proof. induction l1 as [|c l1 IH]; intros l2 f; [reflexivity|]. destruct c as [[id|]|t|lv path line msg]; cbn [app force_after]; apply IH. Qed.
Lemma force_run : forall l f s, matches f s -> matches (force_after l f) (fst (lrun l s)).
Proof.
  induction l as [|c l IH]; intros f s H; [exact H|]. change (c :: l) with ([c] ++ l). rewrite force_app. cbn [app lrun].
  assert (H1 := force_step c f s H). destruct (lstep c s) as [s1 o1]. cbn [fst] in H1. specialize (IH _ _ H1). destruct (lrun l s1) as [s2 o2]. exact IH.
Qed.

Lemma log_spec : forall f s lv path line msg, matches f s -> expected f lv (get_caller path line) msg (snd (lstep (LLog lv path line msg) s)).
Proof.
  intros f s lv path line msg H. cbn [lstep]. generalize (get_caller path line). intros caller. destruct f as [id|[t|]]; cbn [matches] in H.
  - subst s. reflexivity.
  - subst s. cbn [ensure_logger]. destruct lv; cbn [default_call should_log ensure_namespaces expected snd]; try reflexivity;
      (destruct (existsb _ (split_on x2c t)) eqn:E; cbn [snd];
       [left; split; [right; exists t; split; [reflexivity|]; apply through_spec; exact E|reflexivity]
       |right; split; [exists t; split; [reflexivity|]; intros HT; apply through_spec in HT; rewrite HT in E; discriminate E|reflexivity]]).
  - destruct H as [-> |[-> | ->]]; destruct lv; cbn; try reflexivity; left; (split; [left; reflexivity|reflexivity]).
Qed.

Lemma base_name_unique : forall path n1 n2, base_name path n1 -> base_name path n2 -> n1 = n2.
Proof.
  assert (K : forall path n, base_name path n -> exists l, split_on x2f path = l ++ [n]).
  { intros path n [HF [-> |[d ->]]]; [exists []; apply split_single; exact HF|]. exists (split_on x2f d). rewrite split_app, (split_single _ _ HF). reflexivity. }
  intros path n1 n2 H1 H2. destruct (K _ _ H1) as [l1 E1]. destruct (K _ _ H2) as [l2 E2]. rewrite E1 in E2. apply app_inj_tail in E2. exact (proj2 E2).
Qed.
Lemma caller_spec : forall path line, exists name, base_name path name /\ get_caller path line = name ++ x3a :: itoa line.
Proof.
  intros path line. unfold get_caller. destruct (rev (split_on x2f path)) as [|n r] eqn:E.
  - apply (f_equal (@rev bytes)) in E. rewrite rev_involutive in E. destruct (split_not_nil _ _ E).
  - exists n. split; [|reflexivity]. apply (f_equal (@rev bytes)) in E. rewrite rev_involutive in E. cbn [rev] in E. split.
    + apply (split_free x2f path). rewrite E. apply in_or_app. right. left. reflexivity.
    + assert (J := split_join x2f path). rewrite E in J. rewrite <- J. clear. induction (rev r) as [|p l IH]; [left; reflexivity|]. right.
      destruct IH as [IH|[d IH]].
      * exists p. destruct l as [|q l]; [reflexivity|]. cbn [app] in *. change (join x2f (p :: q :: l ++ [n])) with (p ++ x2f :: join x2f (q :: l ++ [n])). rewrite IH. reflexivity.
      * exists (p ++ x2f :: d). destruct l as [|q l].
        -- cbn [app join] in IH. cbn [app join]. rewrite IH at 1. rewrite <- app_assoc. reflexivity.
        -- cbn [app] in *. change (join x2f (p :: q :: l ++ [n])) with (p ++ x2f :: join x2f (q :: l ++ [n])). rewrite IH, <- app_assoc. reflexivity.
Qed.
