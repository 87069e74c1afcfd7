(** GroupThreadProofs.v: group calls for different sender key names do not interfere (C77). *)
From Verif Require Import Base Labels Crypto Bytehelper Ecc Cbc Messages SessionState Group Address GroupSpec GroupStoreSpec GroupConvSpec GroupConvProofs GroupThreadSpec.
From Coq Require Import List Lia.
Import ListNotations.

Section Proofs.
Context (C : crypto).

Lemma greact_run : forall c st a es, greact C c st = (a, es) -> gcall_run C c st = (a, gcommit es st).
Proof.
  intros c st a es H. destruct c as [pt g|m|d|g]; cbn [greact gcall_run] in *.
  - unfold gw_encrypt. destruct (group_encrypt C st pt g) as [[[o r] e] g']. injection H as <- <-. reflexivity.
  - unfold gw_decrypt. destruct (group_decrypt C st m) as [[[o m'] r] e]. injection H as <- <-. reflexivity.
  - unfold gw_process. destruct (group_process st d) as [r e]. injection H as <- <-. reflexivity.
  - unfold gw_create. destruct (group_create C st g) as [[[o r] e] g']. injection H as <- <-. reflexivity.
Qed.
Lemma gplay_app : forall l1 l2 st, gplay C (l1 ++ l2) st = (let '(o1, s1) := gplay C l1 st in let '(o2, s2) := gplay C l2 s1 in (o1 ++ o2, s2)).
Proof.
  induction l1 as [|c l1 IH]; intros l2 st; cbn [app gplay]; [destruct (gplay C l2 st); reflexivity|]. destruct (gcall_run C c st) as [a st1]. rewrite IH. destruct (gplay C l1 st1) as [o1 s1]. destruct (gplay C l2 s1). reflexivity.
Qed.
Lemma nth_gset_same : forall A (l : list A) i x y, nth_error l i = Some y -> nth_error (gset i x l) i = Some x.
Proof. induction l as [|z l IH]; intros [|i] x y H; try discriminate H; [reflexivity|exact (IH i x y H)]. Qed.
Lemma nth_gset_other : forall A (l : list A) i j x, i <> j -> nth_error (gset i x l) j = nth_error l j.
Proof. induction l as [|z l IH]; intros [|i] [|j] x N; try reflexivity; [exfalso; apply N; reflexivity|]. cbn [gset nth_error]. apply IH. intros ->. apply N. reflexivity. Qed.
Lemma gset_length : forall A (l : list A) i x, length (gset i x l) = length l.
Proof. induction l as [|z l IH]; intros [|i] x; cbn [gset length]; try reflexivity. rewrite IH. reflexivity. Qed.
Lemma put_eq : forall n (v : option grecord) (w : gstores), put skname_eqb n v w n = v.
Proof. intros n v w. unfold put. rewrite (proj2 (skname_eqb_eq n n) eq_refl). reflexivity. Qed.
Lemma put_neq : forall n k (v : option grecord) (w : gstores), n <> k -> put skname_eqb n v w k = w k.
Proof. intros n k v w N. unfold put. destruct (skname_eqb n k) eqn:E; [exfalso; apply N; apply skname_eqb_eq; exact E|reflexivity]. Qed.

(** What a thread has done so far is a prefix of what it does alone. *)
Definition on_track (w0 w : gstores) (p : skname * list gcall) (t : gthread) : Prop :=
  gt_name t = fst p /\
  exists done st, gplay C done (w0 (fst p)) = (gt_outs t, st) /\
  match gt_busy t with
  | None => snd p = done ++ gt_todo t /\ w (fst p) = st
  | Some (a, es) => exists c, snd p = done ++ c :: gt_todo t /\ gcall_run C c st = (a, gcommit es (w (fst p)))
  end.
Lemma advance_name : forall w t w' t', gadvance C w t = (w', t') -> gt_name t' = gt_name t /\ forall n, n <> gt_name t -> w' n = w n.
Proof.
  intros w t w' t' H. unfold gadvance in H. destruct (gt_busy t) as [[a [|e es]]|].
  - injection H as <- <-. split; [reflexivity|intros n _; reflexivity].
  - injection H as <- <-. split; [reflexivity|intros n N; apply put_neq; intros E; apply N; symmetry; exact E].
  - destruct (gt_todo t); injection H as <- <-; (split; [reflexivity|intros n _; reflexivity]).
Qed.
Lemma advance_on_track : forall w0 w p t w' t', on_track w0 w p t -> gadvance C w t = (w', t') -> on_track w0 w' p t'.
Proof.
  intros w0 w p t w' t' (N & done & st & P & R) H. destruct (advance_name _ _ _ _ H) as (N' & _). split; [rewrite N'; exact N|]. unfold gadvance in H. rewrite N in H. destruct (gt_busy t) as [[a [|e es]]|] eqn:B.
  - injection H as <- <-. cbn [gt_busy gt_outs gt_todo]. destruct R as (c & E & K). exists (done ++ [c]), (w (fst p)). rewrite gplay_app, P. cbn [gplay]. rewrite K. split; [reflexivity|]. split; [|reflexivity]. rewrite <- app_assoc. exact E.
  - injection H as <- <-. cbn [gt_busy gt_outs gt_todo]. destruct R as (c & E & K). exists done, st. split; [exact P|]. exists c. split; [exact E|]. rewrite put_eq. exact K.
  - destruct (gt_todo t) as [|c rest] eqn:T.
    + injection H as <- <-. exists done, st. split; [exact P|]. destruct R as (E & W). rewrite B, T. split; [exact E|exact W].
    + injection H as <- <-. cbn [gt_busy gt_outs gt_todo]. destruct R as (E & <-). exists done, (w (fst p)). split; [exact P|]. destruct (greact C c (w (fst p))) as [a es] eqn:K. exists c. split; [exact E|exact (greact_run _ _ _ _ K)].
Qed.
Lemma other_on_track : forall w0 w w' p t, on_track w0 w p t -> w' (fst p) = w (fst p) -> on_track w0 w' p t.
Proof. intros w0 w w' p t (N & done & st & P & R) E. split; [exact N|]. exists done, st. split; [exact P|]. rewrite E. exact R. Qed.

Lemma interleave_track : forall sched w0 ps w ts w' ts', NoDup (map fst ps) -> (forall i t, nth_error ts i = Some t -> exists p, nth_error ps i = Some p /\ on_track w0 w p t) ->
  ginterleave C sched w ts = (w', ts') ->
  (forall i t, nth_error ts' i = Some t -> exists p, nth_error ps i = Some p /\ on_track w0 w' p t) /\ length ts' = length ts /\ forall n, ~ In n (map fst ps) -> w' n = w n.
Proof.
  induction sched as [|i sched IH]; intros w0 ps w ts w' ts' D I H; cbn [ginterleave] in H; [injection H as <- <-; split; [exact I|split; [reflexivity|intros n _; reflexivity]]|].
  destruct (nth_error ts i) as [t|] eqn:Ti; [|exact (IH _ _ _ _ _ _ D I H)]. destruct (gadvance C w t) as [w1 t1] eqn:A.
  destruct (I i t Ti) as (p & Pi & T). destruct (advance_name _ _ _ _ A) as (_ & O).
  assert (I1 : forall j u, nth_error (gset i t1 ts) j = Some u -> exists q, nth_error ps j = Some q /\ on_track w0 w1 q u).
  { intros j u E. destruct (PeanoNat.Nat.eq_dec i j) as [<-|N].
    - rewrite (nth_gset_same _ _ _ _ _ Ti) in E. injection E as <-. exists p. split; [exact Pi|exact (advance_on_track _ _ _ _ _ _ T A)].
    - rewrite (nth_gset_other _ _ _ _ _ N) in E. destruct (I j u E) as (q & Qj & U). exists q. split; [exact Qj|]. apply (other_on_track _ _ _ _ _ U). apply O. destruct T as (-> & _). intros X.
      apply N. apply (proj1 (NoDup_nth_error (map fst ps)) D); [apply nth_error_Some; rewrite nth_error_map, Pi; discriminate|]. rewrite !nth_error_map, Pi, Qj. cbn [option_map]. rewrite X. reflexivity. }
  destruct (IH _ _ _ _ _ _ D I1 H) as (R1 & R2 & R3). split; [exact R1|]. split; [rewrite R2; apply gset_length|]. intros n Nn. rewrite (R3 n Nn). apply O. destruct T as (-> & _). intros ->. apply Nn. apply in_map. exact (nth_error_In _ _ Pi).
Qed.

(** A thread with a single call: its answer is fixed when it has loaded. *)
Definition answers_of (t : gthread) : list ganswer := gt_outs t ++ match gt_busy t with Some (a, _) => [a] | None => [] end.
Lemma settled : forall sched w ts w' ts', Forall (fun t => gt_todo t = []) ts -> ginterleave C sched w ts = (w', ts') -> map answers_of ts' = map answers_of ts.
Proof.
  induction sched as [|i sched IH]; intros w ts w' ts' F H; cbn [ginterleave] in H; [injection H as _ <-; reflexivity|].
  destruct (nth_error ts i) as [t|] eqn:Ti; [|exact (IH _ _ _ _ F H)]. destruct (gadvance C w t) as [w1 t1] eqn:A.
  assert (T : gt_todo t1 = [] /\ answers_of t1 = answers_of t).
  { rewrite Forall_forall in F. pose proof (F t (nth_error_In _ _ Ti)) as E. unfold gadvance in A. unfold answers_of. destruct (gt_busy t) as [[a [|e es]]|] eqn:B.
    - injection A as _ <-. cbn [gt_todo gt_outs gt_busy]. split; [exact E|apply app_nil_r].
    - injection A as _ <-. cbn [gt_todo gt_outs gt_busy]. split; [exact E|reflexivity].
    - rewrite E in A. injection A as _ <-. rewrite B. split; [exact E|reflexivity]. }
  destruct T as (T1 & T2). rewrite (IH w1 (gset i t1 ts) w' ts'); [| |exact H].
  - clear -Ti T2. revert i Ti. induction ts as [|x ts IH]; intros [|i] Ti; try discriminate Ti; cbn [gset map]; [injection Ti as ->; rewrite T2; reflexivity|]. rewrite (IH i Ti). reflexivity.
  - clear -F T1. revert i. induction F as [|x ts X F IH]; intros [|i]; cbn [gset]; constructor; auto.
Qed.
End Proofs.
