(** SecrecyProofs2.v: invariants of the reference behaviour, and theft (C69). *)
From Verif Require Import Base Crypto Ecc Keys SessionState Messages Address World
  GroupSpec GroupProofs ConvSpec ConvProofs ConvProofs2 ConvProofs3 SecrecySpec SecrecyProofs.
From Coq Require Import Lia ZifyBool ZifyN ZifyNat.

(** * The reference *)

(** Alice sends in odd epochs and receives on even ones, Bob the other way round. *)
Definition side (p : party) : bool := match p with Alice => false | Bob => true end.

Record vinv (v : party -> pview) (sent : party -> list (nat * N * bytes)) (acc : list (party * nat)) : Prop := {
  vi_once : once_inv v sent acc;
  vi_epoch : forall p, Nat.even (pv_epoch (v p)) = side p;
  vi_chains : forall p c, In c (pv_chains (v p)) -> Nat.even (cv_epoch c) = negb (side p);
  vi_sent : forall p e n pt, In (e, n, pt) (sent p) -> Nat.even e = side p;
  vi_none : forall p, pv_epoch (v p) = 0%nat -> v p = no_view;
  vi_diff : pv_epoch (v Alice) = S (pv_epoch (v Bob)) \/ pv_epoch (v Bob) = S (pv_epoch (v Alice)) }.

Lemma even_S : forall n, Nat.even (S n) = negb (Nat.even n).
Proof. intros n. rewrite Nat.even_succ. symmetry. apply Nat.negb_even. Qed.

Lemma side_other : forall p, side (other p) = negb (side p).
Proof. intros [|]; reflexivity. Qed.

Lemma vinv_send : forall v sent acc p pt z, vinv v sent acc -> pv_epoch (v p) = S z ->
  vinv (upd_party v p {| pv_epoch := pv_epoch (v p); pv_count := pv_count (v p) + 1; pv_chains := pv_chains (v p) |})
       (upd_party sent p (sent p ++ [(pv_epoch (v p), pv_count (v p), pt)])) acc.
Proof.
  intros v sent acc p pt z [[I1 I2 I3] J1 J2 J3 J4 J5] EV. constructor; [constructor| | | | |].
  - intros q. destruct (party_cases p q) as [->| ->]; [rewrite upd_same|rewrite upd_diff; apply I1]. exact (I1 p).
  - intros q e n x. destruct (party_cases p q) as [->| ->]; [rewrite !upd_same|rewrite !upd_diff; apply I2]. cbn [pv_epoch pv_count]. intros HI. apply in_app_or in HI.
    destruct HI as [HI|[HI|[]]]; [apply I2 in HI; lia|]. injection HI as <- <- _. right. lia.
  - intros q j HI. destruct (I3 _ _ HI) as (e & n & x & H1 & H2). exists e, n, x. split.
    + destruct (party_cases p (other q)) as [E|E]; rewrite E in *; [rewrite upd_same; apply nth_mono; exact H1|rewrite upd_diff; exact H1].
    + destruct (party_cases p q) as [->| ->]; [rewrite upd_same; exact H2|rewrite upd_diff; exact H2].
  - intros q. destruct (party_cases p q) as [->| ->]; [rewrite upd_same; apply J1|rewrite upd_diff; apply J1].
  - intros q c. destruct (party_cases p q) as [->| ->]; [rewrite upd_same; apply J2|rewrite upd_diff; apply J2].
  - intros q e n x. destruct (party_cases p q) as [->| ->]; [rewrite upd_same|rewrite upd_diff; apply J3]. intros HI. apply in_app_or in HI.
    destruct HI as [HI|[HI|[]]]; [exact (J3 _ _ _ _ HI)|]. injection HI as <- _ _. apply J1.
  - intros q. destruct (party_cases p q) as [->| ->]; [rewrite upd_same|rewrite upd_diff; apply J4]. cbn [pv_epoch]. intros HZ. rewrite EV in HZ. discriminate HZ.
  - destruct p; cbn [upd_party party_eqb pv_epoch]; exact J5.
Qed.

Lemma vinv_deliver : forall v sent acc p j e n pt x v', vinv v sent acc -> nth_error (sent (other p)) j = Some (e, n, pt) -> cdeliver (v p) e n pt = (x, v') ->
  vinv (upd_party v p v') sent (match x with Plain _ => (p, j) :: acc | _ => acc end).
Proof.
  intros v sent acc p j e n pt x v' [[I1 I2 I3] J1 J2 J3 J4 J5] EN EC. pose proof (J3 _ _ _ _ (nth_error_In _ _ EN)) as HPar. rewrite side_other in HPar.
  assert (SAME : (forall q, x <> Plain q) -> vinv (upd_party v p v') sent acc).
  { intros HX. assert (v' = v p) by (eapply cdeliver_other; [exact EC|exact HX]). subst v'.
    assert (HU : forall q, upd_party v p (v p) q = v q) by (intros [|]; destruct p; reflexivity). constructor; [constructor| | | | |].
    - intros q. rewrite HU. apply I1.
    - intros q. rewrite HU. apply I2.
    - intros q k HI. rewrite HU. exact (I3 _ _ HI).
    - intros q. rewrite HU. apply J1.
    - intros q. rewrite HU. apply J2.
    - exact J3.
    - intros q. rewrite HU. apply J4.
    - rewrite !HU. exact J5. }
  destruct x as [q| |]; [|apply SAME; discriminate|apply SAME; discriminate].
  destruct (cdeliver_plain _ _ _ _ _ _ (I1 p) EC) as (-> & P1 & P2 & P3 & P4).
  assert (HE : Nat.even (pv_epoch v') = side p /\ forall c, In c (pv_chains v') -> Nat.even (cv_epoch c) = negb (side p)).
  { clear - EC J1 J2 HPar. unfold cdeliver in EC. destruct (cfind e (pv_chains (v p))) as [c|] eqn:EF.
    - destruct (caccept c n) as [c'|] eqn:EA; [|discriminate EC]. apply (f_equal snd) in EC. cbn [snd] in EC. subst v'. cbn [pv_epoch pv_chains].
      split; [apply J1|]. intros d Hd. apply creplace_in in Hd. destruct Hd as [(-> & d' & Hd & E)|(Hd & _)]; [rewrite <- E; exact (J2 p d' Hd)|exact (J2 p d Hd)].
    - destruct (Nat.eqb_spec e (S (pv_epoch (v p)))) as [EE|D]; [|discriminate EC]. destruct (caccept _ n) as [c'|] eqn:EA; [|discriminate EC].
      apply (f_equal snd) in EC. cbn [snd] in EC. subst v'. cbn [pv_epoch pv_chains]. split; [rewrite even_S, HPar; destruct (side p); reflexivity|].
      intros d Hd. apply last_n_in' in Hd. apply in_app_or in Hd. destruct Hd as [Hd|[<-|[]]]; [exact (J2 p d Hd)|]. rewrite (caccept_epoch _ _ _ EA). exact HPar. }
  destruct HE as [HE1 HE2]. constructor; [constructor| | | | |].
  - intros q. destruct (party_cases p q) as [->| ->]; [rewrite upd_same; exact P1|rewrite upd_diff; apply I1].
  - intros q e' n' x HI. apply I2 in HI. destruct (party_cases p q) as [->| ->]; [rewrite upd_same|rewrite upd_diff; exact HI].
    destruct (cdeliver_epoch _ _ _ _ _ _ EC) as [[Q1 Q2]|Q]; [rewrite Q1, Q2; exact HI|lia].
  - intros q k [HI|HI]; [injection HI as <- <-; exists e, n, pt; rewrite upd_same; auto|].
    destruct (I3 _ _ HI) as (e' & n' & x & H1 & H2). exists e', n', x. split; [exact H1|].
    destruct (party_cases p q) as [->| ->]; [rewrite upd_same; apply P4; exact H2|rewrite upd_diff; exact H2].
  - intros q. destruct (party_cases p q) as [->| ->]; [rewrite upd_same; exact HE1|rewrite upd_diff; apply J1].
  - intros q. destruct (party_cases p q) as [->| ->]; [rewrite upd_same; exact HE2|rewrite upd_diff; apply J2].
  - exact J3.
  - intros q. destruct (party_cases p q) as [->| ->]; [rewrite upd_same|rewrite upd_diff; apply J4]. intros HZ. exfalso.
    destruct P2 as [P2 _]. lia.
  - pose proof (I2 _ _ _ _ (nth_error_In _ _ EN)) as HB. clear - EC J5 HB.
    assert (HV : pv_epoch v' = pv_epoch (v p) \/ (e = S (pv_epoch (v p)) /\ pv_epoch v' = S e)).
    { unfold cdeliver in EC. destruct (cfind e (pv_chains (v p))) as [c|].
      - left. destruct (caccept c n) as [c'|]; [|discriminate EC]. apply (f_equal (fun x => pv_epoch (snd x))) in EC. symmetry. exact EC.
      - right. destruct (Nat.eqb_spec e (S (pv_epoch (v p)))) as [EE|D]; [|discriminate EC]. destruct (caccept _ n) as [c'|]; [|discriminate EC].
        apply (f_equal (fun x => pv_epoch (snd x))) in EC. split; [exact EE|symmetry; exact EC]. }
    destruct p; cbn [upd_party party_eqb other] in *; lia.
Qed.

Lemma plains_cons : forall p j x l, plains ((p, j, x) :: l) = match x with Plain _ => (p, j) :: plains l | _ => plains l end.
Proof. intros p j x l. destruct x; reflexivity. Qed.

Lemma vinv_incl : forall v sent acc acc', vinv v sent acc -> incl acc' acc -> vinv v sent acc'.
Proof. intros v sent acc acc' [[I1 I2 I3] J1 J2 J3 J4 J5] HI. constructor; auto. constructor; auto. Qed.

Lemma vinv_after : forall evs v sent acc, vinv v sent acc ->
  vinv (fst (vafter v sent evs)) (snd (vafter v sent evs)) (plains (cspec v sent evs) ++ acc) /\
  (forall p, exists l, snd (vafter v sent evs) p = sent p ++ l) /\ (forall p, (pv_epoch (v p) <= pv_epoch (fst (vafter v sent evs) p))%nat).
Proof.
  induction evs as [|ev evs IH]; intros v sent acc HV; [split; [exact HV|]; split; [intros p; exists []; symmetry; apply app_nil_r|intros p; apply Nat.le_refl]|].
  destruct ev as [p pt|p j g]; cbn [vafter cspec].
  - destruct (pv_epoch (v p)) as [|z] eqn:EV; [exact (IH _ _ _ HV)|]. destruct (IH _ _ _ (vinv_send _ _ _ p pt z HV EV)) as (A & B & D). rewrite EV in A, B, D.
    split; [exact A|]. split.
    + intros q. destruct (B q) as (l & El). destruct (party_cases p q) as [->| ->]; [|rewrite upd_diff in El; exists l; exact El].
      rewrite upd_same in El. rewrite <- app_assoc in El. eexists. exact El.
    + intros q. specialize (D q). destruct (party_cases p q) as [->| ->]; [rewrite upd_same in D; cbn [pv_epoch] in D; rewrite EV; exact D|rewrite upd_diff in D; exact D].
  - destruct (nth_error (sent (other p)) j) as [[[e n] pt]|] eqn:EN; [|exact (IH _ _ _ HV)].
    destruct (cdeliver (v p) e n pt) as [x v'] eqn:EC. pose proof (vinv_deliver _ _ _ _ _ _ _ _ _ _ HV EN EC) as HV'.
    destruct (IH _ _ _ HV') as (A & B & D). split; [|split; [exact B|]].
    + eapply vinv_incl; [exact A|]. rewrite plains_cons. destruct x; intros y Hy; try exact Hy. cbn [app] in Hy. destruct Hy as [<-|Hy]; [apply in_or_app; right; left; reflexivity|].
      apply in_app_or in Hy. apply in_or_app. destruct Hy as [Hy|Hy]; [left; exact Hy|right; right; exact Hy].
    + intros q. specialize (D q). destruct (party_cases p q) as [->| ->]; [rewrite upd_same in D|rewrite upd_diff in D; exact D].
      destruct x as [q| |].
      * destruct (cdeliver_plain _ _ _ _ _ _ (o_views _ _ _ (vi_once _ _ _ HV) p) EC) as (_ & _ & _ & P3 & _). lia.
      * assert (v' = v p) by (eapply cdeliver_other; [exact EC|discriminate]). subst v'. exact D.
      * assert (v' = v p) by (eapply cdeliver_other; [exact EC|discriminate]). subst v'. exact D.
Qed.

Lemma vinv_start : vinv start_view (fun _ => []) [].
Proof.
  constructor; [constructor| | | | |].
  - intros [|]; cbn; split; cbn; repeat constructor; auto; intros n [].
  - intros p e n pt [].
  - intros p i [].
  - intros [|]; reflexivity.
  - intros [|] c; cbn; [intros [<-|[]]; reflexivity|intros []].
  - intros p e n pt [].
  - intros [|] H; [discriminate H|reflexivity].
  - left. reflexivity.
Qed.

Lemma vafter_app : forall e1 e2 v sent, vafter v sent (e1 ++ e2) = vafter (fst (vafter v sent e1)) (snd (vafter v sent e1)) e2.
Proof.
  induction e1 as [|ev e1 IH]; intros e2 v sent; [reflexivity|]. cbn [app vafter]. destruct ev as [p pt|p j g].
  - destruct (pv_epoch (v p)); apply IH.
  - destruct (nth_error (sent (other p)) j) as [[[e n] pt]|]; [|apply IH]. destruct (cdeliver (v p) e n pt) as [x v']. apply IH.
Qed.

(** * Theft *)

Definition vok (p : party) (v : pview) : Prop := Nat.even (pv_epoch v) = side p /\ (pv_epoch v = 0%nat -> v = no_view).

Lemma stolen_root : forall v j, In (Root j) (stolen_keys v) -> j = pv_epoch v /\ pv_epoch v <> 0%nat.
Proof.
  intros v j HI. unfold stolen_keys in HI. destruct (pv_epoch v) as [|z]; [destruct HI|]. destruct HI as [E|[E|HI]]; [inversion E; split; [reflexivity|discriminate]|discriminate E|].
  apply in_flat_map in HI. destruct HI as (c & _ & [E|HI]); [discriminate E|]. apply in_map_iff in HI. destruct HI as (m & E & _). discriminate E.
Qed.
Lemma stolen_chain : forall v e m, In (Chain e m) (stolen_keys v) -> (e = pv_epoch v /\ m = pv_count v) \/ exists c, In c (pv_chains v) /\ e = cv_epoch c /\ m = cv_next c.
Proof.
  intros v e m HI. unfold stolen_keys in HI. destruct (pv_epoch v) as [|z]; [destruct HI|]. destruct HI as [E|[E|HI]]; [discriminate E|inversion E; left; split; reflexivity|].
  right. apply in_flat_map in HI. destruct HI as (c & Hc & [E|HI]); [inversion E; exists c; split; [exact Hc|split; reflexivity]|]. apply in_map_iff in HI. destruct HI as (k & E & _). discriminate E.
Qed.
Lemma stolen_message : forall v e n, In (Mkey e n) (stolen_keys v) -> exists c, In c (pv_chains v) /\ cv_epoch c = e /\ In n (cv_kept c).
Proof.
  intros v e n HI. unfold stolen_keys in HI. destruct (pv_epoch v) as [|z]; [destruct HI|]. destruct HI as [E|[E|HI]]; [discriminate E|discriminate E|].
  apply in_flat_map in HI. destruct HI as (c & Hc & [E|HI]); [discriminate E|]. apply in_map_iff in HI. destruct HI as (k & E & Hk). inversion E; subst. exists c. split; [exact Hc|]. split; [reflexivity|exact Hk].
Qed.

Lemma stolen_x3dh : forall p v, vok p v -> (x3dh_known (stolen_secrets p v) <-> pv_epoch v = 0%nat).
Proof.
  intros p v [V1 V2]. unfold x3dh_known, dh_known, stolen_secrets. destruct p.
  - split; [|intros HZ; rewrite HZ in V1; discriminate V1]. intros (_ & H & _). destruct H as [[H|H]|[H|H]]; discriminate H.
  - destruct (Nat.eqb_spec (pv_epoch v) 0) as [E|E].
    + split; [intros _; exact E|]. intros _. repeat split; auto.
    + split; [|intros HZ; destruct (E HZ)]. intros (_ & _ & _ & H). destruct H as [[H|[H|H]]|[H|[H|H]]]; discriminate H.
Qed.

Lemma stolen_ratchet : forall p v e, stolen_secrets p v (Ratchet e) <-> e = pv_epoch v \/ (p = Bob /\ e = 0%nat).
Proof.
  intros p v e. unfold stolen_secrets. destruct p.
  - split; [intros [H|H]; [discriminate H|inversion H; left; reflexivity]|]. intros [->|[H _]]; [right; reflexivity|discriminate H].
  - destruct (Nat.eqb_spec (pv_epoch v) 0) as [E|E].
    + rewrite E. split; [intros [H|[H|H]]; try discriminate H; inversion H; left; reflexivity|]. intros [->|[_ ->]]; right; left; reflexivity.
    + split; [intros [H|[H|H]]; [discriminate H|inversion H; right; split; reflexivity|inversion H; left; reflexivity]|].
      intros [->|[_ ->]]; [right; right; reflexivity|right; left; reflexivity].
Qed.

Lemma theft_exact : forall p v e n, vok p v -> (known (stolen_secrets p v) (stolen_keys v) (Mkey e n) <-> to_come v e n).
Proof.
  intros p v e n HV. set (a := pv_epoch v). assert (HDH : forall k, (a < k)%nat -> ~ dh_known (stolen_secrets p v) (Ratchet k) (Ratchet (S k))).
  { intros k Hk [HD|HD]; apply stolen_ratchet in HD; destruct HD as [HD|[_ HD]]; unfold a in Hk; lia. }
  assert (HD1 : dh_known (stolen_secrets p v) (Ratchet a) (Ratchet (S a))) by (left; apply stolen_ratchet; left; reflexivity).
  assert (HRF : forall j, root_from (stolen_secrets p v) (stolen_keys v) j <-> j = a).
  { intros j. unfold root_from. split.
    - intros [HI|[-> HX]]; [apply stolen_root in HI; exact (proj1 HI)|]. apply (stolen_x3dh p v HV) in HX. unfold a. rewrite HX. reflexivity.
    - intros ->. unfold a. destruct (pv_epoch v) as [|z] eqn:EV; [right; split; [reflexivity|]; apply (stolen_x3dh p v HV); exact EV|].
      left. unfold stolen_keys. rewrite EV. left. reflexivity. }
  rewrite message_exact, chain_exact. unfold to_come. fold a. split.
  - intros [HI|[(m & Hm & HI)|[[-> HX]|(j & Hj & HR & HD)]]].
    + apply stolen_message in HI. destruct HI as (c & Hc & E & Hn). right. left. exists c. split; [exact Hc|]. split; [exact E|right; exact Hn].
    + apply stolen_chain in HI. destruct HI as [[-> ->]|(c & Hc & -> & ->)]; [left; split; [reflexivity|exact Hm]|]. right. left. exists c. split; [exact Hc|]. split; [reflexivity|left; exact Hm].
    + apply (stolen_x3dh p v HV) in HX. left. split; [unfold a; rewrite HX; reflexivity|]. destruct HV as [_ HV]. rewrite (HV HX). cbn [no_view pv_count]. lia.
    + apply HRF in HR. subst j. right. right. destruct (Nat.eq_dec e (S a)) as [->|HN]; [reflexivity|]. exfalso.
      apply (HDH (S a)); [lia|]. apply HD. lia.
  - intros [[-> Hn]|[(c & Hc & E & Hn)| ->]].
    + right. unfold a. destruct (pv_epoch v) as [|z] eqn:EV; [right; left; split; [reflexivity|]; apply (stolen_x3dh p v HV); exact EV|].
      left. exists (pv_count v). split; [exact Hn|]. unfold stolen_keys. rewrite EV. right. left. reflexivity.
    + assert (HNZ : exists z, pv_epoch v = S z). { destruct (pv_epoch v) as [|z] eqn:EV; [destruct HV as [_ HV]; rewrite (HV EV) in Hc; destruct Hc|exists z; reflexivity]. }
      destruct HNZ as (z & EV). destruct Hn as [Hn|Hn].
      * right. left. exists (cv_next c). split; [exact Hn|]. unfold stolen_keys. rewrite EV. right. right. apply in_flat_map. exists c. split; [exact Hc|]. left. rewrite E. reflexivity.
      * left. unfold stolen_keys. rewrite EV. right. right. apply in_flat_map. exists c. split; [exact Hc|]. right. apply in_map_iff. exists n. split; [rewrite E; reflexivity|exact Hn].
    + right. right. right. exists a. split; [lia|]. split; [apply HRF; reflexivity|]. intros k Hk. assert (k = a) by lia. subst k. exact HD1.
Qed.

(** Both stores at the same time. *)
Definition both_secrets (v : party -> pview) (x : secret) : Prop := stolen_secrets Alice (v Alice) x \/ stolen_secrets Bob (v Bob) x.

Lemma both_exact : forall v e n, vok Alice (v Alice) -> vok Bob (v Bob) ->
  (pv_epoch (v Alice) = S (pv_epoch (v Bob)) \/ pv_epoch (v Bob) = S (pv_epoch (v Alice))) ->
  (known (both_secrets v) (stolen_keys (v Alice) ++ stolen_keys (v Bob)) (Mkey e n) <-> to_come (v Alice) e n \/ to_come (v Bob) e n).
Proof.
  intros v e n HA HB HD. split.
  - set (a := pv_epoch (v Alice)) in *. set (b := pv_epoch (v Bob)) in *. set (m := Nat.max a b).
    assert (HDH : forall k, (m < k)%nat -> ~ dh_known (both_secrets v) (Ratchet k) (Ratchet (S k))).
    { intros k Hk [[H|H]|[H|H]]; apply stolen_ratchet in H; destruct H as [H|[_ H]]; fold a in H || fold b in H || idtac; unfold m in Hk; lia. }
    assert (HRF : forall j, root_from (both_secrets v) (stolen_keys (v Alice) ++ stolen_keys (v Bob)) j -> j = a \/ j = b).
    { intros j [HI|[-> HX]].
      - apply in_app_or in HI. destruct HI as [HI|HI]; apply stolen_root in HI; destruct HI as [HI _]; [left|right]; exact HI.
      - right. unfold b. destruct (Nat.eq_dec (pv_epoch (v Bob)) 0) as [E|E]; [symmetry; exact E|]. exfalso. destruct HX as (_ & _ & _ & HX).
        unfold dh_known, both_secrets, stolen_secrets in HX. destruct (Nat.eqb_spec (pv_epoch (v Bob)) 0) as [E'|_]; [exact (E E')|].
        destruct HX as [[[H|H]|[H|[H|H]]]|[[H|H]|[H|[H|H]]]]; discriminate H. }
    rewrite message_exact, chain_exact. intros [HI|[(k & Hk & HI)|[[-> HX]|(j & Hj & HR & HDs)]]].
    + apply in_app_or in HI. destruct HI as [HI|HI]; apply stolen_message in HI; destruct HI as (c & Hc & E & Hn); [left|right]; right; left; exists c; (split; [exact Hc|]); (split; [exact E|right; exact Hn]).
    + apply in_app_or in HI. destruct HI as [HI|HI]; apply stolen_chain in HI; [left|right]; (destruct HI as [[-> ->]|(c & Hc & -> & ->)]; [left; split; [reflexivity|exact Hk]|right; left; exists c; (split; [exact Hc|]); (split; [reflexivity|left; exact Hk])]).
    + right. assert (E : pv_epoch (v Bob) = 0%nat).
      { destruct (HRF 0%nat) as [E|E]; [right; split; [reflexivity|exact HX]| |].
        - exfalso. destruct HA as [HA _]. fold a in HA. rewrite <- E in HA. discriminate HA.
        - symmetry. exact E. }
      left. split; [symmetry; exact E|]. destruct HB as [_ HB]. rewrite (HB E). cbn [no_view pv_count]. lia.
    + assert (HM : (e <= S m)%nat). { destruct (Nat.le_gt_cases e (S m)) as [X|X]; [exact X|]. exfalso. apply (HDH (S m)); [lia|]. apply HDs. apply HRF in HR. unfold m. lia. }
      apply HRF in HR. unfold to_come. fold a. fold b. unfold m in HM. assert (HE : e = S a \/ e = S b) by (destruct HR as [->| ->]; lia). destruct HE as [HE|HE]; [left|right]; right; right; exact HE.
  - assert (MON : forall (K K' : secret -> Prop) (H H' : list key) (k : key), (forall x, K x -> K' x) -> incl H H' -> known K H k -> known K' H' k).
    { intros K K' H H' k HK HH HX.
      assert (HDK : forall x y, dh_known K x y -> dh_known K' x y) by (intros x y [X|X]; [left|right]; apply HK; exact X).
      assert (HXK : x3dh_known K -> x3dh_known K') by (intros (A & B & D & F); split; [apply HDK; exact A|split; [apply HDK; exact B|split; [apply HDK; exact D|apply HDK; exact F]]]).
      induction HX as [k HI|HX|HX|e' HX IH HDh|e' HX IH HDh|e' n' HX IH|e' n' HX IH].
      - apply K_held. apply HH. exact HI.
      - apply K_root0. apply HXK. exact HX.
      - apply K_chain0. apply HXK. exact HX.
      - apply K_root; [exact IH|apply HDK; exact HDh].
      - apply K_chain; [exact IH|apply HDK; exact HDh].
      - apply K_next. exact IH.
      - apply K_message. exact IH. }
    intros [HT|HT].
    + apply (theft_exact Alice) in HT; [|exact HA]. eapply MON; [|apply incl_appl; apply incl_refl|exact HT]. intros x Hx. left. exact Hx.
    + apply (theft_exact Bob) in HT; [|exact HB]. eapply MON; [|apply incl_appr; apply incl_refl|exact HT]. intros x Hx. right. exact Hx.
Qed.
