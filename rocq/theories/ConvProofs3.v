(** ConvProofs3.v: facts about the reference behaviour of ConvSpec.v, and the end results (C05, C06). *)
From Verif Require Import Base Labels Crypto Bytehelper Ecc Cbc Wire Itoa Keys X3dh Messages SessionState SessionRecord
  SessionBuilder SessionCipher Address World CryptoProofs SessionProofs SerialProofs SessionSpec
  GroupSpec GroupProofs ConvSpec ConvProofs ConvProofs2.
From Coq Require Import Lia ZifyBool ZifyN ZifyNat.

(** * At most once *)

Definition plains (x : list (party * nat * verdict)) : list (party * nat) :=
  flat_map (fun y => match y with (p, i, Plain _) => [(p, i)] | _ => [] end) x.

Definition cview_ok (e : nat) (c : cview) : Prop := (cv_epoch c < e)%nat /\ (forall n, In n (cv_kept c) -> (n < cv_next c)%N).
Definition pview_ok (v : pview) : Prop := NoDup (map cv_epoch (pv_chains v)) /\ Forall (cview_ok (pv_epoch v)) (pv_chains v).

Definition used (v : pview) (e : nat) (n : N) : Prop :=
  (e < pv_epoch v)%nat /\ forall c, In c (pv_chains v) -> cv_epoch c = e -> (n < cv_next c)%N /\ ~ In n (cv_kept c).

Lemma cfind_in : forall e l c, cfind e l = Some c -> In c l /\ cv_epoch c = e.
Proof. intros e l c H. apply find_some in H. destruct H as [H1 H2]. apply Nat.eqb_eq in H2. auto. Qed.

Lemma used_refused : forall v e n pt x v', used v e n -> cdeliver v e n pt = (x, v') -> forall q, x <> Plain q.
Proof.
  intros v e n pt x v' [H1 H2] H q. unfold cdeliver in H. destruct (cfind e (pv_chains v)) as [c|] eqn:EF.
  - destruct (cfind_in _ _ _ EF) as [F1 F2]. destruct (H2 c F1 F2) as [H3 H4]. unfold caccept in H.
    replace (n <? cv_next c)%N with true in H by lia. destruct (existsb (N.eqb n) (cv_kept c)) eqn:EX.
    + exfalso. apply existsb_exists in EX. destruct EX as (y & Hy & E). apply N.eqb_eq in E. subst. auto.
    + injection H as <- _. discriminate.
  - destruct (Nat.eqb_spec e (S (pv_epoch v))); [lia|]. injection H as <- _. discriminate.
Qed.

Lemma caccept_facts : forall c n c', caccept c n = Some c' -> (forall k, In k (cv_kept c) -> (k < cv_next c)%N) ->
  cv_epoch c' = cv_epoch c /\ (forall k, In k (cv_kept c') -> (k < cv_next c')%N) /\ (n < cv_next c')%N /\ ~ In n (cv_kept c') /\
  (forall k, (k < cv_next c)%N -> ~ In k (cv_kept c) -> (k < cv_next c')%N /\ ~ In k (cv_kept c')).
Proof.
  intros c n c' H HK. unfold caccept in H. destruct (N.ltb_spec n (cv_next c)) as [A|A].
  - destruct (existsb _ _); [|discriminate]. injection H as <-. cbn [cv_epoch cv_next cv_kept]. split; [reflexivity|].
    assert (HF : forall k, In k (filter (fun k => negb (k =? n)%N) (cv_kept c)) -> In k (cv_kept c) /\ k <> n).
    { intros k Hk. apply filter_In in Hk. destruct Hk as [Hk E]. split; [exact Hk|]. intros ->. rewrite N.eqb_refl in E. discriminate. }
    split; [intros k Hk; apply HK; apply HF; exact Hk|]. split; [exact A|]. split; [intros Hn; apply HF in Hn; tauto|].
    intros k K1 K2. split; [exact K1|]. intros Hk. apply HF in Hk. tauto.
  - destruct (N.ltb_spec 5000 (n - cv_next c)) as [B|B]; [discriminate|]. injection H as <-. cbn [cv_epoch cv_next cv_kept]. split; [reflexivity|].
    assert (HF : forall k, In k (last_n (N.to_nat 2000) (cv_kept c ++ n_range (cv_next c) (N.to_nat (n - cv_next c)))) ->
              In k (cv_kept c) \/ (cv_next c <= k < n)%N).
    { intros k Hk. apply last_n_in in Hk. apply in_app_or in Hk. destruct Hk as [Hk|Hk]; [auto|]. right. apply n_range_in in Hk. lia. }
    split; [intros k Hk; apply HF in Hk; destruct Hk as [Hk|Hk]; [apply HK in Hk|]; lia|]. split; [lia|].
    split; [intros Hn; apply HF in Hn; destruct Hn as [Hn|Hn]; [apply HK in Hn|]; lia|].
    intros k K1 K2. split; [lia|]. intros Hk. apply HF in Hk. destruct Hk as [Hk|Hk]; [auto|lia].
Qed.

Lemma creplace_in : forall c' l c, In c (creplace c' l) -> (c = c' /\ exists d, In d l /\ cv_epoch d = cv_epoch c') \/ (In c l /\ cv_epoch c <> cv_epoch c').
Proof.
  intros c' l c H. unfold creplace in H. apply in_map_iff in H. destruct H as (d & E & Hd).
  destruct (Nat.eqb_spec (cv_epoch d) (cv_epoch c')) as [A|A]; subst; [left; split; [reflexivity|eauto]|right; auto].
Qed.

Lemma last_n_in' : forall A k (l : list A) x, In x (last_n k l) -> In x l.
Proof. intros A k l x H. eapply last_n_in; exact H. Qed.

Lemma cdeliver_plain : forall v e n pt q v', pview_ok v -> cdeliver v e n pt = (Plain q, v') ->
  q = pt /\ pview_ok v' /\ used v' e n /\ (pv_epoch v <= pv_epoch v')%nat /\
  (forall e' n', used v e' n' -> used v' e' n').
Proof.
  intros v e n pt q v' [HN HV] H. rewrite Forall_forall in HV. unfold cdeliver in H. destruct (cfind e (pv_chains v)) as [c|] eqn:EF.
  - destruct (cfind_in _ _ _ EF) as [F1 F2]. destruct (caccept c n) as [c'|] eqn:EA; [|discriminate]. injection H as <- <-. split; [reflexivity|].
    destruct (HV c F1) as [V1 V2]. destruct (caccept_facts _ _ _ EA V2) as (A1 & A2 & A3 & A4 & A5). unfold pview_ok, used. cbn [pv_epoch pv_chains].
    assert (HU : forall d, In d (pv_chains v) -> cv_epoch d = e -> d = c).
    { intros d Hd E. revert F1 Hd. clear - HN F2 E. induction (pv_chains v) as [|y l IH]; intros F1 Hd; [destruct F1|]. cbn [map] in HN. inversion HN as [|? ? N1 N2]; subst.
      destruct F1 as [->|F1]; destruct Hd as [->|Hd]; auto; exfalso; apply N1; rewrite <- E || rewrite E; apply in_map_iff; eauto. }
    split; [split|].
    + rewrite creplace_epochs. exact HN.
    + apply Forall_forall. intros d Hd. apply creplace_in in Hd. destruct Hd as [(-> & _)|(Hd & _)]; [|apply HV; exact Hd]. split; [lia|exact A2].
    + split; [|split; [lia|]].
      * split; [lia|]. intros d Hd E. apply creplace_in in Hd. destruct Hd as [(-> & _)|(Hd & D)]; [auto|]. exfalso. congruence.
      * intros e' n' [U1 U2]. split; [exact U1|]. intros d Hd E. apply creplace_in in Hd. destruct Hd as [(-> & _)|(Hd & D)]; [|apply U2; auto].
        destruct (U2 c F1) as [U3 U4]; [congruence|]. apply A5; assumption.
  - destruct (Nat.eqb_spec e (S (pv_epoch v))) as [EE|D]; [|discriminate]. destruct (caccept _ n) as [c'|] eqn:EA; [|discriminate]. injection H as <- <-. split; [reflexivity|].
    apply caccept_facts in EA; [|intros k []]. cbn [cv_epoch cv_next cv_kept] in EA. destruct EA as (A1 & A2 & A3 & A4 & _).
    unfold pview_ok, used. cbn [pv_epoch pv_chains].
    assert (HI : forall d, In d (last_n 5 (pv_chains v ++ [c'])) -> In d (pv_chains v) \/ d = c').
    { intros d Hd. apply last_n_in' in Hd. apply in_app_or in Hd. destruct Hd as [Hd|[Hd|[]]]; auto. }
    split; [split|].
    + rewrite last_n_map. apply last_n_nodup. rewrite map_app. cbn [map]. apply nodup_app_both; [exact HN|repeat constructor; intros []|].
      intros a Ha [<-|[]]. rewrite A1 in Ha. exact (cfind_none_epochs _ _ EF Ha).
    + apply Forall_forall. intros d Hd. apply HI in Hd. destruct Hd as [Hd| ->]; [|split; [lia|exact A2]]. apply HV in Hd. destruct Hd as [V1 V2]. split; [lia|exact V2].
    + split; [|split; [lia|]].
      * split; [lia|]. intros d Hd E. apply HI in Hd. destruct Hd as [Hd| ->]; [|auto]. exfalso. apply HV in Hd. destruct Hd as [V1 _]. lia.
      * intros e' n' [U1 U2]. split; [lia|]. intros d Hd E. apply HI in Hd. destruct Hd as [Hd| ->]; [apply U2; auto|]. exfalso. lia.
Qed.

Lemma cdeliver_other : forall v e n pt x v', cdeliver v e n pt = (x, v') -> (forall q, x <> Plain q) -> v' = v.
Proof.
  intros v e n pt x v' H HX. unfold cdeliver in H. destruct (cfind e (pv_chains v)) as [c|].
  - destruct (caccept c n); injection H as <- <-; [exfalso; eapply HX; reflexivity|reflexivity].
  - destruct (Nat.eqb e (S (pv_epoch v))); [|injection H as <- <-; reflexivity].
    destruct (caccept _ n); injection H as <- <-; [exfalso; eapply HX; reflexivity|reflexivity].
Qed.

Record once_inv (v : party -> pview) (sent : party -> list (nat * N * bytes)) (acc : list (party * nat)) : Prop := {
  o_views : forall p, pview_ok (v p);
  o_sent : forall p e n pt, In (e, n, pt) (sent p) -> (e < pv_epoch (v p))%nat \/ (e = pv_epoch (v p) /\ (n < pv_count (v p))%N);
  o_acc : forall p i, In (p, i) acc -> exists e n pt, nth_error (sent (other p)) i = Some (e, n, pt) /\ used (v p) e n }.

Lemma cdeliver_epoch : forall v e n pt q v', cdeliver v e n pt = (Plain q, v') ->
  (pv_epoch v' = pv_epoch v /\ pv_count v' = pv_count v) \/ (pv_epoch v < pv_epoch v')%nat.
Proof.
  intros v e n pt q v' H. unfold cdeliver in H. destruct (cfind e (pv_chains v)) as [c|].
  - destruct (caccept c n); [|discriminate]. injection H as _ <-. left. split; reflexivity.
  - destruct (Nat.eqb_spec e (S (pv_epoch v))); [|discriminate]. destruct (caccept _ n); [|discriminate]. injection H as _ <-. right. cbn. lia.
Qed.

Lemma once : forall evs v sent acc, once_inv v sent acc ->
  NoDup (plains (cspec v sent evs)) /\ forall p i, In (p, i) acc -> ~ In (p, i) (plains (cspec v sent evs)).
Proof.
  induction evs as [|ev evs IH]; intros v sent acc [I1 I2 I3]; [split; [constructor|intros p i _ []]|]. destruct ev as [p pt|p j g]; cbn [cspec].
  - destruct (pv_epoch (v p)) as [|z] eqn:EV; [apply IH; constructor; auto|]. rewrite <- EV. apply IH. constructor.
    + intros q. destruct (party_cases p q) as [->| ->]; [rewrite upd_same|rewrite upd_diff; apply I1]. exact (I1 p).
    + intros q e n x. destruct (party_cases p q) as [->| ->]; [rewrite !upd_same|rewrite !upd_diff; apply I2]. cbn [pv_epoch pv_count]. intros HI. apply in_app_or in HI.
      destruct HI as [HI|[HI|[]]]; [apply I2 in HI; lia|]. injection HI as <- <- _. right. lia.
    + intros q j HI. destruct (I3 _ _ HI) as (e & n & x & H1 & H2). exists e, n, x. split.
      * destruct (party_cases p (other q)) as [E|E]; rewrite E in *; [rewrite upd_same; apply nth_mono; exact H1|rewrite upd_diff; exact H1].
      * destruct (party_cases p q) as [->| ->]; [rewrite upd_same; exact H2|rewrite upd_diff; exact H2].
  - destruct (nth_error (sent (other p)) j) as [[[e n] pt]|] eqn:EN; [|apply IH; constructor; auto].
    destruct (cdeliver (v p) e n pt) as [x v'] eqn:EC. 
    destruct x as [q| |].
    + destruct (cdeliver_plain _ _ _ _ _ _ (I1 p) EC) as (-> & P1 & P2 & P3 & P4).
      destruct (IH (upd_party v p v') sent ((p, j) :: acc)) as [J1 J2].
      { constructor.
        - intros q. destruct (party_cases p q) as [->| ->]; [rewrite upd_same; exact P1|rewrite upd_diff; apply I1].
        - intros q e' n' x HI. apply I2 in HI. destruct (party_cases p q) as [->| ->]; [rewrite upd_same|rewrite upd_diff; exact HI].
          destruct (cdeliver_epoch _ _ _ _ _ _ EC) as [[Q1 Q2]|Q]; [rewrite Q1, Q2; exact HI|lia].
        - intros q k [HI|HI]; [injection HI as <- <-; exists e, n, pt; rewrite upd_same; auto|].
          destruct (I3 _ _ HI) as (e' & n' & x & H1 & H2). exists e', n', x. split; [exact H1|].
          destruct (party_cases p q) as [->| ->]; [rewrite upd_same; apply P4; exact H2|rewrite upd_diff; exact H2]. }
      unfold plains in *. cbn [flat_map app]. split.
      * constructor; [apply J2; left; reflexivity|exact J1].
      * intros q k HI [HE|HE]; [injection HE as <- <-|exact (J2 q k (or_intror HI) HE)].
        destruct (I3 _ _ HI) as (e' & n' & x & H1 & H2). rewrite EN in H1. injection H1 as <- <- <-. eapply used_refused; eauto.
    + assert (v' = v p) by (eapply cdeliver_other; [exact EC|discriminate]). subst v'. unfold plains. cbn [flat_map app]. apply IH. constructor; auto.
      * intros q. destruct (party_cases p q) as [->| ->]; [rewrite upd_same|rewrite upd_diff]; apply I1.
      * intros q. destruct (party_cases p q) as [->| ->]; [rewrite upd_same|rewrite upd_diff]; apply I2.
      * intros q k HI. destruct (I3 _ _ HI) as (e' & n' & x & H1 & H2). exists e', n', x. split; [exact H1|].
        destruct (party_cases p q) as [->| ->]; [rewrite upd_same|rewrite upd_diff]; exact H2.
    + assert (v' = v p) by (eapply cdeliver_other; [exact EC|discriminate]). subst v'. unfold plains. cbn [flat_map app]. apply IH. constructor; auto.
      * intros q. destruct (party_cases p q) as [->| ->]; [rewrite upd_same|rewrite upd_diff]; apply I1.
      * intros q. destruct (party_cases p q) as [->| ->]; [rewrite upd_same|rewrite upd_diff]; apply I2.
      * intros q k HI. destruct (I3 _ _ HI) as (e' & n' & x & H1 & H2). exists e', n', x. split; [exact H1|].
        destruct (party_cases p q) as [->| ->]; [rewrite upd_same|rewrite upd_diff]; exact H2.
Qed.

Lemma once_start : forall evs, NoDup (plains (cspec start_view (fun _ => []) evs)).
Proof.
  intros evs. apply (once evs _ _ []). constructor.
  - intros [|]; cbn; split; cbn; repeat constructor; auto; intros n [].
  - intros p e n pt [].
  - intros p i [].
Qed.

Lemma conforms_accepted : forall o x, conforms o x -> (forall p i, ~ In (p, i, Forgotten) x) -> accepted o = plains x.
Proof.
  intros o x H. induction H; intros HF; [reflexivity| | | |]; unfold accepted, plains in *; cbn [flat_map app].
  - f_equal. apply IHconforms. intros q k HI. apply (HF q k). right. exact HI.
  - apply IHconforms. intros q k HI. apply (HF q k). right. exact HI.
  - apply IHconforms. intros q k HI. apply (HF q k). right. exact HI.
  - exfalso. apply (HF p i). left. reflexivity.
Qed.

(** * In-order delivery never fails *)

Lemma n_range_cons : forall a k, n_range a (S k) = a :: n_range (a + 1) k.
Proof. intros a k. unfold n_range. cbn [seq map]. f_equal; [lia|]. rewrite <- seq_shift, map_map. apply map_ext. intros x. lia. Qed.
Lemma n_range_snoc : forall a k, n_range a (S k) = n_range a k ++ [(a + N.of_nat k)%N].
Proof. intros a k. unfold n_range. rewrite seq_S, map_app. reflexivity. Qed.

Definition key (x : nat * N * bytes) : nat * N := let '(e, n, _) := x in (e, n).

(** What party [p] has still to receive: the rest of its newest chain, then the other's next epoch. *)
Definition fifo_inv (v : party -> pview) (sent : party -> list (nat * N * bytes)) (r : party -> nat) (p : party) : Prop :=
  pview_ok (v p) /\ (length (pv_chains (v p)) <= 5)%nat /\ (r p <= length (sent (other p)))%nat /\
  exists nx a,
    (pv_epoch (v p) = 0%nat /\ a = 0%nat \/
     exists c, cfind (pred (pv_epoch (v p))) (pv_chains (v p)) = Some c /\ cv_kept c = [] /\ cv_next c = nx) /\
    ((pv_epoch (v (other p)) = S (pv_epoch (v p)) /\
      map key (skipn (r p) (sent (other p))) = map (pair (pred (pv_epoch (v p)))) (n_range nx a) ++
        map (pair (S (pv_epoch (v p)))) (n_range 0 (N.to_nat (pv_count (v (other p)))))) \/
     (S (pv_epoch (v (other p))) = pv_epoch (v p) /\ (nx + N.of_nat a = pv_count (v (other p)))%N /\
      map key (skipn (r p) (sent (other p))) = map (pair (pred (pv_epoch (v p)))) (n_range nx a))).

Lemma fifo : forall evs v sent r, (forall p, fifo_inv v sent r p) ->
  (forall p, delivered p (cspec v sent evs) = seq (r p) (length (delivered p (cspec v sent evs)))) ->
  Forall (fun y => exists pt, snd y = Plain pt) (cspec v sent evs).
Proof.
  induction evs as [|ev evs IH]; intros v sent r HI HD; [constructor|]. destruct ev as [p pt|p j g]; cbn [cspec] in *.
  - destruct (pv_epoch (v p)) as [|z] eqn:EV; [apply (IH v sent r); auto|]. rewrite <- EV in *. apply (IH _ _ r); [|exact HD]. clear IH HD. intros q.
    destruct (party_cases p q) as [->| ->].
    + destruct (HI p) as (P1 & P2 & P3 & nx & a & P4 & P5). unfold fifo_inv. rewrite !upd_same, !upd_diff. cbn [pv_epoch pv_chains].
      split; [exact P1|]. split; [exact P2|]. split; [exact P3|]. exists nx, a. split; assumption.
    + destruct (HI (other p)) as (P1 & P2 & P3 & nx & a & P4 & P5). unfold fifo_inv.
      assert (Hoo : other (other p) = p) by (destruct p; reflexivity). rewrite Hoo in *. rewrite !upd_same, !upd_diff. cbn [pv_epoch pv_count pv_chains].
      split; [exact P1|]. split; [exact P2|]. split; [rewrite app_length; lia|].
      assert (HSk : skipn (r (other p)) (sent p ++ [(pv_epoch (v p), pv_count (v p), pt)]) = skipn (r (other p)) (sent p) ++ [(pv_epoch (v p), pv_count (v p), pt)]).
      { rewrite skipn_app. replace (r (other p) - length (sent p))%nat with 0%nat by lia. reflexivity. }
      rewrite HSk, map_app. cbn [map key]. destruct P5 as [[Q1 Q2]|(Q1 & Q2 & Q3)].
      * exists nx, a. split; [exact P4|]. left. split; [exact Q1|]. rewrite Q2, <- app_assoc. f_equal.
        replace (N.to_nat (pv_count (v p) + 1)) with (S (N.to_nat (pv_count (v p)))) by lia. rewrite n_range_snoc, map_app. cbn [map]. f_equal. rewrite Q1. f_equal. f_equal. lia.
      * exists nx, (S a). split.
        { destruct P4 as [[P4 _]|P4]; [exfalso; lia|right; exact P4]. }
        right. split; [exact Q1|]. split; [lia|]. rewrite Q3, n_range_snoc, map_app. cbn [map]. rewrite <- Q1. cbn [pred]. rewrite Q2. reflexivity.
  - destruct (nth_error (sent (other p)) j) as [[[e n] pt]|] eqn:EN; [|apply (IH v sent r); auto].
    destruct (cdeliver (v p) e n pt) as [x v'] eqn:EC.
    assert (Hj : j = r p).
    { specialize (HD p). unfold delivered in HD. cbn [flat_map app] in HD. replace (party_eqb p p) with true in HD by (destruct p; reflexivity).
      cbn [app length seq] in HD. injection HD as HD _. exact HD. }
    subst j.
    assert (HSk : exists rest, skipn (r p) (sent (other p)) = (e, n, pt) :: rest /\ rest = skipn (S (r p)) (sent (other p))).
    { exists (skipn (S (r p)) (sent (other p))). split; [|reflexivity]. clear - EN. revert EN. generalize (sent (other p)). intros l. generalize (r p). intros k. revert l.
      induction k as [|k IH]; intros [|y l] H; try discriminate; cbn in *; [injection H as ->; reflexivity|apply IH; exact H]. }
    destruct HSk as (rest & HSk & HRest).
    destruct (HI p) as (P1 & P2 & P3 & nx & a & P4 & P5).
    assert (HLen : (S (r p) <= length (sent (other p)))%nat) by (apply nth_error_Some; rewrite EN; discriminate).
    destruct (HI (other p)) as (O1 & O2 & O3 & nx' & a' & O4 & O5). assert (Hoo : other (other p) = p) by (destruct p; reflexivity). rewrite Hoo in *.
    assert (STEP : exists q, x = Plain q /\ forall q', fifo_inv (upd_party v p v') sent (upd_party r p (S (r p))) q').
    { destruct a as [|a].
      - destruct P5 as [[Q1 Q2]|(_ & _ & Q3)]; [|rewrite HSk in Q3; discriminate]. rewrite HSk in Q2. cbn [n_range seq map key app] in Q2.
        destruct (N.to_nat (pv_count (v (other p)))) as [|m] eqn:EM; [discriminate|]. rewrite n_range_cons in Q2. cbn [map] in Q2. injection Q2 as -> -> Q2.
        unfold cdeliver in EC. destruct P1 as [P1 P1']. rewrite Forall_forall in P1'.
        destruct (cfind (S (pv_epoch (v p))) (pv_chains (v p))) as [c|] eqn:EF.
        { exfalso. apply cfind_in in EF. destruct EF as [EF1 EF2]. apply P1' in EF1. destruct EF1 as [EF1 _]. lia. }
        rewrite Nat.eqb_refl in EC. set (c1 := {| cv_epoch := S (pv_epoch (v p)); cv_next := 1; cv_kept := [] |}) in *.
        assert (HAcc : caccept {| cv_epoch := S (pv_epoch (v p)); cv_next := 0; cv_kept := [] |} 0 = Some c1) by reflexivity.
        rewrite HAcc in EC. injection EC as <- <-. exists pt. split; [reflexivity|].
        assert (HPl : cdeliver (v p) (S (pv_epoch (v p))) 0 pt = (Plain pt, {| pv_epoch := S (S (pv_epoch (v p))); pv_count := 0; pv_chains := last_n 5 (pv_chains (v p) ++ [c1]) |})).
        { unfold cdeliver. rewrite EF, Nat.eqb_refl, HAcc. reflexivity. }
        assert (HPV : pview_ok (v p)) by (split; [exact P1|apply Forall_forall; exact P1']).
        destruct (cdeliver_plain _ _ _ _ _ _ HPV HPl) as (_ & HV' & _).
        intros q'. destruct (party_cases p q') as [->| ->].
        + unfold fifo_inv. rewrite !upd_same, !upd_diff. cbn [pv_epoch pv_count pv_chains pred]. split; [exact HV'|].
          split; [eapply Nat.le_trans; [apply last_n_length|]; lia|]. split; [exact HLen|]. exists 1%N, m. split.
          * right. exists c1. split; [|split; reflexivity]. 
            assert (HIn : In c1 (last_n 5 (pv_chains (v p) ++ [c1]))).
            { rewrite last_n_five by exact P2. destruct (Nat.ltb_spec 5 (length (pv_chains (v p) ++ [c1]))) as [B|B]; [|apply in_or_app; right; left; reflexivity].
              destruct (pv_chains (v p)) as [|y l]; [cbn in B; lia|]. cbn [app tl]. apply in_or_app. right. left. reflexivity. }
            destruct (cfind (S (pv_epoch (v p))) (last_n 5 (pv_chains (v p) ++ [c1]))) as [d|] eqn:EF2.
            -- apply cfind_in in EF2. destruct EF2 as [F1 F2]. apply last_n_in' in F1. apply in_app_or in F1. destruct F1 as [F1|[F1|[]]]; [|congruence].
               exfalso. apply P1' in F1. destruct F1 as [F1 _]. lia.
            -- exfalso. apply (cfind_none_epochs _ _ EF2). apply in_map_iff. exists c1. split; [reflexivity|exact HIn].
          * right. split; [rewrite Q1; reflexivity|]. split; [lia|]. rewrite <- HRest. exact Q2.
        + unfold fifo_inv. rewrite Hoo, !upd_same, !upd_diff. cbn [pv_epoch pv_count pv_chains]. split; [exact O1|]. split; [exact O2|]. split; [exact O3|].
          exists nx', a'. split; [exact O4|]. left. split; [lia|].
          destruct O5 as [[Q3 _]|(Q3 & _ & Q4)]; [lia|]. rewrite Q4. cbn [N.to_nat n_range seq map]. rewrite app_nil_r. reflexivity.
      - assert (HH : e = pred (pv_epoch (v p)) /\ n = nx /\ 
           ((pv_epoch (v (other p)) = S (pv_epoch (v p)) /\
             map key rest = map (pair (pred (pv_epoch (v p)))) (n_range (nx + 1) a) ++ map (pair (S (pv_epoch (v p)))) (n_range 0 (N.to_nat (pv_count (v (other p)))))) \/
            (S (pv_epoch (v (other p))) = pv_epoch (v p) /\ (nx + 1 + N.of_nat a = pv_count (v (other p)))%N /\
             map key rest = map (pair (pred (pv_epoch (v p)))) (n_range (nx + 1) a)))).
        { rewrite HSk, n_range_cons in P5. cbn [map key app] in P5. destruct P5 as [[Q1 Q2]|(Q1 & Q2 & Q3)].
          - injection Q2 as -> -> Q2. split; [reflexivity|]. split; [reflexivity|]. left. auto.
          - injection Q3 as -> -> Q3. split; [reflexivity|]. split; [reflexivity|]. right. split; [exact Q1|]. split; [lia|exact Q3]. }
        destruct HH as (-> & -> & HH).
        destruct P4 as [[_ P4]|(c & F1 & F2 & F3)]; [discriminate|].
        assert (HPl : cdeliver (v p) (pred (pv_epoch (v p))) nx pt = (Plain pt, {| pv_epoch := pv_epoch (v p); pv_count := pv_count (v p);
             pv_chains := creplace {| cv_epoch := cv_epoch c; cv_next := nx + 1; cv_kept := [] |} (pv_chains (v p)) |})).
        { unfold cdeliver. rewrite F1. unfold caccept. rewrite F3, N.ltb_irrefl, N.sub_diag, F2. reflexivity. }
        destruct (cdeliver_plain _ _ _ _ _ _ P1 HPl) as (_ & HV' & _). rewrite HPl in EC. injection EC as <- <-. exists pt. split; [reflexivity|].
        destruct (cfind_in _ _ _ F1) as [G1 G2].
        intros q'. destruct (party_cases p q') as [->| ->].
        + unfold fifo_inv. rewrite !upd_same, !upd_diff. cbn [pv_epoch pv_count pv_chains]. split; [exact HV'|].
          split; [unfold creplace; rewrite map_length; exact P2|]. split; [exact HLen|]. exists (nx + 1)%N, a. split.
          * right. exists {| cv_epoch := cv_epoch c; cv_next := nx + 1; cv_kept := [] |}. split; [|split; reflexivity].
            rewrite G2. revert F1. clear. generalize (pv_chains (v p)). generalize (pred (pv_epoch (v p))). intros k l. unfold cfind, creplace. cbn [cv_epoch].
            induction l as [|y l IH]; intros H; [discriminate|]. cbn [find map] in *. destruct (Nat.eqb_spec (cv_epoch y) k) as [E|E].
            -- cbn [cv_epoch]. rewrite Nat.eqb_refl. reflexivity.
            -- destruct (Nat.eqb_spec (cv_epoch y) k); [contradiction|]. apply IH. exact H.
          * rewrite <- HRest. exact HH.
        + unfold fifo_inv. rewrite Hoo, !upd_same, !upd_diff. cbn [pv_epoch pv_count pv_chains]. split; [exact O1|]. split; [exact O2|]. split; [exact O3|].
          exists nx', a'. split; assumption. }
    destruct STEP as (q & -> & HNext). constructor; [exists q; reflexivity|]. apply (IH _ _ (upd_party r p (S (r p)))); [exact HNext|].
    intros q'. specialize (HD q'). unfold delivered in *. cbn [flat_map] in HD. destruct (party_cases p q') as [->| ->].
    + rewrite upd_same. replace (party_eqb p p) with true in HD by (destruct p; reflexivity). cbn [app length seq] in HD. injection HD as HD. exact HD.
    + rewrite upd_diff. replace (party_eqb (other p) p) with false in HD by (destruct p; reflexivity). cbn [app] in HD. exact HD.
Qed.

Lemma fifo_start : forall evs, (forall p, delivered p (cspec start_view (fun _ => []) evs) = seq 0 (length (delivered p (cspec start_view (fun _ => []) evs)))) ->
  Forall (fun y => exists pt, snd y = Plain pt) (cspec start_view (fun _ => []) evs).
Proof.
  intros evs H. apply (fifo evs _ _ (fun _ => 0%nat)); [|exact H]. intros p.
  assert (HV : pview_ok (start_view p)) by (destruct p; cbn; split; cbn; repeat constructor; auto; intros n []).
  split; [exact HV|]. split; [destruct p; cbn; lia|]. split; [cbn; lia|]. exists 0%N, 0%nat. destruct p; cbn; split; auto.
  right. eexists. split; [reflexivity|]. split; reflexivity.
Qed.

Lemma conforms_plain : forall o x, conforms o x -> Forall (fun y => exists pt, snd y = Plain pt) x ->
  o = map (fun y => match y with (p, i, Plain pt) => (p, i, Ok pt) | (p, i, _) => (p, i, Panic) end) x.
Proof.
  intros o x H. induction H; intros HF; [reflexivity| | | |]; inversion HF as [|? ? [q Hq] HF']; subst; cbn [snd] in Hq; try discriminate.
  cbn [map]. f_equal. apply IHconforms. exact HF'.
Qed.

(** * The end results *)

Section Final.
Context (C : crypto) (L : crypto_laws C).

Definition privs (wa wb : world) (p : party) : arr32 := ip_priv (w_self (both wa wb p)).

Lemma start_of_strangers : forall addr wa wb b i sid signed otk g g1 g2 eph ratchet wa1 g' evs,
  strangers C addr wa wb b i sid signed otk -> generate_key_pair C g = (Ok eph, g1) -> generate_key_pair C g1 = (Ok ratchet, g2) ->
  w_process_bundle C (addr Bob) b g wa = (Ok tt, wa1, g') -> fair C signed ratchet evs ->
  exists E k1 k2, eph = pair_of C k1 /\ ratchet = pair_of C k2 /\ map en_priv E = [signed; k2] /\
    ginv C addr (privs wa wb) (kp_pub eph) signed otk i sid E start_view (fun _ => []) (both wa1 wb) (fun _ => []) evs.
Proof.
  intros addr wa wb b i sid signed otk g g1 g2 eph ratchet wa1 g' evs H HG1 HG2 HP (F1 & F2 & F3 & F4). destruct H.
  destruct (generated C _ _ _ HG1) as (k1 & ->). destruct (generated C _ _ _ HG2) as (k2 & ->).
  cbn [kp_pub pair_of] in *.
  assert (HX : exists E, map en_priv E = [signed; k2] /\
    ginv C addr (privs wa wb) (x_base C k1) signed otk i sid E start_view (fun _ => []) (both wa1 wb) (fun _ => []) evs);
    [|destruct HX as (E & X1 & X2); exists E, k1, k2; split; [reflexivity|]; split; [reflexivity|]; split; [exact X1|exact X2]].
  eapply (start_inv C L addr (privs wa wb) (x_base C k1) signed otk i sid st_i st_sid st_i_max wa wb b k1 k2 g g1 g2 wa1 g' evs); eauto.
  - unfold idk, privs, both. rewrite <- st_alice. destruct (w_self wa); reflexivity.
  - split; [exact st_no_bob|]. split; [exact st_prekey|]. split; [exact st_signed|]. unfold idk, privs, both. rewrite <- st_bob. destruct (w_self wb); reflexivity.
  - intros _ saved. unfold idk, privs, both, other. rewrite <- st_alice. apply st_trust.
  - unfold idk, privs, both. rewrite <- st_bob. exact st_b_identity.
Qed.

Lemma any_schedule : forall addr wa wb b i sid signed otk g g1 g2 eph ratchet wa1 g' evs,
  strangers C addr wa wb b i sid signed otk -> generate_key_pair C g = (Ok eph, g1) -> generate_key_pair C g1 = (Ok ratchet, g2) ->
  w_process_bundle C (addr Bob) b g wa = (Ok tt, wa1, g') -> fair C signed ratchet evs ->
  conforms (crun C addr (both wa1 wb) (fun _ => []) evs) (cspec start_view (fun _ => []) evs).
Proof.
  intros addr wa wb b i sid signed otk g g1 g2 eph ratchet wa1 g' evs H HG1 HG2 HP HF.
  destruct (start_of_strangers _ _ _ _ _ _ _ _ _ _ _ _ _ _ _ _ H HG1 HG2 HP HF) as (E & k1 & k2 & _ & _ & _ & HI). destruct H.
  eapply (simulation C L); [exact st_i|exact st_sid|exact st_i_max|exact HI].
Qed.

Lemma first_contact : forall addr wa wb b i sid signed otk g g1 g2 eph ratchet wa1 g' pt g3,
  strangers C addr wa wb b i sid signed otk -> generate_key_pair C g = (Ok eph, g1) -> generate_key_pair C g1 = (Ok ratchet, g2) ->
  w_process_bundle C (addr Bob) b g wa = (Ok tt, wa1, g') -> fair C signed ratchet [Send Alice pt; Deliver Bob 0 g3] ->
  exists ct wa2 k wb2 sa sb, w_encrypt C (addr Bob) pt wa1 = (Ok ct, wa2) /\ pack ct = Ok k /\ receive C (addr Alice) k g3 wb = (Ok pt, wb2) /\
    w_sessions wa2 (addr Bob) = Some (record_from_state sa) /\ w_sessions wb2 (addr Alice) = Some (record_from_state sb) /\ matching C sa sb.
Proof.
  intros addr wa wb b i sid signed otk g g1 g2 eph ratchet wa1 g' pt g3 H HG1 HG2 HP HF.
  destruct (start_of_strangers _ _ _ _ _ _ _ _ _ _ _ _ _ _ _ _ H HG1 HG2 HP HF) as (E & k1 & k2 & _ & _ & _ & HI). destruct H.
  destruct HI as [I1 I2 I3 I4 I13 I5 I6 I7 I8 I9 I10 I11 I12].
  destruct (I7 Alice) as [_ (s & S1 & S2 & S3 & S4 & S5)]. cbn [both other] in *. destruct (I7 Bob) as [HT (_ & HB)]. cbn [both] in *.
  set (pv := privs wa wb) in *. set (bs := kp_pub eph) in *.
  assert (HV' : v_load (view_of wa1 (addr Bob)) = record_from_state s) by (unfold view_of; cbn [v_load]; rewrite S1; reflexivity).
  assert (HPO : pending_ok s (idk C pv Alice)).
  { unfold pending_ok. rewrite S4. cbn. exists i. auto. }
  destruct (encrypt_rel C L E (idk C pv Alice) (idk C pv Bob) (start_view Alice) s (view_of wa1 (addr Bob)) pt S2 I1)
    as (ct & k & m & s' & E1 & E2 & E3 & E4 & E5 & E6 & E7); [cbn; lia|apply I12; left; reflexivity|exact HPO|rewrite HV'; reflexivity|].
  assert (HIn : initialised s') by (eapply state_rel_initialised; [exact E5|]; destruct E7 as (K1 & _); rewrite K1; exact S3).
  assert (HW : wire_rel C pv bs i sid E Alice k (1%nat, 0%N, pt)).
  { exists m. split; [exact E4|]. unfold parses_to in E3. rewrite S4 in E3. cbn [pending_at start_view pv_epoch] in E3.
    destruct k as [q|q]; [destruct E3|]. split; [reflexivity|]. destruct E3 as (pm & P1 & P2 & P3 & P4 & P5 & P6 & P7). exists pm. repeat split; auto. }
  destruct I2 as (x & X1 & X2).
  assert (HG : exists priv' g4, generate_key_pair C g3 = (Ok (pair_of C priv'), g4) /\ new_pub C g3 = Some (x_base C priv')).
  { specialize (I6 g3 (or_introl eq_refl)). unfold new_pub in *. destruct (generate_key_pair C g3) as [[pr| |] g4] eqn:EG; cbn [fst] in *; try congruence.
    destruct (generated C _ _ _ EG) as (k' & ->). eauto. }
  destruct HG as (priv' & g4 & HG & HNP). cbn [delivery_rngs flat_map app map] in I5.
  assert (HN : NoDup (map (en_pub C) E)) by (apply nodup_app_left in I5; apply (NoDup_map_inv Some); rewrite map_map; exact I5).
  destruct (receive_first C L addr pv bs signed otk i sid st_i st_sid st_i_max E x wb k 1%nat 0%N pt priv' g3 g4 HB HT HW eq_refl I1 HN I3 X1 X2 HG)
    as (o & w' & R1 & R2 & _).
  unfold outcome in R2. change (cdeliver no_view 1 0 pt) with
    (Plain pt, {| pv_epoch := 2; pv_count := 0; pv_chains := [{| cv_epoch := 1; cv_next := 1; cv_kept := [] |}] |}) in R2.
  destruct R2 as (-> & F & F1 & F2 & F3 & F4 & F5). destruct F5 as [(_ & D & _)|(ent & -> & Q1 & _)]; [discriminate|].
  assert (HNF : NoDup (map (en_pub C) (E ++ [ent]))).
  { apply (NoDup_map_inv Some). rewrite map_map, map_app. cbn [map]. replace (Some (en_pub C ent)) with (new_pub C g3); [exact I5|]. rewrite HNP. unfold en_pub. rewrite Q1. reflexivity. }
  destruct (F4 HNF) as (sb & B1 & B2 & B3 & B4 & B5).
  exists ct. eexists. exists k, w', s', sb. unfold w_encrypt. rewrite E1, HV'. cbn [commit apply_effect].
  rewrite persist_ok by (auto; constructor). cbn [commit seal]. split; [reflexivity|]. split; [exact E2|]. split; [exact R1|].
  split; [cbn [w_sessions]; apply upd_addr_here|]. split; [exact B1|].
  destruct E5 as (_ & T1 & T2 & _ & _ & (y & Hy & T3 & T4) & _). destruct B2 as (_ & U1 & U2 & _ & _ & (z & Hz & U3 & U4) & U5 & _).
  split; [rewrite T1, U2; reflexivity|]. split; [rewrite T2, U1; reflexivity|]. split; [rewrite B3; destruct E7 as (K1 & _); congruence|].
  cbn [pv_epoch pv_count pv_chains start_view] in *.
  inversion U5 as [|rc cv l l' HRC HNil EQ1 EQ2]; subst cv l'. inversion HNil; subst l.
  destruct HRC as (y' & Hy' & HC1 & HC2 & _). cbn [cv_epoch cv_next] in *.
  assert (Hyy : nth_error (E ++ [ent]) 1 = Some y) by (apply nth_mono; exact Hy). rewrite Hyy in Hy'. injection Hy' as <-.
  eexists. eexists. exists (en_root y), (en_root z), rc. split; [exact T4|]. split; [exact T3|]. split; [exact U4|]. split; [exact U3|].
  cbn [ch_pair kp_pub pair_of ch_key]. split.
  - unfold receiver_chain. rewrite <- EQ1. cbn [find]. assert (EC : chain_is (x_base C (en_priv y)) rc = true) by (apply chain_is_eq; rewrite HC1; reflexivity).
    rewrite EC. reflexivity.
  - split; [rewrite HC2; reflexivity|]. destruct (create_chain_agree C L (en_root y) (en_priv y) (en_priv z)) as (kk & K1 & K2 & _).
    rewrite K1, <- K2. exact (proj1 F1 _ _ _ Hyy Hz).
Qed.
End Final.
