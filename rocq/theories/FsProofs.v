(** FsProofs.v: the symbolic ratchet forgets used keys, and heals (C51, C54). *)
From Verif Require Import Base Labels Crypto Ecc Keys SessionState GroupSpec FsSpec.
From Coq Require Import Lia List FinFun.
Import ListNotations.
Local Open Scope list_scope.

(** * Terms *)

Inductive is_root : term -> nat -> Prop :=
| R_init : is_root (Init 0) 0
| R_next : forall t n dh, is_root t n -> is_root (NextRoot t dh) (S n).

(** The first key of a chain, and the number of the root it was made from plus one. *)
Inductive is_base : term -> nat -> Prop :=
| B_init : forall n, is_base (Init (S n)) 0
| B_new : forall t n dh, is_root t n -> is_base (NewChain t dh) (S n).

Lemma base_not_step : forall b l t, is_base b l -> b <> Step t.
Proof. intros b l t H. inversion H; discriminate. Qed.
Lemma base_level : forall b l l', is_base b l -> is_base b l' -> l = l'.
Proof.
  assert (R : forall t n m, is_root t n -> is_root t m -> n = m).
  { intros t. induction t; intros a b H1 H2; inversion H1; inversion H2; subst; try reflexivity. f_equal. eauto. }
  intros b l l' H1 H2. inversion H1; subst; inversion H2; subst; auto. f_equal. eauto.
Qed.
Lemma steps_inj : forall n m b c l l', is_base b l -> is_base c l' -> steps n b = steps m c -> n = m /\ b = c.
Proof.
  induction n as [|n IH]; intros [|m] b c l l' HB HC E; cbn [steps] in E.
  - auto.
  - exfalso. eapply base_not_step; [exact HB|exact E].
  - exfalso. eapply base_not_step; [exact HC|symmetry; exact E].
  - injection E as E. destruct (IH m b c l l' HB HC E). auto.
Qed.
Lemma steps_add : forall a b t, steps a (steps b t) = steps (a + b) t.
Proof. induction a as [|a IH]; intros b t; [reflexivity|]. cbn [steps Nat.add]. rewrite IH. reflexivity. Qed.

(** Derivations start at one held key. *)
Inductive anc (k : term) : term -> Prop :=
| A_refl : anc k k
| A_step : forall t, anc k t -> anc k (Step t)
| A_msg : forall t, anc k t -> anc k (Msg t)
| A_root : forall t dh, anc k t -> anc k (NextRoot t dh)
| A_chain : forall t dh, anc k t -> anc k (NewChain t dh).
Lemma derivable_anc : forall G K t, derivable G K t -> exists k, In k K /\ anc k t.
Proof.
  intros G K t H. induction H as [t H|t H (k & IH1 & IH2)|t H (k & IH1 & IH2)|t dh H (k & IH1 & IH2)|t dh H (k & IH1 & IH2)]; exists k || exists t; split; try assumption; constructor; assumption.
Qed.

Lemma anc_root : forall k t n, is_root t n -> anc k t -> exists m, is_root k m /\ (m <= n)%nat.
Proof.
  intros k t n HR. induction HR as [|t n dh HR IH]; intros HA.
  - inversion HA; subst. exists 0%nat. split; [constructor|lia].
  - inversion HA; subst.
    + exists (S n). split; [constructor; exact HR|lia].
    + destruct (IH H0) as (m & M1 & M2). exists m. split; [exact M1|lia].
Qed.
Lemma anc_base : forall k b l, is_base b l -> anc k b -> k = b \/ exists m, is_root k m /\ (m < l)%nat.
Proof.
  intros k b l HB HA. inversion HB; subst; inversion HA; subst; auto. right. destruct (anc_root _ _ _ H H1) as (m & M1 & M2). exists m. split; [exact M1|lia].
Qed.
Lemma anc_chain : forall k b l j, is_base b l -> anc k (steps j b) -> (exists n, (n <= j)%nat /\ k = steps n b) \/ exists m, is_root k m /\ (m < l)%nat.
Proof.
  intros k b l j HB. induction j as [|j IH]; intros HA; cbn [steps] in HA.
  - destruct (anc_base k b l HB HA) as [->|H]; [left; exists 0%nat; auto|right; exact H].
  - inversion HA; subst; [left; exists (S j); auto|]. destruct (IH H0) as [(n & N1 & N2)|H]; [left; exists n; split; [lia|exact N2]|right; exact H].
Qed.

(** * The invariant *)

(** One chain with first key [b] at position [n]: the kept keys are of earlier positions, without repetition; used keys of this
    chain are of earlier positions and not kept. *)
Definition chain_ok (D : nat) (used : list term) (key : term) (kept : list term) : Prop :=
  exists b l n, is_base b l /\ (l <= D)%nat /\ key = steps n b /\ NoDup kept /\
    (forall t, In t kept -> exists k, (k < n)%nat /\ t = Msg (steps k b)) /\
    (forall j, In (Msg (steps j b)) used -> (j < n)%nat /\ ~ In (Msg (steps j b)) kept).
Fixpoint base_of (t : term) : term := match t with Step t => base_of t | _ => t end.
Lemma base_of_steps : forall n b l, is_base b l -> base_of (steps n b) = b.
Proof. intros n b l H. induction n as [|n IH]; [inversion H; reflexivity|exact IH]. Qed.

Definition kept_of (c : ychain) : list term := map snd (yc_kept c).
Definition inv (y : ysession) (used : list term) : Prop :=
  exists D, is_root (y_root y) D /\
    chain_ok D used (y_send y) [] /\
    Forall (fun c => chain_ok D used (yc_key c) (kept_of c)) (y_recv y) /\
    NoDup (base_of (y_send y) :: map (fun c => base_of (yc_key c)) (y_recv y)) /\
    NoDup used /\
    (forall t, In t used -> exists b l j, is_base b l /\ (l <= D)%nat /\ t = Msg (steps j b)).

Lemma chain_ok_base : forall D used key kept, chain_ok D used key kept -> exists l, is_base (base_of key) l /\ (l <= D)%nat.
Proof. intros D used key kept (b & l & n & HB & HL & -> & _). exists l. rewrite (base_of_steps n b l HB). auto. Qed.

(** Using a key of another chain does not matter. *)
Lemma chain_ok_other : forall D used key kept t b l j, chain_ok D used key kept -> is_base b l -> t = Msg (steps j b) -> b <> base_of key ->
  chain_ok D (used ++ [t]) key kept.
Proof.
  intros D used key kept t b l j (b' & l' & n & HB & HL & HK & ND & HI & HU) Hb Ht Hne. exists b', l', n. repeat split; try assumption.
  - apply in_app_iff in H. destruct H as [H|[H|[]]]; [apply (HU j0 H)|]. exfalso. apply Hne. rewrite HK, (base_of_steps n b' l' HB). subst t. injection H as H.
    destruct (steps_inj _ _ _ _ _ _ Hb HB H) as [_ E]. exact E.
  - apply in_app_iff in H. destruct H as [H|[H|[]]]; [apply (HU j0 H)|]. exfalso. apply Hne. rewrite HK, (base_of_steps n b' l' HB). subst t. injection H as H.
    destruct (steps_inj _ _ _ _ _ _ Hb HB H) as [_ E]. exact E.
Qed.

Lemma chain_ok_weaken : forall D D' used key kept, chain_ok D used key kept -> (D <= D')%nat -> chain_ok D' used key kept.
Proof. intros D D' used key kept (b & l & n & HB & HL & R) HD. exists b, l, n. split; [exact HB|]. split; [lia|exact R]. Qed.

Lemma msg_steps_nodup : forall b l d m, is_base b l -> NoDup (map (fun i => Msg (steps i (steps m b))) (seq 0 d)).
Proof.
  intros b l d m HB. apply FinFun.Injective_map_NoDup; [|apply seq_NoDup]. intros i j E. injection E as E. rewrite !steps_add in E.
  destruct (steps_inj _ _ _ _ _ _ HB HB E). lia.
Qed.

Lemma nodup_app_r : forall A (a b : list A), NoDup (a ++ b) -> NoDup b.
Proof. intros A a. induction a as [|x a IH]; intros b H; [exact H|]. inversion H; subst. apply IH. assumption. Qed.
Lemma last_n_incl : forall A n (l : list A) x, In x (last_n n l) -> In x l.
Proof. intros A n l x H. unfold last_n in H. rewrite <- (firstn_skipn (length l - n) l). apply in_app_iff. right. exact H. Qed.
Lemma last_n_nodup : forall A n (l : list A), NoDup l -> NoDup (last_n n l).
Proof. intros A n l H. unfold last_n. rewrite <- (firstn_skipn (length l - n) l) in H. apply nodup_app_r in H. exact H. Qed.
Lemma last_n_map : forall A B (f : A -> B) n l, last_n n (map f l) = map f (last_n n l).
Proof. intros A B f n l. unfold last_n. rewrite map_length, skipn_map. reflexivity. Qed.

Lemma NoDup_app_intro : forall A (a b : list A), NoDup a -> NoDup b -> (forall x, In x a -> ~ In x b) -> NoDup (a ++ b).
Proof.
  intros A a. induction a as [|x a IH]; intros b HA HB HD; [exact HB|]. inversion HA; subst. cbn [app]. constructor.
  - intros H. apply in_app_iff in H. destruct H as [H|H]; [contradiction|]. apply (HD x); [left; reflexivity|exact H].
  - apply IH; auto. intros z Hz. apply HD. right. exact Hz.
Qed.

(** Using a key of the chain itself. *)
Lemma use_ok : forall D used c n t c', chain_ok D used (yc_key c) (kept_of c) -> yuse c n t c' ->
  chain_ok D (used ++ [t]) (yc_key c') (kept_of c') /\ base_of (yc_key c') = base_of (yc_key c) /\
  (exists l j, is_base (base_of (yc_key c)) l /\ (l <= D)%nat /\ t = Msg (steps j (base_of (yc_key c)))) /\ ~ In t used.
Proof.
  intros D used c n t c' (b & l & m & HB & HL & HK & ND & HI & HU) H. inversion H; subst; unfold kept_of in *; cbn [yc_key yc_kept] in *.
  - rewrite H0 in *. rewrite map_app in *. cbn [map snd] in *.
    assert (Ht : exists k, (k < m)%nat /\ t = Msg (steps k b)) by (apply HI, in_app_iff; right; left; reflexivity). destruct Ht as (k & K1 & K2).
    assert (NU : ~ In t used) by (intros X; rewrite K2 in X; apply HU in X; destruct X as [_ X]; apply X; rewrite <- K2; apply in_app_iff; right; left; reflexivity).
    rewrite HK, (base_of_steps m b l HB). split; [|split; [reflexivity|split; [exists l, k; auto|exact NU]]].
    exists b, l, m. split; [exact HB|]. split; [exact HL|]. split; [reflexivity|]. split; [rewrite ?map_app; apply NoDup_remove_1 with t; exact ND|]. split.
    + intros x Hx. apply HI. rewrite ?map_app in Hx. apply in_app_iff in Hx. apply in_app_iff. destruct Hx; [left|right; right]; assumption.
    + intros j Hj. apply in_app_iff in Hj. destruct Hj as [Hj|[Hj|[]]].
      * destruct (HU j Hj) as [J1 J2]. split; [exact J1|]. intros X. apply J2. rewrite ?map_app in X. apply in_app_iff in X. apply in_app_iff. destruct X; [left|right; right]; assumption.
      * rewrite K2 in Hj. injection Hj as Hj. destruct (steps_inj _ _ _ _ _ _ HB HB Hj) as [-> _]. split; [exact K1|]. rewrite <- K2, ?map_app. apply NoDup_remove_2 with (1 := ND).
  - rewrite HK. assert (NU : forall i, ~ In (Msg (steps i (steps m b))) used).
    { intros i X. rewrite steps_add in X. apply HU in X. lia. }
    assert (EB : base_of (steps (S d) (steps m b)) = b) by (rewrite steps_add; apply (base_of_steps _ _ _ HB)).
    rewrite EB, (base_of_steps m b l HB). split; [|split; [reflexivity|split; [exists l, (d + m)%nat; rewrite steps_add; auto|apply NU]]].
    rewrite <- last_n_map, map_app. unfold skipped. rewrite map_map. cbn [snd].
    exists b, l, (S d + m)%nat. split; [exact HB|]. split; [exact HL|]. split; [apply steps_add|].
    assert (DJ : forall x, In x (map snd (yc_kept c)) -> ~ In x (map (fun i => Msg (steps i (steps m b))) (seq 0 d))).
    { intros x Hx Hy. destruct (HI x Hx) as (k & K1 & K2). apply in_map_iff in Hy. destruct Hy as (i & Hy & _). rewrite K2, steps_add in Hy. injection Hy as Hy.
      destruct (steps_inj _ _ _ _ _ _ HB HB Hy). lia. }
    split; [apply last_n_nodup, NoDup_app_intro; [exact ND|eapply msg_steps_nodup; exact HB|exact DJ]|]. split.
    + intros x Hx. apply last_n_incl, in_app_iff in Hx. destruct Hx as [Hx|Hx].
      * destruct (HI x Hx) as (k & K1 & K2). exists k. split; [lia|exact K2].
      * apply in_map_iff in Hx. destruct Hx as (i & <- & Hi). apply in_seq in Hi. exists (i + m)%nat. rewrite steps_add. split; [lia|reflexivity].
    + intros j Hj. apply in_app_iff in Hj. destruct Hj as [Hj|[Hj|[]]].
      * destruct (HU j Hj) as [J1 J2]. split; [lia|]. intros X. apply last_n_incl, in_app_iff in X. destruct X as [X|X]; [exact (J2 X)|].
        apply in_map_iff in X. destruct X as (i & X & _). rewrite steps_add in X. injection X as X. destruct (steps_inj _ _ _ _ _ _ HB HB X). lia.
      * rewrite steps_add in Hj. injection Hj as Hj. destruct (steps_inj _ _ _ _ _ _ HB HB Hj) as [E _]. subst j. split; [lia|]. intros X. apply last_n_incl, in_app_iff in X.
        destruct X as [X|X].
        -- destruct (HI _ X) as (k & K1 & K2). injection K2 as K2. destruct (steps_inj _ _ _ _ _ _ HB HB K2). lia.
        -- apply in_map_iff in X. destruct X as (i & X & Hi). apply in_seq in Hi. rewrite steps_add in X. injection X as X. destruct (steps_inj _ _ _ _ _ _ HB HB X). lia.
Qed.

Lemma NoDup_snoc : forall A (l : list A) x, NoDup l -> ~ In x l -> NoDup (l ++ [x]).
Proof. intros A l x H N. apply NoDup_app_intro; [exact H|repeat constructor; intros []|]. intros z Hz [<-|[]]. contradiction. Qed.

Lemma send_use : forall D used key, chain_ok D used key [] ->
  chain_ok D (used ++ [Msg key]) (Step key) [] /\ ~ In (Msg key) used /\ exists l j, is_base (base_of key) l /\ (l <= D)%nat /\ Msg key = Msg (steps j (base_of key)).
Proof.
  intros D used key (b & l & m & HB & HL & -> & ND & HI & HU). rewrite (base_of_steps m b l HB). split; [|split].
  - exists b, l, (S m). split; [exact HB|]. split; [exact HL|]. split; [reflexivity|]. split; [constructor|]. split; [intros t []|].
    intros j Hj. split; [|intros []]. apply in_app_iff in Hj. destruct Hj as [Hj|[Hj|[]]].
    + apply HU in Hj. lia.
    + injection Hj as Hj. destruct (steps_inj _ _ _ _ _ _ HB HB Hj). lia.
  - intros X. apply HU in X. lia.
  - exists l, m. auto.
Qed.

Lemma map_mid : forall A B (f : A -> B) a x y b, f x = f y -> map f (a ++ x :: b) = map f (a ++ y :: b).
Proof. intros A B f a x y b H. rewrite !map_app. cbn [map]. rewrite H. reflexivity. Qed.

Lemma last_n_cases : forall A n (l : list A), exists pre, l = pre ++ last_n n l.
Proof. intros A n l. exists (firstn (length l - n) l). symmetry. apply firstn_skipn. Qed.

Lemma inv_step : forall y used u y', inv y used -> ystep y u y' -> inv y' (used ++ u).
Proof.
  intros y used u y' I H. revert used I. destruct H as [y|y a c b n t c' H0 H1|y k dh1 dh2]; intros used (D & HR & HS & HC & HN & HU & HB).
  - destruct (send_use D used (y_send y) HS) as (S1 & S2 & (l & j & S3 & S4 & S5)). exists D. cbn [y_root y_send y_recv]. split; [exact HR|]. split; [exact S1|].
    inversion HN as [|? ? N1 N2]; subst. split; [|split; [exact HN|split; [apply NoDup_snoc; assumption|]]].
    + apply Forall_forall. intros c Hc. rewrite Forall_forall in HC. apply chain_ok_other with (b := base_of (y_send y)) (l := l) (j := j); [apply HC; exact Hc|exact S3|exact S5|].
      intros E. apply N1. rewrite E. apply (in_map (fun c => base_of (yc_key c))). exact Hc.
    + intros t Ht. apply in_app_iff in Ht. destruct Ht as [Ht|[<-|[]]]; [apply HB; exact Ht|]. exists (base_of (y_send y)), l, j. auto.
  - rewrite H0 in *. apply Forall_app in HC. destruct HC as [HC1 HC2]. inversion HC2 as [|? ? HC3 HC4]; subst.
    destruct (use_ok D used c n t c' HC3 H1) as (U1 & U2 & (l & j & U3 & U4 & U5) & U6).
    pose proof (proj1 (NoDup_cons_iff _ _) HN) as [N1 N2].
    assert (OT : forall k, base_of (yc_key c) <> base_of k -> forall kept, chain_ok D used k kept -> chain_ok D (used ++ [t]) k kept).
    { intros k Hk kept HK. apply chain_ok_other with (b := base_of (yc_key c)) (l := l) (j := j); assumption. }
    assert (ND : forall c0, In c0 (a ++ b) -> base_of (yc_key c) <> base_of (yc_key c0)).
    { intros c0 H2 E. rewrite map_app in N2. cbn [map] in N2. apply NoDup_remove_2 in N2. apply N2. rewrite <- map_app, E. apply (in_map (fun c => base_of (yc_key c))). exact H2. }
    exists D. cbn [y_root y_send y_recv]. split; [exact HR|]. split; [apply OT; [|exact HS]; intros E; apply N1; rewrite <- E; rewrite map_app; apply in_app_iff; right; left; reflexivity|].
    split; [|split; [|split; [apply NoDup_snoc; assumption|]]].
    + rewrite Forall_forall in HC1, HC4. apply Forall_app. split; [|constructor; [exact U1|]]; apply Forall_forall; intros x Hx; apply OT; try (apply HC1; exact Hx); try (apply HC4; exact Hx); apply ND, in_app_iff; auto.
    + rewrite (map_mid _ _ (fun c => base_of (yc_key c)) a c' c b U2). exact HN.
    + intros x Hx. apply in_app_iff in Hx. destruct Hx as [Hx|[<-|[]]]; [apply HB; exact Hx|]. exists (base_of (yc_key c)), l, j. auto.
  - unfold y_ratcheted. rewrite app_nil_r. exists (S (S D)). cbn [y_root y_send y_recv]. set (R := y_root y) in *.
    assert (B1 : is_base (NewChain R dh1) (S D)) by (constructor; exact HR). assert (B2 : is_base (NewChain (NextRoot R dh1) dh2) (S (S D))) by (constructor; constructor; exact HR).
    assert (NEW : forall b l, is_base b l -> (D < l)%nat -> (l <= S (S D))%nat -> chain_ok (S (S D)) used b []).
    { intros b l Hb L1 L2. exists b, l, 0%nat. split; [exact Hb|]. split; [exact L2|]. split; [reflexivity|]. split; [constructor|]. split; [intros t []|].
      intros j Hj. exfalso. destruct (HB _ Hj) as (b' & l' & j' & B3 & B4 & B5). injection B5 as B5. destruct (steps_inj _ _ _ _ _ _ Hb B3 B5) as [_ E]. subst b'.
      pose proof (base_level _ _ _ Hb B3). lia. }
    split; [constructor; constructor; exact HR|]. split; [apply (NEW _ _ B2); lia|].
    set (new := {| yc_pub := k; yc_key := NewChain R dh1; yc_pos := 0; yc_kept := [] |}).
    assert (ALL : Forall (fun c => chain_ok (S (S D)) used (yc_key c) (kept_of c)) (y_recv y ++ [new])).
    { apply Forall_app. split; [|constructor; [|constructor]].
      - apply Forall_forall. intros c Hc. rewrite Forall_forall in HC. apply chain_ok_weaken with D; [apply HC; exact Hc|lia].
      - apply (NEW _ _ B1); lia. }
    destruct (last_n_cases _ 5 (y_recv y ++ [new])) as (pre & EP).
    split; [rewrite EP in ALL; apply Forall_app in ALL; apply ALL|]. split; [|split; [exact HU|]].
    + inversion HN as [|? ? N1 N2]; subst.
      assert (OLD : forall c, In c (y_recv y) -> exists l, is_base (base_of (yc_key c)) l /\ (l <= D)%nat).
      { intros c Hc. rewrite Forall_forall in HC. eapply chain_ok_base. apply HC. exact Hc. }
      assert (X : NoDup (NewChain (NextRoot R dh1) dh2 :: map (fun c => base_of (yc_key c)) (y_recv y ++ [new]))).
      { rewrite map_app. cbn [map new yc_key base_of]. constructor.
        - intros X. apply in_app_iff in X. destruct X as [X|[X|[]]].
          + apply in_map_iff in X. destruct X as (c & X & Hc). destruct (OLD c Hc) as (l & L1 & L2). rewrite X in L1. pose proof (base_level _ _ _ B2 L1). lia.
          + rewrite <- X in B2. pose proof (base_level _ _ _ B1 B2). lia.
        - apply NoDup_snoc; [exact N2|]. intros X. apply in_map_iff in X. destruct X as (c & X & Hc). destruct (OLD c Hc) as (l & L1 & L2). rewrite X in L1.
          pose proof (base_level _ _ _ B1 L1). lia. }
      cbn [base_of]. rewrite EP, map_app in X. inversion X as [|? ? X1 X2]; subst. constructor.
      * intros Y. apply X1. apply in_app_iff. right. exact Y.
      * apply nodup_app_r in X2. exact X2.
    + intros t Ht. destruct (HB t Ht) as (b & l & j & B3 & B4 & B5). exists b, l, j. split; [exact B3|]. split; [lia|exact B5].
Qed.

Lemma inv_start : forall y, ystart y -> inv y [].
Proof.
  intros y [R YS K E]. exists 0%nat. rewrite R, YS. split; [constructor|].
  assert (NEW : forall n, chain_ok 0 [] (Init (S n)) []).
  { intros n. exists (Init (S n)), 0%nat, 0%nat. split; [constructor|]. split; [lia|]. split; [reflexivity|]. split; [constructor|]. split; intros ? []. }
  split; [apply NEW|]. assert (KS : forall c, In c (y_recv y) -> exists n, yc_key c = Init (S (S n))).
  { intros c Hc. apply (in_map yc_key) in Hc. rewrite K in Hc. apply in_map_iff in Hc. destruct Hc as (n & <- & Hn). apply in_seq in Hn. destruct n as [|[|n]]; [lia|lia|]. exists n. reflexivity. }
  split; [|split; [|split; [constructor|intros t []]]].
  - apply Forall_forall. intros c Hc. rewrite Forall_forall in E. unfold kept_of. rewrite (E c Hc). destruct (KS c Hc) as (n & ->). apply NEW.
  - assert (M : map (fun c => base_of (yc_key c)) (y_recv y) = map Init (seq 2 (length (y_recv y)))).
    { rewrite <- K. apply map_ext_in. intros c Hc. destruct (KS c Hc) as (n & ->). reflexivity. }
    rewrite M. cbn [base_of]. constructor.
    + intros X. apply in_map_iff in X. destruct X as (n & X & Hn). injection X as ->. apply in_seq in Hn. lia.
    + apply Injective_map_NoDup; [intros a b X; injection X; auto|apply seq_NoDup].
Qed.

Lemma inv_run : forall y0 used y, ystart y0 -> yrun y0 used y -> inv y used.
Proof. intros y0 used y HS H. induction H as [y|y u y1 v y2 H IH H1]; [apply inv_start; exact HS|]. eapply inv_step; [apply IH; exact HS|exact H1]. Qed.

(** * Forward secrecy *)

Lemma inv_secret : forall y used t others, inv y used -> In t used -> incl others used -> ~ In t others -> forall G, ~ derivable G (held y ++ others) t.
Proof.
  intros y used t others (D & HR & HS & HC & HN & HU & HB) Ht HO Hn G X. destruct (derivable_anc _ _ _ X) as (k & Hk & A).
  destruct (HB t Ht) as (b & l & j & Bb & Bl & ->). assert (MSG : forall x, anc (Msg x) (Msg (steps j b)) -> Msg x = Msg (steps j b)).
  { intros x Y. inversion Y; subst; [reflexivity|]. destruct (anc_chain _ _ _ _ Bb H0) as [(n & _ & E)|(m & E & _)]; [|inversion E].
    destruct n; cbn [steps] in E; [subst b; inversion Bb|discriminate E]. }
  assert (CH : forall key kept, chain_ok D used key kept -> ~ anc key (Msg (steps j b)) /\ ~ In (Msg (steps j b)) kept).
  { intros key kept (b' & l' & n & B1 & B2 & -> & B3 & B4 & B5). split.
    - intros Y. inversion Y as [E0| |? A0| |].
      + destruct n; cbn [steps] in E0; [rewrite E0 in B1; inversion B1|discriminate E0].
      + destruct (anc_chain _ _ _ _ Bb A0) as [(n' & N1 & E)|(m & E & _)].
        * destruct (steps_inj _ _ _ _ _ _ B1 Bb E) as [-> ->]. destruct (B5 _ Ht) as [B6 _]. lia.
        * destruct n; cbn [steps] in E; [inversion B1 as [? E1|? ? ? ? E1]; subst b'; inversion E|inversion E].
    - intros Y. destruct (B4 _ Y) as (m & M1 & M2). injection M2 as M2. destruct (steps_inj _ _ _ _ _ _ Bb B1 M2) as [-> ->]. destruct (B5 _ Ht) as [_ B6]. exact (B6 Y). }
  apply in_app_iff in Hk. destruct Hk as [Hk|Hk].
  - unfold held in Hk. destruct Hk as [<-|[<-|Hk]].
    + revert HR A. generalize (y_root y). intros r HR A. inversion A as [E0| |? A0| |]; [rewrite E0 in HR; inversion HR|]. destruct (anc_chain _ _ _ _ Bb A0) as [(n & _ & E)|(m & E & L)].
      * destruct n; cbn [steps] in E; rewrite E in HR; inversion Bb; subst; inversion HR.
      * assert (m = D) by (clear -E HR; revert m D E HR; induction r; intros m D E HR; inversion E; inversion HR; subst; auto). lia.
    + apply (proj1 (CH _ _ HS)). exact A.
    + apply in_flat_map in Hk. destruct Hk as (c & Hc & Hk). rewrite Forall_forall in HC. destruct (CH _ _ (HC c Hc)) as [C1 C2]. destruct Hk as [<-|Hk]; [exact (C1 A)|].
      assert (E : k = Msg (steps j b)).
      { destruct (HC c Hc) as (b' & l' & n & _ & _ & _ & _ & B4 & _). destruct (B4 k Hk) as (m & _ & ->). apply MSG. exact A. }
      subst k. exact (C2 Hk).
  - destruct (HB k (HO k Hk)) as (b' & l' & j' & _ & _ & ->). rewrite (MSG _ A) in Hk. exact (Hn Hk).
Qed.

Theorem forward_secrecy : forall y0 used y t others, ystart y0 -> yrun y0 used y -> In t used -> incl others used -> ~ In t others ->
  forall G, ~ derivable G (held y ++ others) t.
Proof. intros y0 used y t others HS HR. apply inv_secret. eapply inv_run; eassumption. Qed.

Theorem used_once : forall y0 used y, ystart y0 -> yrun y0 used y -> NoDup used.
Proof. intros y0 used y HS HR. destruct (inv_run _ _ _ HS HR) as (D & _ & _ & _ & _ & HU & _). exact HU. Qed.

(** * Healing *)

(** A term made with a Diffie-Hellman value the attacker does not have. *)
Lemma derivable_needs : forall G K r dh t x, ~ G dh -> (x = NextRoot r dh \/ x = NewChain r dh) -> derivable G K t -> anc x t -> exists k, In k K /\ anc x k.
Proof.
  intros G K r dh t x HG HX HD. induction HD as [t H|t HD IH|t HD IH|t d HD IH Hd|t d HD IH Hd]; intros A.
  - exists t. auto.
  - inversion A; subst; [destruct HX; discriminate|auto].
  - inversion A; subst; [destruct HX; discriminate|auto].
  - inversion A; subst; [|auto]. exfalso. destruct HX as [E|E]; [injection E as _ ->; contradiction|discriminate].
  - inversion A; subst; [|auto]. exfalso. destruct HX as [E|E]; [discriminate|injection E as _ ->; contradiction].
Qed.

Lemma root_level : forall t n m, is_root t n -> is_root t m -> n = m.
Proof. intros t. induction t; intros a b H1 H2; inversion H1; inversion H2; subst; try reflexivity. f_equal. eauto. Qed.

(** No key held or used so far was made from a later root. *)
Lemma not_later : forall y used D r n dh x k, inv y used -> is_root (y_root y) D -> is_root r n -> (D <= n)%nat -> (x = NextRoot r dh \/ x = NewChain r dh) ->
  In k (held y ++ used) -> ~ anc x k.
Proof.
  intros y used D r n dh x k (D' & HR & HS & HC & HN & HU & HB) HD Hr Hn HX Hk A. pose proof (root_level _ _ _ HR HD) as E. subst D'.
  assert (XR : forall m, is_root x m -> (D < m)%nat).
  { intros m Hm. destruct HX as [->| ->]; inversion Hm; subst. match goal with H : is_root r ?q |- _ => pose proof (root_level _ _ _ Hr H) end. lia. }
  assert (XB : forall l, is_base x l -> (D < l)%nat).
  { intros l Hl. destruct HX as [->| ->]; inversion Hl; subst. match goal with H : is_root r ?q |- _ => pose proof (root_level _ _ _ Hr H) end. lia. }
  assert (XM : forall z, x <> Msg z) by (intros z; destruct HX as [->| ->]; discriminate).
  assert (XS : forall z, x <> Step z) by (intros z; destruct HX as [->| ->]; discriminate).
  assert (CH : forall b l j, is_base b l -> (l <= D)%nat -> ~ anc x (steps j b)).
  { intros b l j Hb Hl Y. destruct (anc_chain _ _ _ _ Hb Y) as [(q & _ & E)|(m & M1 & M2)].
    - destruct q as [|q]; [|exact (XS _ E)]. cbn [steps] in E. subst b. apply XB in Hb. lia.
    - apply XR in M1. lia. }
  assert (MS : forall b l j, is_base b l -> (l <= D)%nat -> ~ anc x (Msg (steps j b))).
  { intros b l j Hb Hl Y. inversion Y as [E0| |? A0| |]; [exact (XM _ E0)|]. exact (CH b l j Hb Hl A0). }
  apply in_app_iff in Hk. destruct Hk as [Hk|Hk].
  - unfold held in Hk. destruct Hk as [<-|[<-|Hk]].
    + destruct (anc_root _ _ _ HD A) as (m & M1 & M2). apply XR in M1. lia.
    + destruct HS as (b & l & q & B1 & B2 & B3 & _). rewrite B3 in A. exact (CH b l q B1 B2 A).
    + apply in_flat_map in Hk. destruct Hk as (c & Hc & Hk). rewrite Forall_forall in HC. destruct (HC c Hc) as (b & l & q & B1 & B2 & B3 & _ & B4 & _). destruct Hk as [<-|Hk].
      * rewrite B3 in A. exact (CH b l q B1 B2 A).
      * destruct (B4 k Hk) as (i & _ & ->). exact (MS b l i B1 B2 A).
  - destruct (HB k Hk) as (b & l & j & B1 & B2 & ->). exact (MS b l j B1 B2 A).
Qed.

Section Heal.
Variables (y : ysession) (k : arr32) (dh1 dh2 : bytes).
Let y1 := y_ratcheted y k dh1 dh2.
Definition tainted (t : term) : Prop := anc (NextRoot (NextRoot (y_root y) dh1) dh2) t \/ anc (NewChain (NextRoot (y_root y) dh1) dh2) t.

Lemma tainted_step : forall t, tainted t -> tainted (Step t). Proof. intros t [H|H]; [left|right]; constructor; exact H. Qed.
Lemma tainted_steps : forall n t, tainted t -> tainted (steps n t). Proof. intros n t H. induction n; [exact H|]. apply tainted_step. assumption. Qed.
Lemma tainted_msg : forall t, tainted t -> tainted (Msg t). Proof. intros t [H|H]; [left|right]; constructor; exact H. Qed.
Lemma tainted_root : forall t d, tainted t -> tainted (NextRoot t d). Proof. intros t d [H|H]; [left|right]; constructor; exact H. Qed.
Lemma tainted_new : forall t d, tainted t -> tainted (NewChain t d). Proof. intros t d [H|H]; [left|right]; constructor; exact H. Qed.

Definition heal_chain (c : ychain) : Prop :=
  (tainted (yc_key c) /\ forall t, In t (map snd (yc_kept c)) -> tainted t) \/
  exists c0 n, In c0 (y_recv y1) /\ yc_key c = steps n (yc_key c0) /\ forall t, In t (map snd (yc_kept c)) -> of_chains y1 t.

Lemma heal_use : forall c n t c', heal_chain c -> yuse c n t c' -> heal_chain c' /\ (tainted t \/ of_chains y1 t).
Proof.
  intros c n t c' HC H. destruct HC as [(T1 & T2)|(c0 & q & I0 & K0 & M0)]; inversion H; subst.
  - assert (IN : In t (map snd (yc_kept c))) by (rewrite H0, map_app; apply in_app_iff; right; left; reflexivity). split; [|left; apply T2; exact IN].
    left. split; [exact T1|]. cbn [yc_kept]. intros z Hz. apply T2. rewrite H0, map_app. rewrite map_app in Hz. apply in_app_iff in Hz. apply in_app_iff. destruct Hz; [left|right; right]; assumption.
  - split; [|left; apply tainted_msg, tainted_steps; exact T1]. left. split; [apply (tainted_steps (S d)); exact T1|]. cbn [yc_kept]. intros z Hz. rewrite <- last_n_map in Hz.
    apply last_n_incl in Hz. rewrite map_app in Hz. apply in_app_iff in Hz. destruct Hz as [Hz|Hz]; [apply T2; exact Hz|]. unfold skipped in Hz. rewrite map_map in Hz. cbn [snd] in Hz.
    apply in_map_iff in Hz. destruct Hz as (i & <- & _). apply tainted_msg, tainted_steps. exact T1.
  - assert (IN : In t (map snd (yc_kept c))) by (rewrite H0, map_app; apply in_app_iff; right; left; reflexivity). split; [|right; apply M0; exact IN].
    right. exists c0, q. split; [exact I0|]. split; [exact K0|]. cbn [yc_kept]. intros z Hz. apply M0. rewrite H0, map_app. rewrite map_app in Hz. apply in_app_iff in Hz. apply in_app_iff. destruct Hz; [left|right; right]; assumption.
  - assert (OC : forall i, of_chains y1 (Msg (steps i (yc_key c)))) by (intros i; exists c0; split; [exact I0|]; right; exists (i + q)%nat; rewrite K0, steps_add; reflexivity).
    split; [|right; apply OC]. right. exists c0, (S d + q)%nat. split; [exact I0|]. cbn [yc_key yc_kept]. split; [rewrite K0; apply (steps_add (S d))|]. intros z Hz. rewrite <- last_n_map in Hz.
    apply last_n_incl in Hz. rewrite map_app in Hz. apply in_app_iff in Hz. destruct Hz as [Hz|Hz]; [apply M0; exact Hz|]. unfold skipped in Hz. rewrite map_map in Hz. cbn [snd] in Hz.
    apply in_map_iff in Hz. destruct Hz as (i & <- & _). apply OC.
Qed.

Lemma heal_run : forall w y2, yrun y1 w y2 ->
  tainted (y_root y2) /\ tainted (y_send y2) /\ Forall heal_chain (y_recv y2) /\ forall t, In t w -> tainted t \/ of_chains y1 t.
Proof.
  intros w y2 H. remember y1 as z eqn:EZ. revert EZ. induction H as [z|z u ya v yb H IH HS]; intros ->.
  - split; [left; constructor|]. split; [right; constructor|]. split; [|intros t []]. apply Forall_forall. intros c Hc. right. exists c, 0%nat. split; [exact Hc|]. split; [reflexivity|].
    intros t Ht. exists c. auto.
  - destruct (IH eq_refl) as (I1 & I2 & I3 & I4). clear IH H. destruct HS as [ya|ya a c b n t c' HE HU|ya k' d1 d2]; cbn [y_root y_send y_recv y_ratcheted].
    + split; [exact I1|]. split; [apply tainted_step; exact I2|]. split; [exact I3|]. intros t Ht. apply in_app_iff in Ht. destruct Ht as [Ht|[<-|[]]]; [auto|left; apply tainted_msg; exact I2].
    + rewrite HE in I3. apply Forall_app in I3. destruct I3 as [A B]. inversion B as [|? ? B1 B2]; subst. destruct (heal_use c n t c' B1 HU) as [U1 U2].
      split; [exact I1|]. split; [exact I2|]. split; [apply Forall_app; split; [exact A|constructor; assumption]|]. intros z Hz. apply in_app_iff in Hz. destruct Hz as [Hz|[<-|[]]]; auto.
    + split; [apply tainted_root, tainted_root; exact I1|]. split; [apply tainted_new, tainted_root; exact I1|]. split.
      * apply Forall_forall. intros c Hc. apply last_n_incl, in_app_iff in Hc. destruct Hc as [Hc|[<-|[]]]; [rewrite Forall_forall in I3; apply I3; exact Hc|].
        left. cbn [yc_key yc_kept map]. split; [apply tainted_new; exact I1|intros t []].
      * intros t Ht. rewrite app_nil_r in Ht. auto.
Qed.
End Heal.

Theorem healing : forall y0 u y k dh1 dh2 w y2 G, ystart y0 -> yrun y0 u y -> yrun (y_ratcheted y k dh1 dh2) w y2 -> ~ G dh2 ->
  let known := derivable G (held y ++ u) in
  ~ known (y_root y2) /\ ~ known (y_send y2) /\
  (forall c, In c (y_recv y2) -> known (yc_key c) -> exists c0 n, In c0 (y_recv (y_ratcheted y k dh1 dh2)) /\ yc_key c = steps n (yc_key c0)) /\
  (forall t, In t w -> known t -> of_chains (y_ratcheted y k dh1 dh2) t).
Proof.
  intros y0 u y k dh1 dh2 w y2 G HS HR HW HG known. assert (HI := inv_run _ _ _ HS HR).
  assert (NT : forall t, tainted y dh1 dh2 t -> ~ known t).
  { intros t HT HK. pose proof HI as (D & HD & _). assert (R1 : is_root (NextRoot (y_root y) dh1) (S D)) by (constructor; exact HD). destruct HT as [HT|HT].
    - destruct (derivable_needs _ _ _ _ _ _ HG (or_introl eq_refl) HK HT) as (q & Q1 & Q2). revert Q2. eapply not_later; [exact HI|exact HD|exact R1|lia|left; reflexivity|exact Q1].
    - destruct (derivable_needs _ _ _ _ _ _ HG (or_intror eq_refl) HK HT) as (q & Q1 & Q2). revert Q2. eapply not_later; [exact HI|exact HD|exact R1|lia|right; reflexivity|exact Q1]. }
  destruct (heal_run y k dh1 dh2 w y2 HW) as (T1 & T2 & T3 & T4). split; [apply NT; exact T1|]. split; [apply NT; exact T2|]. split.
  - intros c Hc HK. rewrite Forall_forall in T3. destruct (T3 c Hc) as [(T & _)|(c0 & n & C1 & C2 & _)]; [exfalso; exact (NT _ T HK)|]. exists c0, n. auto.
  - intros t Ht HK. destruct (T4 t Ht) as [T|T]; [exfalso; exact (NT _ T HK)|exact T].
Qed.
