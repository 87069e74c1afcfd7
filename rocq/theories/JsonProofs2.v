(** JsonProofs2.v: the scanner accepts exactly the grammar of JsonSpec.v. *)
From Coq Require Import String.
From Verif Require Import Base Itoa Json JsonSpec JsonProofs.
From Coq Require Import ZifyBool ZifyN ZifyNat.
Open Scope list_scope.
Local Open Scope N_scope.

Lemma b2n_is : forall c n b, (b2n c =? n) = true -> b2n b = n -> c = b.
Proof. intros c n b H E. apply N.eqb_eq in H. apply b2n_inj. congruence. Qed.
Ltac byte_is H b := apply (fun H => b2n_is _ _ b H eq_refl) in H; match type of H with ?c = _ => subst c end.
Lemma is_digit_iff : forall c, is_digit c = true <-> digit c.
Proof. intros c. unfold is_digit, digit. rewrite andb_true_iff, !N.leb_le. reflexivity. Qed.
Lemma is_digit_false : forall c, is_digit c = false <-> ~ digit c.
Proof. intros c. rewrite <- is_digit_iff. destruct (is_digit c); split; congruence. Qed.
Lemma is_hex_iff : forall c, is_hex c = true <-> hexdig c.
Proof. intros c. unfold is_hex, hexdig. cbv zeta. rewrite !orb_true_iff, !andb_true_iff, !N.leb_le, is_digit_iff. tauto. Qed.
Lemma is_ws_iff : forall c, is_ws c = true <-> In c [x20; x09; x0a; x0d].
Proof.
  intros c. unfold is_ws. rewrite !orb_true_iff. split.
  - intros [[[H|H]|H]|H]; [byte_is H x20|byte_is H x09|byte_is H x0a|byte_is H x0d]; cbn; tauto.
  - cbn [In]. intros [<-|[<-|[<-|[<-|[]]]]]; cbn; tauto.
Qed.
Lemma is_escape_iff : forall c, is_escape c = true <-> In c [x22; x5c; x2f; x62; x66; x6e; x72; x74].
Proof.
  intros c. unfold is_escape. rewrite existsb_exists. split.
  - intros (d & I & E). apply N.eqb_eq, b2n_inj in E. subst d. vm_compute in I. cbn [In]. tauto.
  - intros I. exists c. split; [vm_compute; cbn [In] in I; tauto|apply N.eqb_refl].
Qed.
Lemma is_exp_iff : forall c, is_exp c = true <-> In c [x65; x45].
Proof.
  intros c. unfold is_exp. rewrite orb_true_iff. split; [intros [H|H]; [byte_is H x65|byte_is H x45]; cbn; tauto|].
  cbn [In]. intros [<-|[<-|[]]]; cbn; tauto.
Qed.

(** ** white space *)
Lemma skip_ws_split : forall s, exists w, ws w /\ s = w ++ skip_ws s /\ match skip_ws s with c :: _ => is_ws c = false | [] => True end.
Proof.
  induction s as [|c s (w & W & E & H)]; [exists []; repeat split; constructor|]. cbn [skip_ws]. destruct (is_ws c) eqn:D.
  - exists (c :: w). split; [constructor; [apply is_ws_iff; exact D|exact W]|]. split; [cbn [app]; f_equal; exact E|exact H].
  - exists []. repeat split; [constructor|exact D].
Qed.
Lemma skip_ws_app : forall w s, ws w -> match s with c :: _ => is_ws c = false | [] => True end -> skip_ws (w ++ s) = s.
Proof.
  intros w s W H. induction W as [|c w I W IH]; cbn [app].
  - destruct s as [|c s]; [reflexivity|]. cbn [skip_ws]. rewrite H. reflexivity.
  - cbn [skip_ws]. apply is_ws_iff in I. rewrite I. exact IH.
Qed.
Lemma skip_ws_all : forall w, ws w -> skip_ws w = [].
Proof. intros w W. rewrite <- (app_nil_r w). apply skip_ws_app; [exact W|exact I]. Qed.

(** ** strings *)
Lemma scan_str_sound : forall n s t q, (length s <= n)%nat -> scan_str s = Some (t, q) -> chars t /\ s = t ++ x22 :: q.
Proof.
  induction n as [|n IH]; intros s t q L H; destruct s as [|c s]; try discriminate H; cbn [length] in L; [lia|].
  cbn [scan_str] in H. destruct (b2n c =? 34) eqn:D1.
  - byte_is D1 x22. injection H as <- <-. split; [constructor|reflexivity].
  - destruct (b2n c =? 92) eqn:D2.
    + byte_is D2 x5c. destruct s as [|e s]; [discriminate H|]. cbn [length] in L. destruct (is_escape e) eqn:D3.
      * destruct (scan_str s) as [[t' q']|] eqn:D4; [|discriminate H]. injection H as <- <-. destruct (IH s t' q' ltac:(lia) D4) as (K & E).
        split; [apply CharsEsc; [apply is_escape_iff; exact D3|exact K]|]. cbn [app]. rewrite E. reflexivity.
      * destruct (b2n e =? 117) eqn:D4; [|discriminate H]. byte_is D4 x75. destruct s as [|h1 [|h2 [|h3 [|h4 s]]]]; try discriminate H. cbn [length] in L.
        destruct (is_hex h1 && is_hex h2 && is_hex h3 && is_hex h4) eqn:D5; [|discriminate H]. rewrite !andb_true_iff, !is_hex_iff in D5. destruct D5 as (((X1 & X2) & X3) & X4).
        destruct (scan_str s) as [[t' q']|] eqn:D6; [|discriminate H]. injection H as <- <-. destruct (IH s t' q' ltac:(lia) D6) as (K & E).
        split; [apply CharsHex; assumption|]. cbn [app]. rewrite E. reflexivity.
    + destruct (b2n c <? 32) eqn:D3; [discriminate H|]. destruct (scan_str s) as [[t' q']|] eqn:D4; [|discriminate H]. injection H as <- <-.
      destruct (IH s t' q' ltac:(lia) D4) as (K & E). split; [|cbn [app]; rewrite E; reflexivity].
      apply CharsPlain; [lia| | |exact K]; intros ->; discriminate.
Qed.
Lemma scan_str_complete : forall t q, chars t -> scan_str (t ++ x22 :: q) = Some (t, q).
Proof.
  intros t q H. induction H as [|c s R N1 N2 H IH|e s I H IH|a b c d s A B C D H IH]; cbn [app].
  - reflexivity.
  - cbn [scan_str]. destruct (b2n c =? 34) eqn:D1; [byte_is D1 x22; contradiction|]. destruct (b2n c =? 92) eqn:D2; [byte_is D2 x5c; contradiction|].
    destruct (b2n c <? 32) eqn:D3; [lia|]. rewrite IH. reflexivity.
  - cbn [scan_str]. change (b2n x5c =? 34) with false. change (b2n x5c =? 92) with true. cbv iota. apply is_escape_iff in I. rewrite I, IH. reflexivity.
  - cbn [scan_str]. change (b2n x5c =? 34) with false. change (b2n x5c =? 92) with true. change (is_escape x75) with false. change (b2n x75 =? 117) with true. cbv iota.
    apply is_hex_iff in A, B, C, D. rewrite A, B, C, D. cbn [andb]. rewrite IH. reflexivity.
Qed.

(** ** numbers *)
Definition not_digit_head (s : bytes) : Prop := match s with c :: _ => ~ digit c | [] => True end.
Lemma scan_digits_sound : forall s d q, scan_digits s = (d, q) -> Forall digit d /\ s = d ++ q /\ not_digit_head q.
Proof.
  induction s as [|c s IH]; intros d q H; cbn [scan_digits] in H.
  - injection H as <- <-. repeat split; constructor.
  - destruct (is_digit c) eqn:D.
    + destruct (scan_digits s) as [d' q']. injection H as <- <-. destruct (IH _ _ eq_refl) as (K & E & Q). split; [constructor; [apply is_digit_iff; exact D|exact K]|].
      split; [cbn [app]; rewrite E; reflexivity|exact Q].
    + injection H as <- <-. split; [constructor|]. split; [reflexivity|]. apply is_digit_false. exact D.
Qed.
Lemma scan_digits_complete : forall d q, Forall digit d -> not_digit_head q -> scan_digits (d ++ q) = (d, q).
Proof.
  intros d q D Q. induction D as [|c d H D IH]; cbn [app].
  - destruct q as [|c q]; [reflexivity|]. cbn [scan_digits]. apply is_digit_false in Q. rewrite Q. reflexivity.
  - cbn [scan_digits]. apply is_digit_iff in H. rewrite H, IH. reflexivity.
Qed.
Lemma scan_digits1_sound : forall s d q, scan_digits1 s = Some (d, q) -> d <> [] /\ Forall digit d /\ s = d ++ q.
Proof.
  intros s d q H. unfold scan_digits1 in H. destruct (scan_digits s) as [[|c d'] q'] eqn:E; [discriminate H|]. injection H as <- <-.
  destruct (scan_digits_sound _ _ _ E) as (A & B & _). split; [discriminate|]. split; assumption.
Qed.
Lemma scan_digits1_complete : forall d q, d <> [] -> Forall digit d -> not_digit_head q -> scan_digits1 (d ++ q) = Some (d, q).
Proof. intros d q N D Q. unfold scan_digits1. rewrite scan_digits_complete by assumption. destruct d; [contradiction|reflexivity]. Qed.

Lemma scan_int_sound : forall s d q, scan_int s = Some (d, q) -> int_part d /\ s = d ++ q.
Proof.
  intros [|c s] d q H; [discriminate H|]. unfold scan_int in H. destruct (b2n c =? 48) eqn:D1.
  - byte_is D1 x30. injection H as <- <-. split; [constructor|reflexivity].
  - destruct (is_digit c) eqn:D2; [|discriminate H]. injection H as H. cbn [scan_digits] in H. rewrite D2 in H. destruct (scan_digits s) as [d' q'] eqn:E. injection H as <- <-.
    destruct (scan_digits_sound _ _ _ E) as (A & B & _). split; [|cbn [app]; rewrite B; reflexivity]. apply is_digit_iff in D2. unfold digit in D2. constructor; [lia|exact A].
Qed.
Lemma scan_int_complete : forall d q, int_part d -> not_digit_head q -> scan_int (d ++ q) = Some (d, q).
Proof.
  intros d q H Q. destruct H as [|c l R D]; [reflexivity|]. cbn [app scan_int]. destruct (b2n c =? 48) eqn:D1; [lia|].
  assert (I : digit c) by (unfold digit; lia). pose proof I as I'. apply is_digit_iff in I'. rewrite I'. f_equal. apply (scan_digits_complete (c :: l) q); [constructor; assumption|exact Q].
Qed.
Lemma scan_frac_sound : forall s d q, scan_frac s = Some (d, q) -> opt_frac d /\ s = d ++ q.
Proof.
  intros [|c s] d q H; cbn [scan_frac] in H; [injection H as <- <-; split; [constructor|reflexivity]|].
  destruct (b2n c =? 46) eqn:D.
  - byte_is D x2e. destruct (scan_digits1 s) as [[d' q']|] eqn:E; [|discriminate H]. injection H as <- <-. destruct (scan_digits1_sound _ _ _ E) as (A & B & C).
    split; [constructor; assumption|cbn [app]; rewrite C; reflexivity].
  - injection H as <- <-. split; [constructor|reflexivity].
Qed.
(** what may follow a number without becoming part of it *)
Definition num_end (s : bytes) : Prop := match s with c :: _ => ~ digit c /\ c <> x2e /\ ~ In c [x65; x45] | [] => True end.
Lemma scan_frac_complete : forall d q, opt_frac d -> not_digit_head q -> (d = [] -> match q with c :: _ => c <> x2e | [] => True end) -> scan_frac (d ++ q) = Some (d, q).
Proof.
  intros d q H Q N. destruct H as [|l NE D]; cbn [app].
  - destruct q as [|c q]; [reflexivity|]. cbn [scan_frac]. destruct (b2n c =? 46) eqn:D; [byte_is D x2e; destruct (N eq_refl); reflexivity|reflexivity].
  - cbn [scan_frac]. change (b2n x2e =? 46) with true. cbv iota. rewrite scan_digits1_complete by assumption. reflexivity.
Qed.
Lemma is_sign_iff : forall c, is_sign c = true <-> In c [x2b; x2d].
Proof.
  intros c. unfold is_sign. rewrite orb_true_iff. split; [intros [H|H]; [byte_is H x2b|byte_is H x2d]; cbn; tauto|].
  cbn [In]. intros [<-|[<-|[]]]; cbn; tauto.
Qed.
Lemma scan_exp_sound : forall s d q, scan_exp s = Some (d, q) -> opt_exp d /\ s = d ++ q.
Proof.
  intros [|c s] d q H; cbn [scan_exp] in H; [injection H as <- <-; split; [constructor|reflexivity]|].
  destruct (is_exp c) eqn:D.
  - apply is_exp_iff in D. destruct s as [|g s]; [discriminate H|]. destruct (is_sign g) eqn:S.
    + apply is_sign_iff in S. destruct (scan_digits1 s) as [[d' q']|] eqn:E; [|discriminate H]. injection H as <- <-. destruct (scan_digits1_sound _ _ _ E) as (A & B & C).
      split; [|cbn [app]; rewrite C; reflexivity]. apply (Exp1 c [g] d'); try assumption. cbn [In] in S. destruct S as [<-|[<-|[]]]; constructor.
    + destruct (scan_digits1 (g :: s)) as [[d' q']|] eqn:E; [|discriminate H]. injection H as <- <-. destruct (scan_digits1_sound _ _ _ E) as (A & B & C).
      split; [|cbn [app]; rewrite C; reflexivity]. apply (Exp1 c [] d'); try assumption. constructor.
  - injection H as <- <-. split; [constructor|reflexivity].
Qed.
Lemma digit_not_sign : forall c, digit c -> is_sign c = false.
Proof. intros c H. unfold digit in H. unfold is_sign. lia. Qed.
Lemma scan_exp_complete : forall d q, opt_exp d -> num_end q -> scan_exp (d ++ q) = Some (d, q).
Proof.
  intros d q H Q. assert (ND : not_digit_head q) by (destruct q; [exact I|exact (proj1 Q)]). destruct H as [|e g l IE S NE D]; cbn [app].
  - destruct q as [|c q]; [reflexivity|]. cbn [scan_exp]. destruct (is_exp c) eqn:D; [|reflexivity]. apply is_exp_iff in D. destruct Q as (_ & _ & Q). contradiction.
  - cbn [scan_exp]. apply is_exp_iff in IE. rewrite IE. destruct S; cbn [app].
    + destruct l as [|c l]; [contradiction|]. cbn [app]. rewrite digit_not_sign by (inversion D; assumption). change (c :: l ++ q) with ((c :: l) ++ q).
      rewrite scan_digits1_complete by assumption. reflexivity.
    + change (is_sign x2b) with true. cbv iota. rewrite scan_digits1_complete by assumption. reflexivity.
    + change (is_sign x2d) with true. cbv iota. rewrite scan_digits1_complete by assumption. reflexivity.
Qed.
Lemma scan_num_sound : forall s t q, scan_num s = Some (t, q) -> number t /\ s = t ++ q.
Proof.
  intros s t q H. unfold scan_num in H.
  assert (M : exists m s1, (match s with c :: r => if b2n c =? 45 then ([c], r) else ([], s) | [] => ([], []) end) = (m, s1) /\ opt_minus m /\ s = m ++ s1).
  { destruct s as [|c s]; [exists [], []; repeat split; constructor|]. destruct (b2n c =? 45) eqn:D; [byte_is D x2d; exists [x2d], s|exists [], (c :: s)]; repeat split; constructor. }
  destruct M as (m & s1 & E & OM & ES). rewrite E in H. clear E. subst s.
  destruct (scan_int s1) as [[i s2]|] eqn:E1; [|discriminate H]. apply scan_int_sound in E1. destruct E1 as (I1 & ->).
  destruct (scan_frac s2) as [[f s3]|] eqn:E2; [|discriminate H]. apply scan_frac_sound in E2. destruct E2 as (I2 & ->).
  destruct (scan_exp s3) as [[e s4]|] eqn:E3; [|discriminate H]. apply scan_exp_sound in E3. destruct E3 as (I3 & ->).
  injection H as <- <-. split; [exists m, i, f, e; repeat (split; [assumption|]); reflexivity|]. rewrite <- !app_assoc. reflexivity.
Qed.
Lemma num_end_digit : forall q, num_end q -> not_digit_head q.
Proof. intros [|c q] H; [exact I|exact (proj1 H)]. Qed.
Lemma exp_head : forall e q, opt_exp e -> num_end q -> not_digit_head (e ++ q) /\ match e ++ q with c :: _ => c <> x2e | [] => True end.
Proof.
  intros e q H Q. destruct H as [|x g l IE]; cbn [app].
  - split; [apply num_end_digit; exact Q|]. destruct q as [|c q]; [exact I|]. exact (proj1 (proj2 Q)).
  - cbn [In] in IE. unfold not_digit_head, digit. destruct IE as [<-|[<-|[]]]; (split; [vm_compute; intros (_ & HH); apply HH; reflexivity|discriminate]).
Qed.
Lemma frac_head : forall f e q, opt_frac f -> opt_exp e -> num_end q -> not_digit_head (f ++ e ++ q).
Proof.
  intros f e q H HE Q. destruct H as [|l]; cbn [app]; [apply (exp_head e q HE Q)|]. unfold not_digit_head, digit. vm_compute. intros (H1 & _). apply H1. reflexivity.
Qed.
Lemma int_head : forall i, int_part i -> exists c l, i = c :: l /\ digit c.
Proof. intros i H. destruct H as [|d l R D]; [exists x30, []|exists d, l]; (split; [reflexivity|]); unfold digit; [vm_compute; split; discriminate|lia]. Qed.
Lemma scan_num_complete : forall t q, number t -> num_end q -> scan_num (t ++ q) = Some (t, q).
Proof.
  intros t q (m & i & f & e & M & I & F & E & ->) Q. rewrite <- !app_assoc. unfold scan_num.
  match goal with |- (let (_, _) := ?X in _) = _ => assert (K : X = (m, i ++ f ++ e ++ q)) end.
  { destruct M; cbn [app]; [|reflexivity]. destruct (int_head i I) as (c & l & -> & D). cbn [app]. unfold digit in D. destruct (b2n c =? 45) eqn:B; [lia|reflexivity]. }
  rewrite K. rewrite (scan_int_complete i _ I (frac_head f e q F E Q)). destruct (exp_head e q E Q) as (H1 & H2).
  rewrite (scan_frac_complete f _ F H1 (fun _ => H2)). rewrite (scan_exp_complete e q E Q). reflexivity.
Qed.

(** ** values *)
Lemma strip_sound : forall p s q, strip p s = Some q -> s = p ++ q.
Proof.
  induction p as [|a p IH]; intros s q H; [cbn in H; injection H as <-; reflexivity|]. destruct s as [|b s]; [discriminate H|]. cbn [strip] in H.
  destruct (b2n a =? b2n b) eqn:D; [|discriminate H]. apply N.eqb_eq, b2n_inj in D. subst b. cbn [app]. f_equal. apply IH. exact H.
Qed.
Lemma strip_complete : forall p q, strip p (p ++ q) = Some q.
Proof. induction p as [|a p IH]; intros q; cbn [app strip]; [reflexivity|]. rewrite N.eqb_refl. apply IH. Qed.

Lemma scan_sound : forall n,
  (forall s v q, scan_value n s = Some (v, q) -> exists t, value v t /\ s = t ++ q) /\
  (forall s l q, scan_elements n s = Some (l, q) -> exists t, elements l t /\ s = t ++ x5d :: q) /\
  (forall s l q, scan_members n s = Some (l, q) -> exists t, members l t /\ s = t ++ x7d :: q).
Proof.
  induction n as [|n (IV & IE & IM)]; [repeat split; intros; discriminate|]. split; [|split].
  - intros s v q H. destruct s as [|c s]; [discriminate H|]. cbn [scan_value] in H.
    destruct (b2n c =? 123) eqn:D1.
    { byte_is D1 x7b. destruct (skip_ws_split s) as (w & W & E & _). destruct (skip_ws s) as [|d r]; [discriminate H|]. destruct (b2n d =? 125) eqn:D2.
      - byte_is D2 x7d. injection H as <- <-. exists (x7b :: w ++ [x7d]). split; [constructor; exact W|]. cbn [app]. rewrite E, <- app_assoc. reflexivity.
      - destruct (scan_members n (d :: r)) as [[l q']|] eqn:D3; [|discriminate H]. injection H as <- <-. destruct (IM _ _ _ D3) as (t & T & ET). rewrite E, ET.
        exists (x7b :: (w ++ t) ++ [x7d]). split; [|cbn [app]; rewrite <- !app_assoc; reflexivity]. apply VObj. destruct T.
        + rewrite app_assoc. apply Mem1; try assumption. apply Forall_app; split; assumption.
        + rewrite app_assoc. apply MemCons; try assumption. apply Forall_app; split; assumption. }
    destruct (b2n c =? 91) eqn:D2.
    { byte_is D2 x5b. destruct (skip_ws_split s) as (w & W & E & _). destruct (skip_ws s) as [|d r]; [discriminate H|]. destruct (b2n d =? 93) eqn:D2.
      - byte_is D2 x5d. injection H as <- <-. exists (x5b :: w ++ [x5d]). split; [constructor; exact W|]. cbn [app]. rewrite E, <- app_assoc. reflexivity.
      - destruct (scan_elements n (d :: r)) as [[l q']|] eqn:D3; [|discriminate H]. injection H as <- <-. destruct (IE _ _ _ D3) as (t & T & ET). rewrite E, ET.
        exists (x5b :: (w ++ t) ++ [x5d]). split; [|cbn [app]; rewrite <- !app_assoc; reflexivity]. apply VArr. destruct T.
        + rewrite app_assoc. apply El1; try assumption. apply Forall_app; split; assumption.
        + rewrite app_assoc. apply ElCons; try assumption. apply Forall_app; split; assumption. }
    destruct (b2n c =? 34) eqn:D3.
    { byte_is D3 x22. destruct (scan_str s) as [[t q']|] eqn:D4; [|discriminate H]. injection H as <- <-. destruct (scan_str_sound _ _ _ _ (le_n _) D4) as (A & B).
      exists (x22 :: t ++ [x22]). split; [constructor; exact A|]. cbn [app]. rewrite B, <- app_assoc. reflexivity. }
    destruct (b2n c =? 110) eqn:D4.
    { byte_is D4 x6e. destruct (strip _ s) as [q'|] eqn:D5; [|discriminate H]. injection H as <- <-. apply strip_sound in D5. subst s. exists (bs "null"). split; [constructor|reflexivity]. }
    destruct (b2n c =? 116) eqn:D5.
    { byte_is D5 x74. destruct (strip _ s) as [q'|] eqn:D5; [|discriminate H]. injection H as <- <-. apply strip_sound in D5. subst s. exists (bs "true"). split; [constructor|reflexivity]. }
    destruct (b2n c =? 102) eqn:D6.
    { byte_is D6 x66. destruct (strip _ s) as [q'|] eqn:D5'; [|discriminate H]. injection H as <- <-. apply strip_sound in D5'. subst s. exists (bs "false"). split; [constructor|reflexivity]. }
    destruct (scan_num (c :: s)) as [[t q']|] eqn:D7; [|discriminate H]. injection H as <- <-. apply scan_num_sound in D7. destruct D7 as (A & B). exists t. split; [constructor; exact A|exact B].
  - intros s l q H. cbn [scan_elements] in H. destruct (skip_ws_split s) as (w & W & E & _). destruct (scan_value n (skip_ws s)) as [[v q1]|] eqn:D1; [|discriminate H].
    destruct (IV _ _ _ D1) as (t & T & ET). rewrite ET in E. destruct (skip_ws_split q1) as (w2 & W2 & E2 & _). destruct (skip_ws q1) as [|c r]; [discriminate H|].
    destruct (b2n c =? 44) eqn:D2.
    + byte_is D2 x2c. destruct (scan_elements n r) as [[l' q']|] eqn:D3; [|discriminate H]. injection H as <- <-. destruct (IE _ _ _ D3) as (t' & T' & ET').
      exists (w ++ t ++ w2 ++ x2c :: t'). split; [constructor; assumption|]. rewrite E, E2, ET'. repeat (rewrite <- ?app_assoc; cbn [app]). reflexivity.
    + destruct (b2n c =? 93) eqn:D3; [|discriminate H]. byte_is D3 x5d. injection H as <- <-. exists (w ++ t ++ w2). split; [constructor; assumption|]. rewrite E, E2, <- !app_assoc. reflexivity.
  - intros s l q H. cbn [scan_members] in H. destruct (skip_ws_split s) as (w & W & E & _). destruct (skip_ws s) as [|c r]; [discriminate H|].
    destruct (b2n c =? 34) eqn:D0; [|discriminate H]. byte_is D0 x22. destruct (scan_str r) as [[k q1]|] eqn:D1; [|discriminate H].
    destruct (scan_str_sound _ _ _ _ (le_n _) D1) as (K & EK). destruct (skip_ws_split q1) as (w2 & W2 & E2 & _). destruct (skip_ws q1) as [|d r1]; [discriminate H|].
    destruct (b2n d =? 58) eqn:D2; [|discriminate H]. byte_is D2 x3a. destruct (skip_ws_split r1) as (w3 & W3 & E3 & _).
    destruct (scan_value n (skip_ws r1)) as [[v q2]|] eqn:D3; [|discriminate H]. destruct (IV _ _ _ D3) as (t & T & ET). rewrite ET in E3.
    destruct (skip_ws_split q2) as (w4 & W4 & E4 & _). destruct (skip_ws q2) as [|e r2]; [discriminate H|]. destruct (b2n e =? 44) eqn:D4.
    + byte_is D4 x2c. destruct (scan_members n r2) as [[l' q']|] eqn:D5; [|discriminate H]. injection H as <- <-. destruct (IM _ _ _ D5) as (t' & T' & ET').
      exists (w ++ x22 :: k ++ x22 :: w2 ++ x3a :: w3 ++ t ++ w4 ++ x2c :: t'). split; [constructor; assumption|].
      rewrite E, EK, E2, E3, E4, ET'. repeat (rewrite <- ?app_assoc; cbn [app]). reflexivity.
    + destruct (b2n e =? 125) eqn:D5; [|discriminate H]. byte_is D5 x7d. injection H as <- <-.
      exists (w ++ x22 :: k ++ x22 :: w2 ++ x3a :: w3 ++ t ++ w4). split; [constructor; assumption|].
      rewrite E, EK, E2, E3, E4. repeat (rewrite <- ?app_assoc; cbn [app]). reflexivity.
Qed.

Definition follow (s : bytes) : Prop := match s with c :: _ => In c [x20; x09; x0a; x0d; x2c; x5d; x7d] | [] => True end.
Lemma follow_num : forall s, follow s -> num_end s.
Proof.
  intros [|c s] H; [exact I|]. cbn [follow In] in H. unfold num_end, digit.
  destruct H as [<-|[<-|[<-|[<-|[<-|[<-|[<-|[]]]]]]]]; vm_compute; (split; [intros (A & B); try (apply A; reflexivity); apply B; reflexivity|]; split; [discriminate|intros [H|[H|[]]]; discriminate H]).
Qed.
Lemma follow_ws : forall w s, ws w -> follow s -> follow (w ++ s).
Proof. intros w s W F. destruct W as [|c w H W]; [exact F|]. cbn [app follow In] in *. tauto. Qed.
(** the first byte of a value is not white space and none of the closing characters *)
Definition start (s : bytes) : Prop := match s with c :: _ => is_ws c = false /\ c <> x5d /\ c <> x7d | [] => False end.
Lemma number_start : forall s, number s -> start s.
Proof.
  intros s (m & i & f & e & M & I & F & E & ->). destruct M; cbn [app].
  - destruct (int_head i I) as (c & l & -> & D). cbn [app start]. unfold digit in D. split; [unfold is_ws; lia|]. split; intros ->; vm_compute in D; destruct D as (D1 & D2); try (apply D1; reflexivity); apply D2; reflexivity.
  - vm_compute. split; [reflexivity|]. split; discriminate.
Qed.
Lemma value_start : forall v t, value v t -> start t.
Proof. intros v t H. destruct H; try (vm_compute; split; [reflexivity|split; discriminate]). apply number_start. assumption. Qed.
Lemma start_app : forall s t, start s -> start (s ++ t).
Proof. intros [|c s] t H; [destruct H|exact H]. Qed.
Lemma start_ws : forall s, start s -> match s with c :: _ => is_ws c = false | [] => True end.
Proof. intros [|c s] H; [exact I|exact (proj1 H)]. Qed.

Scheme value_mind := Induction for value Sort Prop
  with elements_mind := Induction for elements Sort Prop
  with members_mind := Induction for members Sort Prop.
Combined Scheme json_mind from value_mind, elements_mind, members_mind.

Lemma num_not : forall t q c r, number t -> t ++ q = c :: r -> b2n c =? 123 = false /\ b2n c =? 91 = false /\ b2n c =? 34 = false /\ b2n c =? 110 = false /\ b2n c =? 116 = false /\ b2n c =? 102 = false.
Proof.
  intros t q c r (m & i & f & e & M & I & F & E & ->) H. assert (K : c = x2d \/ digit c).
  { destruct M; cbn [app] in H; [|left; congruence]. destruct (int_head i I) as (d & l & -> & D). cbn [app] in H. right. congruence. }
  destruct K as [->|D]; [vm_compute; repeat split|]. unfold digit in D. repeat split; lia.
Qed.
Lemma scan_complete :
  (forall v t, value v t -> forall n q, (2 * length t <= n)%nat -> follow q -> scan_value n (t ++ q) = Some (v, q)) /\
  (forall l t, elements l t -> forall n q, (2 * length t + 1 <= n)%nat -> scan_elements n (t ++ x5d :: q) = Some (l, q)) /\
  (forall l t, members l t -> forall n q, (2 * length t + 1 <= n)%nat -> scan_members n (t ++ x7d :: q) = Some (l, q)).
Proof.
  apply json_mind.
  - intros n q L F. destruct n; [cbn in L; lia|]. cbn [scan_value]. change (bs "null" ++ q) with (x6e :: bs "ull" ++ q). cbv iota beta. change (b2n x6e =? 123) with false. change (b2n x6e =? 91) with false. change (b2n x6e =? 34) with false. change (b2n x6e =? 110) with true. cbv iota. rewrite strip_complete. reflexivity.
  - intros n q L F. destruct n; [cbn in L; lia|]. cbn [scan_value]. change (bs "true" ++ q) with (x74 :: bs "rue" ++ q). cbv iota beta. change (b2n x74 =? 123) with false. change (b2n x74 =? 91) with false. change (b2n x74 =? 34) with false. change (b2n x74 =? 110) with false. change (b2n x74 =? 116) with true. cbv iota. rewrite strip_complete. reflexivity.
  - intros n q L F. destruct n; [cbn in L; lia|]. cbn [scan_value]. change (bs "false" ++ q) with (x66 :: bs "alse" ++ q). cbv iota beta. change (b2n x66 =? 123) with false. change (b2n x66 =? 91) with false. change (b2n x66 =? 34) with false. change (b2n x66 =? 110) with false. change (b2n x66 =? 116) with false. change (b2n x66 =? 102) with true. cbv iota. rewrite strip_complete. reflexivity.
  - intros s H n q L F. pose proof (number_start s H) as S. destruct s as [|c s]; [destruct S|]. destruct n; [cbn in L; lia|]. destruct (num_not (c :: s) q c (s ++ q) H eq_refl) as (N1 & N2 & N3 & N4 & N5 & N6).
    pose proof (scan_num_complete (c :: s) q H (follow_num q F)) as K. cbn [app] in *. cbn [scan_value]. rewrite N1, N2, N3, N4, N5, N6, K. reflexivity.
  - intros s H n q L F. destruct n; [cbn in L; lia|]. cbn [app scan_value]. change (b2n x22 =? 123) with false. change (b2n x22 =? 91) with false. change (b2n x22 =? 34) with true. cbv iota.
    rewrite <- app_assoc. cbn [app]. rewrite (scan_str_complete s q H). reflexivity.
  - intros w W n q L F. destruct n; [cbn in L; lia|]. cbn [app scan_value]. change (b2n x5b =? 123) with false. change (b2n x5b =? 91) with true. cbv iota.
    rewrite <- app_assoc. cbn [app]. rewrite (skip_ws_app w (x5d :: q) W eq_refl). reflexivity.
  - intros l s H IH n q L F. destruct n; [cbn in L; lia|]. cbn [length] in L. rewrite app_length in L. cbn [length] in L. cbn [app scan_value]. change (b2n x5b =? 123) with false. change (b2n x5b =? 91) with true. cbv iota.
    rewrite <- app_assoc. cbn [app].
    assert (K : exists w t, ws w /\ start t /\ s = w ++ t /\ (forall n q, (2 * length s + 1 <= n)%nat -> scan_elements n (t ++ x5d :: q) = scan_elements n (s ++ x5d :: q))).
    { destruct H as [w1 v s w2 W1 V W2|w1 v s w2 l r W1 V W2 HE].
      - exists w1, (s ++ w2). split; [exact W1|]. split; [apply start_app, (value_start v s V)|]. split; [reflexivity|]. intros n0 q0 _. destruct n0; [reflexivity|]. cbn [scan_elements].
        rewrite <- !app_assoc. rewrite (skip_ws_app w1) by (try exact W1; apply start_ws, start_app, (value_start v s V)). rewrite (skip_ws_app [] (s ++ w2 ++ x5d :: q0)) || rewrite <- (app_nil_l (s ++ w2 ++ x5d :: q0)), skip_ws_app; [reflexivity|constructor|apply start_ws, start_app, (value_start v s V)].
      - exists w1, (s ++ w2 ++ x2c :: r). split; [exact W1|]. split; [apply start_app, (value_start v s V)|]. split; [reflexivity|]. intros n0 q0 _. destruct n0; [reflexivity|]. cbn [scan_elements].
        rewrite <- !app_assoc. rewrite (skip_ws_app w1) by (try exact W1; apply start_ws, start_app, (value_start v s V)).
        rewrite (skip_ws_app [] (s ++ (w2 ++ x2c :: r) ++ x5d :: q0)) || rewrite <- (app_nil_l (s ++ w2 ++ (x2c :: r) ++ x5d :: q0)), skip_ws_app; [reflexivity|constructor|apply start_ws, start_app, (value_start v s V)]. }
    destruct K as (w & t & W & ST & E & K). rewrite E at 1. rewrite <- app_assoc. rewrite (skip_ws_app w _ W) by (apply start_ws, start_app; exact ST).
    pose proof (K n q ltac:(lia)) as K1. rewrite (IH n q ltac:(lia)) in K1. destruct t as [|d t]; [destruct ST|]. cbn [app] in *. destruct ST as (_ & ST & _). destruct (b2n d =? 93) eqn:D; [byte_is D x5d; contradiction|]. rewrite K1. reflexivity.
  - intros w W n q L F. destruct n; [cbn in L; lia|]. cbn [app scan_value]. change (b2n x7b =? 123) with true. cbv iota.
    rewrite <- app_assoc. cbn [app]. rewrite (skip_ws_app w (x7d :: q) W eq_refl). reflexivity.
  - intros l s H IH n q L F. destruct n; [cbn in L; lia|]. cbn [length] in L. rewrite app_length in L. cbn [length] in L. cbn [app scan_value]. change (b2n x7b =? 123) with true. cbv iota.
    rewrite <- app_assoc. cbn [app].
    assert (K : exists w t, ws w /\ s = w ++ x22 :: t /\ (forall n q, scan_members n ((x22 :: t) ++ x7d :: q) = scan_members n (s ++ x7d :: q))).
    { destruct H as [w1 k w2 w3 v s w4 W1 CK W2 W3 V W4|w1 k w2 w3 v s w4 l r W1 CK W2 W3 V W4 HE].
      - exists w1, (k ++ x22 :: w2 ++ x3a :: w3 ++ s ++ w4). split; [exact W1|]. split; [reflexivity|]. intros n0 q0. destruct n0; [reflexivity|]. cbn [scan_members].
        rewrite <- app_assoc. cbn [app]. rewrite (skip_ws_app w1 _ W1) by reflexivity. reflexivity.
      - exists w1, (k ++ x22 :: w2 ++ x3a :: w3 ++ s ++ w4 ++ x2c :: r). split; [exact W1|]. split; [reflexivity|]. intros n0 q0. destruct n0; [reflexivity|]. cbn [scan_members].
        rewrite <- app_assoc. cbn [app]. rewrite (skip_ws_app w1 _ W1) by reflexivity. reflexivity. }
    destruct K as (w & t & W & E & K). rewrite E at 1. rewrite <- app_assoc. rewrite (skip_ws_app w _ W) by reflexivity.
    pose proof (K n q) as K1. rewrite (IH n q ltac:(lia)) in K1. cbn [app] in *. change (b2n x22 =? 125) with false. cbv iota. rewrite K1. reflexivity.
  - intros w1 v s w2 W1 V IH W2 n q L. destruct n; [lia|]. rewrite !app_length in L. cbn [scan_elements]. rewrite <- !app_assoc.
    rewrite (skip_ws_app w1 _ W1) by (apply start_ws, start_app, (value_start v s V)). rewrite IH; [|lia|apply follow_ws; [exact W2|cbn; tauto]].
    rewrite (skip_ws_app w2 _ W2) by reflexivity. reflexivity.
  - intros w1 v s w2 l r W1 V IH W2 HE IHE n q L. destruct n; [lia|]. rewrite !app_length in L. cbn [length] in L. cbn [scan_elements].
    replace ((w1 ++ s ++ w2 ++ x2c :: r) ++ x5d :: q) with (w1 ++ s ++ w2 ++ x2c :: r ++ x5d :: q) by (rewrite <- !app_assoc; reflexivity).
    rewrite (skip_ws_app w1 _ W1) by (apply start_ws, start_app, (value_start v s V)). rewrite IH; [|lia|apply follow_ws; [exact W2|cbn; tauto]].
    rewrite (skip_ws_app w2 _ W2) by reflexivity. change (b2n x2c =? 44) with true. cbv iota. rewrite IHE by lia. reflexivity.
  - intros w1 k w2 w3 v s w4 W1 CK W2 W3 V IH W4 n q L. destruct n; [lia|]. rewrite !app_length in L. cbn [length] in L. rewrite !app_length in L. cbn [length] in L. rewrite !app_length in L. cbn [length] in L. rewrite !app_length in L. cbn [scan_members].
    replace ((w1 ++ x22 :: k ++ x22 :: w2 ++ x3a :: w3 ++ s ++ w4) ++ x7d :: q) with (w1 ++ x22 :: k ++ x22 :: w2 ++ x3a :: w3 ++ s ++ w4 ++ x7d :: q) by (repeat (rewrite <- ?app_assoc; cbn [app]); reflexivity).
    rewrite (skip_ws_app w1 _ W1) by reflexivity. change (b2n x22 =? 34) with true. cbv iota. rewrite (scan_str_complete k _ CK). rewrite (skip_ws_app w2 _ W2) by reflexivity. change (b2n x3a =? 58) with true. cbv iota.
    rewrite (skip_ws_app w3 _ W3) by (apply start_ws, start_app, (value_start v s V)). rewrite IH; [|lia|apply follow_ws; [exact W4|cbn; tauto]].
    rewrite (skip_ws_app w4 _ W4) by reflexivity. reflexivity.
  - intros w1 k w2 w3 v s w4 l r W1 CK W2 W3 V IH W4 HM IHM n q L. destruct n; [lia|]. rewrite !app_length in L. cbn [length] in L. rewrite !app_length in L. cbn [length] in L. rewrite !app_length in L. cbn [length] in L. rewrite !app_length in L. cbn [length] in L. cbn [scan_members].
    replace ((w1 ++ x22 :: k ++ x22 :: w2 ++ x3a :: w3 ++ s ++ w4 ++ x2c :: r) ++ x7d :: q) with (w1 ++ x22 :: k ++ x22 :: w2 ++ x3a :: w3 ++ s ++ w4 ++ x2c :: r ++ x7d :: q) by (repeat (rewrite <- ?app_assoc; cbn [app]); reflexivity).
    rewrite (skip_ws_app w1 _ W1) by reflexivity. change (b2n x22 =? 34) with true. cbv iota. rewrite (scan_str_complete k _ CK). rewrite (skip_ws_app w2 _ W2) by reflexivity. change (b2n x3a =? 58) with true. cbv iota.
    rewrite (skip_ws_app w3 _ W3) by (apply start_ws, start_app, (value_start v s V)). rewrite IH; [|lia|apply follow_ws; [exact W4|cbn; tauto]].
    rewrite (skip_ws_app w4 _ W4) by reflexivity. change (b2n x2c =? 44) with true. cbv iota. rewrite IHM by lia. reflexivity.
Qed.

Theorem parse_iff : forall s j, json_parse s = Some j <-> json_text j s.
Proof.
  intros s j. unfold json_parse, json_text. split.
  - intros H. destruct (skip_ws_split s) as (w & W & E & _). destruct (scan_value _ (skip_ws s)) as [[v q]|] eqn:D; [|discriminate H].
    destruct (skip_ws_split q) as (w2 & W2 & E2 & _). destruct (skip_ws q) eqn:D2; [|discriminate H]. injection H as <-. destruct (proj1 (scan_sound _) _ _ _ D) as (t & T & ET).
    exists w, t, w2. repeat (split; [assumption|]). rewrite E, ET, E2, app_nil_r. reflexivity.
  - intros (w1 & t & w2 & W1 & T & W2 & ->). rewrite (skip_ws_app w1 _ W1) by (apply start_ws, start_app, (value_start j t T)).
    rewrite (proj1 scan_complete j t T).
    + rewrite (skip_ws_all w2 W2). reflexivity.
    + rewrite !app_length. lia.
    + rewrite <- (app_nil_r w2). apply follow_ws; [exact W2|exact I].
Qed.
