(** JsonValueProofs.v: the decoder is exactly the relation of JsonValueSpec.v. C60. *)
From Coq Require Import DecimalFacts DecimalN.
From Verif Require Import Base Itoa Json JsonSpec JsonStringSpec JsonStringProofs JsonStringProofs2 JsonProofs JsonProofs2 JsonProofs3 JsonValueSpec.
From Coq Require Import Lia ZArith NArith List.
Import ListNotations.
Open Scope list_scope.
Local Open Scope N_scope.
Local Notation length := List.length.

(** ** Numbers *)
Lemma digit_uint : forall c, digit c -> forall u, exists u', uint_bytes u' = c :: uint_bytes u /\ (c <> x30 -> Decimal.nzhead u' = u').
Proof.
  intros c H u. assert (E : In c [x30; x31; x32; x33; x34; x35; x36; x37; x38; x39]).
  { destruct c; (exfalso; unfold digit, b2n in H; cbn in H; lia) || (cbn [In]; tauto). }
  cbn [In] in E.
  destruct E as [<-|[<-|[<-|[<-|[<-|[<-|[<-|[<-|[<-|[<-|[]]]]]]]]]]].
  1: { exists (Decimal.D0 u). split; [reflexivity|]. intros X. contradiction X. reflexivity. }
  all: [> exists (Decimal.D1 u)|exists (Decimal.D2 u)|exists (Decimal.D3 u)|exists (Decimal.D4 u)|exists (Decimal.D5 u)|exists (Decimal.D6 u)|exists (Decimal.D7 u)|exists (Decimal.D8 u)|exists (Decimal.D9 u)];
    split; reflexivity.
Qed.
Lemma digits_uint : forall s, Forall digit s -> exists u, uint_bytes u = s.
Proof.
  induction 1 as [|c s H _ (u & IH)]; [exists Decimal.Nil; reflexivity|]. destruct (digit_uint c H u) as (u' & E & _). exists u'. rewrite E, IH. reflexivity.
Qed.
Lemma int_part_dec : forall s n, int_part s -> (parse_uint s = Some n <-> s = dec_n n).
Proof.
  intros s n H. split; [|intros ->; apply parse_uint_dec]. intros P.
  assert (K : exists u, uint_bytes u = s /\ Decimal.unorm u = u).
  { destruct H as [|d l D L]; [exists (Decimal.D0 Decimal.Nil); split; reflexivity|]. destruct (digits_uint l L) as (u & E).
    destruct (digit_uint d ltac:(unfold digit; lia) u) as (u' & E' & Z). exists u'. split; [rewrite E', E; reflexivity|].
    assert (X : d <> x30) by (intros ->; cbn in D; lia). specialize (Z X). unfold Decimal.unorm. rewrite Z. destruct u'; try reflexivity. discriminate E'. }
  destruct K as (u & E & U). assert (V : digits_val 0 s = Some n) by (unfold parse_uint in P; destruct s; [discriminate P|exact P]).
  rewrite <- E, digits_val_uint in V. injection V as <-. unfold dec_n. rewrite DecimalN.Unsigned.to_of, U. symmetry. exact E.
Qed.
Lemma digits_val_digits : forall s a n, digits_val a s = Some n -> Forall digit s.
Proof.
  induction s as [|c s IH]; intros a n H; [constructor|]. cbn [digits_val] in H. destruct (is_digit c) eqn:D; [|discriminate H]. constructor; [apply is_digit_iff; exact D|exact (IH _ _ H)].
Qed.
(** A number that consists of digits is an int. *)
Lemma number_digits : forall s, number s -> Forall digit s -> int_part s.
Proof.
  intros s (m & i & f & e & M & I & F & E & ->) D. apply Forall_app in D. destruct D as (D1 & D). apply Forall_app in D. destruct D as (_ & D). apply Forall_app in D. destruct D as (D2 & D3).
  assert (m = []) as ->. { destruct M; [reflexivity|]. inversion D1 as [|? ? X]; subst. unfold digit in X. cbn in X. lia. }
  assert (f = []) as ->. { destruct F; [reflexivity|]. inversion D2 as [|? ? X]; subst. unfold digit in X. cbn in X. lia. }
  assert (e = []) as ->. { destruct E as [|? ? ? HI]; [reflexivity|]. inversion D3 as [|? ? X]; subst. destruct HI as [<-|[<-|[]]]; unfold digit in X; cbn in X; lia. }
  cbn [app]. rewrite app_nil_r. exact I.
Qed.
Lemma number_minus : forall r, number (x2d :: r) -> Forall digit r -> int_part r.
Proof.
  intros r (m & i & f & e & M & I & F & E & EQ) D. destruct M.
  - exfalso. destruct (int_head i I) as (c & l & -> & G). cbn [app] in EQ. injection EQ as <- _. unfold digit in G. cbn in G. lia.
  - cbn [app] in EQ. injection EQ as ->. apply Forall_app in D. destruct D as (_ & D). apply Forall_app in D. destruct D as (D2 & D3).
    assert (f = []) as ->. { destruct F; [reflexivity|]. inversion D2 as [|? ? X]; subst. unfold digit in X. cbn in X. lia. }
    assert (e = []) as ->. { destruct E as [|? ? ? HI]; [reflexivity|]. inversion D3 as [|? ? X]; subst. destruct HI as [<-|[<-|[]]]; unfold digit in X; cbn in X; lia. }
    rewrite !app_nil_r. exact I.
Qed.
Lemma parse_uint_iff : forall s n, number s -> (parse_uint s = Some n <-> s = dec_n n).
Proof.
  intros s n H. split; [|intros ->; apply parse_uint_dec]. intros P. apply int_part_dec; [|exact P]. apply number_digits; [exact H|].
  unfold parse_uint in P. destruct s; [discriminate P|]. exact (digits_val_digits _ _ _ P).
Qed.
Lemma parse_int_iff : forall s z, number s -> (parse_int s = Some z <-> s = itoa z \/ (s = [x2d; x30] /\ z = 0%Z)).
Proof.
  intros s z H. split.
  - intros P. unfold parse_int in P. destruct s as [|c r]; [discriminate P|]. destruct (b2n c =? 45) eqn:M.
    + apply (b2n_is _ _ x2d) in M; [|reflexivity]. subst c. destruct (parse_uint r) as [n|] eqn:U; [|discriminate P].
      assert (D : Forall digit r) by (unfold parse_uint in U; destruct r; [discriminate U|exact (digits_val_digits _ _ _ U)]).
      pose proof (number_minus r H D) as I. apply (int_part_dec r n I) in U. injection P as <-. destruct (N.eq_dec n 0) as [->|Z].
      * right. rewrite U. split; reflexivity.
      * left. unfold itoa. assert (L : (- Z.of_N n <? 0)%Z = true) by lia. rewrite L, U. f_equal. f_equal. lia.
    + destruct (parse_uint (c :: r)) as [n|] eqn:U; [|discriminate P]. injection P as <-. left. apply (parse_uint_iff _ _ H) in U. unfold itoa.
      assert (L : (Z.of_N n <? 0)%Z = false) by lia. rewrite L, N2Z.id. exact U.
  - intros [->|[-> ->]]; [apply parse_int_itoa|reflexivity].
Qed.
Lemma int64_ok_iff : forall z, int64_ok z = true <-> (- 2 ^ 63 <= z < 2 ^ 63)%Z.
Proof. intros z. unfold int64_ok. change (2 ^ 63)%Z with 9223372036854775808%Z. lia. Qed.

(** ** Parsed texts are clean *)
Scheme value_mut := Induction for value Sort Prop with elements_mut := Induction for elements Sort Prop with members_mut := Induction for members Sort Prop.
Lemma value_clean : forall j s, value j s -> clean j.
Proof.
  refine (value_mut (fun j _ _ => clean j) (fun l _ _ => Forall clean l) (fun l _ _ => Forall (fun m => chars (fst m) /\ clean (snd m)) l) _ _ _ _ _ _ _ _ _ _ _ _ _).
  - exact I.
  - exact I.
  - exact I.
  - intros s H. exact H.
  - intros s H. exact H.
  - intros w _. exact I.
  - intros l s _ H. apply clean_arr. exact H.
  - intros w _. exact I.
  - intros l s _ H. apply clean_obj. exact H.
  - intros; constructor; [assumption|constructor].
  - intros; constructor; assumption.
  - intros; constructor; [split; assumption|constructor].
  - intros; constructor; [split; assumption|assumption].
Qed.
Lemma text_clean : forall j s, json_text j s -> clean j.
Proof. intros j s (w1 & t & w2 & _ & V & _). exact (value_clean j t V). Qed.

(** ** Zero values *)
Lemma unset_iff : forall t v, unset t v <-> v = zero_of t.
Proof. intros t v. split; [intros []; reflexivity|intros ->; destruct t; constructor]. Qed.
Lemma unsets_iff : forall fs vs, Forall2 unset (map snd fs) vs <-> vs = zeros fs.
Proof.
  induction fs as [|[k t] fs IH]; intros vs; cbn [map snd zeros].
  - split; [intros H; inversion H; reflexivity|intros ->; constructor].
  - fold (zeros fs). split.
    + intros H. inversion H as [|? v ? vs' A B]; subst. apply unset_iff in A. apply IH in B. subst. reflexivity.
    + intros ->. constructor; [apply unset_iff; reflexivity|apply IH; reflexivity].
Qed.

(** ** Bytes *)
Lemma dec_u8_iff : forall j b, clean j -> (dec_u8 j = Ok b <-> reads_byte j b).
Proof.
  intros j b C. split.
  - intros H. unfold dec_u8 in H. destruct j; try discriminate H.
    + injection H as <-. constructor.
    + destruct (parse_uint lit) as [n|] eqn:P; [|discriminate H]. destruct (n <? 256) eqn:L; [|discriminate H]. injection H as <-. apply (parse_uint_iff _ _ C) in P. subst lit.
      assert (E : n = b2n (n2b n)) by (rewrite b2n_n2b, N.mod_small by lia; reflexivity). rewrite E at 1. constructor.
  - intros []; [reflexivity|]. unfold dec_u8. rewrite parse_uint_dec. pose proof (b2n_lt b0) as L. assert (E : (b2n b0 <? 256) = true) by lia. rewrite E, n2b_b2n. reflexivity.
Qed.
Lemma dec_u8s_iff : forall js l, Forall clean js -> (dec_u8s js = Ok l <-> Forall2 reads_byte js l).
Proof.
  induction js as [|j js IH]; intros l C; cbn [dec_u8s].
  - split; [intros H; injection H as <-; constructor|intros H; inversion H; reflexivity].
  - inversion C as [|? ? C1 C2]; subst. split.
    + destruct (dec_u8 j) as [b| |] eqn:D; cbn [bind]; try discriminate. destruct (dec_u8s js) as [r| |] eqn:E; cbn [bind]; try discriminate. intros H. injection H as <-.
      constructor; [apply dec_u8_iff; assumption|apply IH; [exact C2|reflexivity]].
    + intros H. inversion H as [|? b ? r A B]; subst. apply (dec_u8_iff _ _ C1) in A. apply (IH _ C2) in B. rewrite A. cbn [bind]. rewrite B. reflexivity.
Qed.

(** ** Values *)
Lemma find_none : forall key fs, find_field key fs = None <-> forall i, ~ member_field key (map fst fs) i.
Proof.
  intros key fs. split.
  - intros H i M. assert (E : exists t, option_map snd (nth_error fs i) = Some t).
    { assert (X : exists n, nth_error (map fst fs) i = Some n) by (destruct M as [((n & A & _) & _)|(_ & (n & A & _) & _)]; exists n; exact A). destruct X as (n & X).
      rewrite nth_error_map in X. destruct (nth_error fs i) as [[k t]|]; [exists t; reflexivity|discriminate X]. }
    destruct E as (t & E). rewrite (proj2 (find_field_exact key fs i t) (conj M E)) in H. discriminate H.
  - intros H. destruct (find_field key fs) as [[i t]|] eqn:E; [|reflexivity]. apply find_field_exact in E. exfalso. exact (H i (proj1 E)).
Qed.
Lemma set_split : forall i v (vs : list gval) d, (i < length vs)%nat -> exists pre post, length pre = i /\ vs = pre ++ nth i vs d :: post /\ set_nth i v vs = pre ++ v :: post.
Proof.
  induction i as [|i IH]; intros v [|a vs] d H; cbn [length] in H; try lia.
  - exists [], vs. repeat split.
  - destruct (IH v vs d ltac:(lia)) as (pre & post & L & E1 & E2). exists (a :: pre), post. cbn [length nth set_nth app]. split; [lia|]. split; [f_equal; exact E1|f_equal; exact E2].
Qed.
Lemma dec_iff : forall j, clean j -> forall t old v, has_ty old t -> (dec j t old = Ok v <-> reads_value j t old v).
Proof.
  induction j as [|b|l|r|l IH|l IH] using json_ind'; intros C t old v O.
  - split; [intros H; destruct t; cbn [dec] in H; injection H as <-; constructor|intros H; inversion H; subst; reflexivity].
  - split; [intros H; destruct t; cbn [dec] in H; try discriminate H; injection H as <-; constructor|intros H; inversion H; subst; reflexivity].
  - cbn [clean] in C. split.
    + intros H. destruct t; cbn [dec] in H; try discriminate H.
      * destruct (parse_uint l) as [n|] eqn:P; [|discriminate H]. destruct (n <? 4294967296) eqn:L; [|discriminate H]. injection H as <-. apply (parse_uint_iff _ _ C) in P. subst l. constructor. change (2 ^ 32) with 4294967296. lia.
      * destruct (parse_int l) as [z|] eqn:P; [|discriminate H]. destruct (int64_ok z) eqn:L; [|discriminate H]. injection H as <-. apply int64_ok_iff in L. apply (parse_int_iff _ _ C) in P.
        destruct P as [->|[-> ->]]; [constructor; exact L|constructor].
    + intros H. inversion H; subst; cbn [dec].
      * rewrite parse_uint_dec. match goal with X : _ < 2 ^ 32 |- _ => change (2 ^ 32) with 4294967296 in X; assert (E : (n <? 4294967296) = true) by lia; rewrite E end. reflexivity.
      * rewrite parse_int_itoa. match goal with X : (_ <= _ < _)%Z |- _ => apply int64_ok_iff in X; rewrite X end. reflexivity.
      * reflexivity.
  - cbn [clean] in C. split.
    + intros H. destruct t; cbn [dec] in H; try discriminate H. destruct (b64_decode (unquote r)) as [b|] eqn:D; [|discriminate H]. injection H as <-.
      apply (Read_bytes r (unquote r)); [apply unquote_exact; [exact C|reflexivity]|apply b64_decode_exact; exact D].
    + intros H. inversion H as [| | | | | | |raw s b old0 A B| | | | | |]; subst; cbn [dec]. apply (unquote_exact _ _ C) in A. rewrite A. apply b64_decode_exact in B. rewrite B. reflexivity.
  - apply clean_arr in C. split.
    + intros H. destruct t as [| | | |fs|t]; try discriminate H.
      * cbn [dec] in H. destruct (dec_u8s l) as [b| |] eqn:D; try discriminate H. cbn [bind] in H. injection H as <-. constructor. apply dec_u8s_iff; assumption.
      * rewrite dec_arr in H. destruct (dec_items t l) as [vs| |] eqn:D; try discriminate H. cbn [bind] in H. injection H as <-. constructor. clear O. revert C vs D. induction IH as [|j js I1 I2 IHL]; intros C vs D; cbn [dec_items] in D.
        -- injection D as <-. constructor.
        -- inversion C as [|? ? C1 C2]; subst. destruct (dec j t (zero_of t)) as [x| |] eqn:E; try discriminate D. cbn [bind] in D. destruct (dec_items t js) as [xs| |] eqn:E2; try discriminate D. cbn [bind] in D. injection D as <-.
           apply (Elements_cons j js t (zero_of t)); [apply unset_iff; reflexivity|apply I1; [exact C1|apply has_zero|exact E]|apply IHL; [exact C2|reflexivity]].
    + intros H. inversion H as [| | | | | | | |js b old0 A| | | |js t0 vs old0 A|]; subst.
      * cbn [dec]. apply dec_u8s_iff in A; [|exact C]. rewrite A. reflexivity.
      * rewrite dec_arr. assert (E : dec_items t0 l = Ok vs); [|rewrite E; reflexivity]. clear O H. revert vs A. induction IH as [|j js I1 I2 IHL]; intros vs A.
        -- inversion A; subst. reflexivity.
        -- inversion C as [|? ? C1 C2]; subst. inversion A as [|? ? ? z x xs U R S]; subst. apply unset_iff in U. subst z. cbn [dec_items]. apply (I1 C1) in R; [|apply has_zero]. rewrite R. cbn [bind].
           rewrite (IHL C2 xs S). reflexivity.
  - apply clean_obj in C.
    assert (K : forall fs acc vs, have_tys acc fs -> (dec_members fs l acc = Ok vs <-> reads_members l fs acc vs)).
    { intros fs. induction IH as [|[k m] ms I1 I2 IHL]; intros acc vs T; cbn [dec_members].
      - split; [intros H; injection H as <-; constructor|intros H; inversion H; reflexivity].
      - inversion C as [|? ? (C0 & C1) C2]; subst. cbn [fst snd] in *. specialize (IHL C2). split.
        + intros H. assert (U : reads k (unquote k)) by (apply unquote_exact; [exact C0|reflexivity]). destruct (find_field (unquote k) fs) as [[i t']|] eqn:F.
          * destruct (dec m t' (nth i acc (zero_of t'))) as [x| |] eqn:D; try discriminate H. cbn [bind] in H. destruct (find_field_nth _ _ _ _ F) as (n & N).
            assert (LT : (i < length acc)%nat) by (rewrite (have_tys_length _ _ T); apply nth_error_Some; rewrite N; discriminate).
            destruct (set_split i x acc (zero_of t') LT) as (pre & post & E & E1 & E2). apply IHL in H; [|eapply have_set; [exact T|exact N|eapply dec_typed; [|exact D]; eapply have_nth; eassumption]].
            rewrite E1. apply find_field_exact in F. destruct F as (F & _). subst i.
            apply (Members_set k (unquote k) m ms fs pre _ post x vs n t' U F N); [|rewrite <- E2; exact H]. apply I1; [exact C1|eapply have_nth; eassumption|exact D].
          * apply IHL in H; [|exact T]. apply (Members_skip k (unquote k)); [exact U|apply find_none; exact F|exact H].
        + intros H. inversion H as [|? key ? ? ? ? ? U F R|? key ? ? ? pre o post x ? n t' U F N V R]; subst; apply (unquote_exact _ _ C0) in U; subst key.
          * apply find_none in F. rewrite F. apply IHL; assumption.
          * assert (FF : find_field (unquote k) fs = Some (length pre, t')) by (apply find_field_exact; split; [exact F|rewrite N; reflexivity]). rewrite FF.
            assert (EN : nth (length pre) (pre ++ o :: post) (zero_of t') = o) by (rewrite app_nth2 by lia; rewrite Nat.sub_diag; reflexivity). rewrite EN.
            assert (TO : has_ty o t') by (rewrite <- EN; eapply have_nth; eassumption). apply (I1 C1 _ _ _ TO) in V. rewrite V. cbn [bind]. rewrite set_nth_app. apply IHL; [|exact R].
            rewrite <- (set_nth_app pre x o post). eapply have_set; [exact T|exact N|]. eapply dec_typed; [exact TO|exact V]. }
    split.
    + intros H. destruct t as [| | | |fs|t]; try discriminate H. rewrite dec_obj in H.
      assert (O' : exists st, contents fs old st /\ have_tys st fs /\ (match old with VPtr (Some vs) => vs | _ => zeros fs end) = st).
      { destruct old as [| | | |[vs|]|[sl|]]; try (exfalso; exact O).
        - exists vs. split; [constructor|]. split; [apply has_ptr; exact O|reflexivity].
        - exists (zeros fs). split; [constructor; apply unsets_iff; reflexivity|]. split; [apply have_zeros|reflexivity]. }
      destruct O' as (st & S1 & S2 & S3). rewrite S3 in H. destruct (dec_members fs l st) as [vs| |] eqn:D; try discriminate H. cbn [bind] in H. injection H as <-.
      apply (Read_object l fs st); [exact S1|]. apply K; assumption.
    + intros H. inversion H as [| | | | | | | | | |ms fs st old0 vs S R| | |]; subst. rewrite dec_obj.
      assert (E : (match old with VPtr (Some vs) => vs | _ => zeros fs end) = st /\ have_tys st fs).
      { inversion S as [? ? |? ? U]; subst; [split; [reflexivity|apply has_ptr; exact O]|]. apply unsets_iff in U. subst st. split; [reflexivity|apply have_zeros]. }
      destruct E as (-> & T). apply (K _ _ _ T) in R. rewrite R. reflexivity.
Qed.

Theorem unmarshal_exact : forall fs s vs, unmarshal fs s = Ok vs <-> structure_read fs s vs.
Proof.
  intros fs s vs. unfold unmarshal, structure_read. split.
  - destruct (json_parse s) as [j|] eqn:P; [|discriminate]. apply parse_iff in P. pose proof (text_clean _ _ P) as C.
    destruct j as [|b|l|r|l|ms]; intros H.
    + left. injection H as <-. split; [exact P|apply unsets_iff; reflexivity].
    + discriminate H.
    + discriminate H.
    + discriminate H.
    + discriminate H.
    + right. destruct (dec (JObj ms) (TPtr fs) (VPtr None)) as [[| | | |[vs'|]|]| |] eqn:D; try discriminate H. injection H as ->. apply (dec_iff _ C) in D; [|exact I].
      inversion D as [| | | | | | | | | |? ? st ? ? S R| | |]; subst. inversion S; subst. exists ms, st. split; [exact P|]. split; assumption.
  - intros [(P & U)|(ms & st & P & U & R)]; pose proof (text_clean _ _ P) as C; apply parse_iff in P; rewrite P.
    + apply unsets_iff in U. subst vs. reflexivity.
    + assert (D : reads_value (JObj ms) (TPtr fs) (VPtr None) (VPtr (Some vs))) by (apply (Read_object ms fs st); [constructor; exact U|exact R]).
      apply (dec_iff _ C) in D; [|exact I]. rewrite D. reflexivity.
Qed.
Lemma dec_u8s_err : forall js e, dec_u8s js = Err e -> e = EDecode.
Proof.
  induction js as [|j js IH]; intros e; cbn [dec_u8s]; [discriminate|]. destruct (dec_u8 j) as [b| |] eqn:D; cbn [bind]; try discriminate.
  - destruct (dec_u8s js); cbn [bind]; try discriminate. intros H. injection H as <-. apply IH. reflexivity.
  - intros H. injection H as <-. unfold dec_u8 in D. destruct j; try (injection D as <-; reflexivity); try discriminate D. destruct (parse_uint lit) as [n|]; [|injection D as <-; reflexivity].
    destruct (n <? 256); [discriminate D|injection D as <-; reflexivity].
Qed.
Lemma dec_err : forall j t old e, dec j t old = Err e -> e = EDecode.
Proof.
  induction j as [|b|l|r|l IH|l IH] using json_ind'; intros t old e H.
  - destruct t; discriminate H.
  - destruct t; cbn [dec] in H; try discriminate H; injection H as <-; reflexivity.
  - destruct t; cbn [dec] in H; try (injection H as <-; reflexivity).
    + destruct (parse_uint l) as [n|]; [|injection H as <-; reflexivity]. destruct (n <? 4294967296); [discriminate H|injection H as <-; reflexivity].
    + destruct (parse_int l) as [z|]; [|injection H as <-; reflexivity]. destruct (int64_ok z); [discriminate H|injection H as <-; reflexivity].
  - destruct t; cbn [dec] in H; try (injection H as <-; reflexivity). destruct (b64_decode (unquote r)); [discriminate H|injection H as <-; reflexivity].
  - destruct t as [| | | |fs|t]; try (cbn [dec] in H; injection H as <-; reflexivity).
    + cbn [dec] in H. destruct (dec_u8s l) as [b|e'|] eqn:D; cbn [bind] in H; try discriminate H. injection H as <-. exact (dec_u8s_err _ _ D).
    + rewrite dec_arr in H. destruct (dec_items t l) as [vs|e'|] eqn:D; cbn [bind] in H; try discriminate H. injection H as <-. revert D. induction IH as [|j js I1 I2 IHL]; cbn [dec_items]; [discriminate|].
      destruct (dec j t (zero_of t)) as [x|e2|] eqn:E; cbn [bind]; try discriminate; [|intros H; injection H as <-; exact (I1 _ _ _ E)]. destruct (dec_items t js) as [xs|e3|]; cbn [bind]; try discriminate. intros H. injection H as <-. apply IHL. reflexivity.
  - destruct t as [| | | |fs|t]; try (cbn [dec] in H; injection H as <-; reflexivity). rewrite dec_obj in H. revert H. generalize (match old with VPtr (Some vs) => vs | _ => zeros fs end). intros acc H.
    destruct (dec_members fs l acc) as [vs|e'|] eqn:D; cbn [bind] in H; try discriminate H. injection H as <-. revert acc D. induction IH as [|[k m] ms I1 I2 IHL]; intros acc; cbn [dec_members]; [discriminate|].
    destruct (find_field (unquote k) fs) as [[i t]|]; [|apply IHL]. cbn [snd] in I1. destruct (dec m t (nth i acc (zero_of t))) as [x|e2|] eqn:E; cbn [bind]; try discriminate; [apply IHL|intros H; injection H as <-; exact (I1 _ _ _ E)].
Qed.
Theorem unmarshal_err : forall fs s e, unmarshal fs s = Err e -> e = EDecode.
Proof.
  intros fs s e H. unfold unmarshal in H. destruct (json_parse s) as [j|]; [|injection H as <-; reflexivity].
  assert (K : (match dec j (TPtr fs) (VPtr None) with Ok (VPtr (Some vs)) => Ok vs | Ok _ => Err EDecode | Err e => Err e | Panic => Panic end) = Err e -> e = EDecode).
  { destruct (dec j (TPtr fs) (VPtr None)) as [[| | | |[vs|]|]|e'|] eqn:D; intros K; try discriminate K; try (injection K as <-; reflexivity). injection K as <-. exact (dec_err _ _ _ _ D). }
  destruct j; try (apply K; exact H). discriminate H.
Qed.
