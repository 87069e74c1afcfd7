(** PropertiesText.v: the texts shown to users, character by character: fingerprints (C38) and addresses (C39). *)
From Coq Require Import String.
From Verif Require Import Base Labels Itoa Address Fingerprint MiscProofs PropertiesMisc.
From Coq Require Import List Arith NArith ZArith Lia.
Import ListNotations.
Local Open Scope list_scope.

(** ** Specification *)

(** The digits '0' to '9' of a numeral, and its value. *)
Definition numeral (l : bytes) : Prop := forall b, In b l -> (48 <= b2n b <= 57)%N.
Fixpoint numeral_value (l : bytes) : N :=
  match l with [] => 0 | b :: r => (b2n b - 48) * 10 ^ N.of_nat (length r) + numeral_value r end.
(** Bytes as a number, the most significant first. *)
Fixpoint big_endian (l : bytes) : N := match l with [] => 0 | b :: r => b2n b * 256 ^ N.of_nat (length r) + big_endian r end.
(** The thirty digits of one fingerprint: six numerals of five digits, the i-th for bytes 5i to 5i + 4, modulo 100000. *)
Definition digits_of (f s : bytes) : Prop :=
  length s = 30%nat /\ numeral s /\
  forall i, (i < 6)%nat -> numeral_value (firstn 5 (skipn (5 * i) s)) = (big_endian (firstn 5 (skipn (5 * i) f)) mod 100000)%N.

(** ** Proofs *)

Lemma fold_value : forall l acc, fold_left (fun a b => (a * 10 + (b2n b - 48))%N) l acc = (acc * 10 ^ N.of_nat (length l) + numeral_value l)%N.
Proof.
  induction l as [|b l IH]; intros acc.
  - cbn. lia.
  - cbn [fold_left numeral_value length]. rewrite IH, Nat2N.inj_succ, N.pow_succ_r'. lia.
Qed.
Lemma digits_value_numeral : forall l, digits_value l = numeral_value l.
Proof. intros l. unfold digits_value. rewrite fold_value. lia. Qed.
Lemma fold_be : forall l acc, fold_left (fun a b => (a * 256 + b2n b)%N) l acc = (acc * 256 ^ N.of_nat (length l) + big_endian l)%N.
Proof.
  induction l as [|b l IH]; intros acc.
  - cbn. lia.
  - cbn [fold_left big_endian length]. rewrite IH, Nat2N.inj_succ, N.pow_succ_r'. lia.
Qed.
Lemma be_value_big_endian : forall l, be_value l = big_endian l.
Proof. intros l. unfold be_value. rewrite fold_be. lia. Qed.

Lemma numeral_of_digits : forall l, forallb is_digit l = true -> numeral l.
Proof.
  intros l H b HI. rewrite forallb_forall in H. specialize (H b HI). unfold is_digit in H. apply andb_true_iff in H.
  destruct H as [H1 H2]. apply N.leb_le in H1. apply N.leb_le in H2. split; assumption.
Qed.

Lemma numeral_bound : forall l, numeral l -> (numeral_value l < 10 ^ N.of_nat (length l))%N.
Proof.
  induction l as [|b l IH]; intros H.
  - reflexivity.
  - cbn [numeral_value length]. rewrite Nat2N.inj_succ, N.pow_succ_r'.
    assert (HB := H b (or_introl eq_refl)). assert (HL := IH (fun x HI => H x (or_intror HI))). nia.
Qed.

Lemma str_lt_value : forall a b, numeral a -> numeral b -> length a = length b -> str_lt a b = (numeral_value a <? numeral_value b)%N.
Proof.
  induction a as [|x a IH]; intros [|y b] HA HB HL; try discriminate HL; [reflexivity|]. cbn [str_lt numeral_value].
  cbn [length] in HL. apply eq_add_S in HL.
  assert (BX := HA x (or_introl eq_refl)). assert (BY := HB y (or_introl eq_refl)).
  assert (NA : numeral a) by (intros z HI; exact (HA z (or_intror HI))). assert (NB : numeral b) by (intros z HI; exact (HB z (or_intror HI))).
  assert (VA := numeral_bound a NA). assert (VB := numeral_bound b NB). rewrite <- HL in *. set (T := (10 ^ N.of_nat (length a))%N) in *.
  destruct (N.ltb_spec (b2n x) (b2n y)) as [L|L].
  - symmetry. apply N.ltb_lt. nia.
  - destruct (N.ltb_spec (b2n y) (b2n x)) as [L2|L2].
    + symmetry. apply N.ltb_ge. nia.
    + assert (E : b2n x = b2n y) by lia. rewrite (IH b NA NB HL), E.
      destruct (N.ltb_spec (numeral_value a) (numeral_value b)); symmetry; [apply N.ltb_lt|apply N.ltb_ge]; lia.
Qed.

Lemma display_digits : forall f s, display_string f = Ok s -> digits_of f s.
Proof.
  intros f s H. destruct (display_string_30 _ _ H) as (HL & HD & _). split; [exact HL|]. split; [apply numeral_of_digits; exact HD|].
  intros i Hi. rewrite <- digits_value_numeral, <- be_value_big_endian. exact (C38_chunks f s i H Hi).
Qed.

(** ** C38: the whole text *)

(** The text is the thirty digits of one fingerprint followed by the thirty of the other, the smaller number first. *)
Theorem C38_whole_text : forall f g d, new_display f g = Ok d ->
  exists s t, digits_of f s /\ digits_of g t /\
    ((display_text d = s ++ t /\ numeral_value s <= numeral_value t) \/ (display_text d = t ++ s /\ numeral_value t <= numeral_value s))%N.
Proof.
  intros f g d H. unfold new_display in H.
  destruct (display_string f) as [s| |] eqn:Ef; cbn [bind] in H; try discriminate H.
  destruct (display_string g) as [t| |] eqn:Eg; cbn [bind] in H; try discriminate H. injection H as <-.
  apply display_digits in Ef. apply display_digits in Eg. exists s, t. split; [exact Ef|]. split; [exact Eg|].
  unfold display_text. cbn [d_local d_remote]. destruct Ef as (L1 & N1 & _). destruct Eg as (L2 & N2 & _).
  rewrite (str_lt_value s t N1 N2) by (rewrite L1, L2; reflexivity).
  destruct (N.ltb_spec (numeral_value s) (numeral_value t)); [left|right]; split; try reflexivity; lia.
Qed.

Lemma numeral_unique : forall a b, numeral a -> numeral b -> length a = length b -> numeral_value a = numeral_value b -> a = b.
Proof.
  intros a b HA HB HL HV. apply str_lt_antisym; [exact HL| |]; rewrite str_lt_value by (try assumption; symmetry; assumption); apply N.ltb_ge; lia.
Qed.

(** The specification leaves no choice: the digits of a fingerprint are determined, so the two sides and any other implementation show the same. *)
Theorem C38_digits_determined : forall f s t, digits_of f s -> digits_of f t -> s = t.
Proof.
  intros f s t (L1 & N1 & V1) (L2 & N2 & V2).
  assert (HC : forall i, (i < 6)%nat -> firstn 5 (skipn (5 * i) s) = firstn 5 (skipn (5 * i) t)).
  { intros i Hi. assert (HF : forall (l : bytes) b, In b (firstn 5 (skipn (5 * i) l)) -> In b l).
    { intros l b HI. rewrite <- (firstn_skipn (5 * i) l). apply in_or_app. right. rewrite <- (firstn_skipn 5 (skipn (5 * i) l)). apply in_or_app. left. exact HI. }
    apply numeral_unique.
    - intros b HI. exact (N1 b (HF s b HI)).
    - intros b HI. exact (N2 b (HF t b HI)).
    - rewrite !firstn_length, !skipn_length, L1, L2. reflexivity.
    - rewrite (V1 i Hi), (V2 i Hi). reflexivity. }
  assert (HS : forall n (l : bytes), length l = (5 * n)%nat -> l = concat (map (fun i => firstn 5 (skipn (5 * i) l)) (seq 0 n))).
  { induction n as [|n IH]; intros l HL; [destruct l; [reflexivity|discriminate HL]|].
    cbn [seq map concat]. change (skipn (5 * 0) l) with l. rewrite <- seq_shift, map_map.
    rewrite <- (firstn_skipn 5 l) at 1. f_equal. rewrite (IH (skipn 5 l)) at 1 by (rewrite skipn_length; lia). f_equal. apply map_ext. intros i.
    rewrite <- skipn_add. f_equal. f_equal. lia. }
  rewrite (HS 6%nat s L1), (HS 6%nat t L2). f_equal. apply map_ext_in. intros i HI. apply in_seq in HI. apply HC. lia.
Qed.

Example C38_whole_example : exists d s t, new_display (repeat xff 30) (repeat x01 31) = Ok d /\ digits_of (repeat xff 30) s /\ digits_of (repeat x01 31) t /\
  display_text d = t ++ s /\ s = concat (repeat (str "27775"%string) 6).
Proof.
  destruct (display_string (repeat xff 30)) as [s| |] eqn:Es; [|vm_compute in Es; discriminate Es|vm_compute in Es; discriminate Es].
  destruct (display_string (repeat x01 31)) as [t| |] eqn:Et; [|vm_compute in Et; discriminate Et|vm_compute in Et; discriminate Et].
  exists {| d_local := s; d_remote := t |}, s, t. split; [unfold new_display; rewrite Es, Et; reflexivity|].
  split; [apply display_digits; exact Es|]. split; [apply display_digits; exact Et|]. vm_compute in Es, Et. injection Es as <-. injection Et as <-. split; reflexivity.
Qed.

(** ** C39: the whole string *)

(** The string of an address is its name, a colon, and the device id as a decimal numeral without leading zeros. *)
Theorem C39_address_string : forall a, exists digits, address_string a = a_name a ++ str ":"%string ++ digits /\
  digits <> [] /\ numeral digits /\ numeral_value digits = a_device a /\ (forall rest, digits = x30 :: rest -> rest = []).
Proof.
  intros a. exists (dec_n (a_device a)). split; [reflexivity|]. split; [apply dec_n_nonempty|].
  assert (HN : numeral (dec_n (a_device a))) by (apply numeral_of_digits, dec_n_digits). split; [exact HN|].
  assert (HV : numeral_value (dec_n (a_device a)) = a_device a) by (rewrite <- digits_value_numeral; apply digits_value_dec). split; [exact HV|].
  intros rest E. destruct rest as [|b rest]; [reflexivity|exfalso]. rewrite E in HN, HV.
  assert (HR : numeral (b :: rest)) by (intros x HI; exact (HN x (or_intror HI))). assert (HB := numeral_bound _ HR).
  assert (HL := dec_n_length (a_device a) (length rest)). rewrite E in HL. cbn [length] in HL, HB. rewrite <- HV in HL.
  assert (HE : numeral_value (x30 :: b :: rest) = numeral_value (b :: rest)) by (cbn [numeral_value]; change (b2n x30 - 48)%N with 0%N; lia).
  rewrite HE in HL. specialize (HL HB). lia.
Qed.

(** That form can be taken apart again in one way only, at the last colon. *)
Theorem C39_address_parse : forall a name digits, address_string a = name ++ str ":"%string ++ digits -> numeral digits ->
  name = a_name a /\ numeral_value digits = a_device a.
Proof.
  intros a name digits E HD. destruct (C39_address_string a) as (ds & E2 & _ & HN & HV & _). rewrite E2 in E.
  assert (NC : forall l, numeral l -> ~ In x3a l) by (intros l HL HI; specialize (HL _ HI); vm_compute in HL; destruct HL as [_ HL]; exact (HL eq_refl)).
  change (str ":"%string) with [x3a] in E. cbn [app] in E. destruct (last_separator x3a _ _ _ _ (NC _ HN) (NC _ HD) E) as [<- <-]. split; [reflexivity|exact HV].
Qed.

Example C39_whole_example : address_string {| a_name := str "a:1"%string; a_device := 4294967295 |} = str "a:1:4294967295"%string /\
  address_string {| a_name := []; a_device := 0 |} = str ":0"%string.
Proof. split; reflexivity. Qed.

Print Assumptions C38_whole_text.
Print Assumptions C38_digits_determined.
Print Assumptions C39_address_string.
Print Assumptions C39_address_parse.
