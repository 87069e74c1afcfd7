(** JsonStringProofs.v: base64, strings and member names are read as JsonStringSpec.v says (C60). *)
From Coq Require Import String.
From Verif Require Import Base Json JsonSpec JsonProofs JsonProofs2 JsonProofs3 JsonStringSpec.
From Coq Require Import Lia ZifyBool ZifyN ZifyNat.
Open Scope list_scope.
Local Open Scope N_scope.

(** * Base64 *)
Notation digit_char := (fun d : N => nth (N.to_nat d) alphabet x00).

Lemma index_digit : forall c x, b64_index c = Some x -> x < 64 /\ c = nth (N.to_nat x) alphabet x00.
Proof. intros c x. destruct c; vm_compute; intros H; try discriminate H; injection H as <-; split; reflexivity. Qed.
Lemma digit_index : forall d, d < 64 -> b64_index (nth (N.to_nat d) alphabet x00) = Some d.
Proof. intros d H. rewrite <- b64_char_alphabet by exact H. apply b64_char_index. exact H. Qed.

Lemma quanta_form : forall n s l, (length s <= n)%nat -> b64_quanta s = Some l ->
  exists ds pad k, Forall (fun d => d < 64) ds /\ s = map digit_char ds ++ repeat x3d pad /\ (pad < 3)%nat /\ (length ds + pad = 4 * k)%nat.
Proof.
  induction n as [|n IH]; intros s l HL H.
  { destruct s; [|cbn in HL; lia]. exists [], O, O. repeat split; [constructor|lia]. }
  destruct s as [|a [|b [|c [|d r]]]]; try discriminate H.
  { exists [], O, O. repeat split; [constructor|lia]. }
  cbn [b64_quanta] in H.
  destruct (b64_index a) as [x|] eqn:Ea; [|discriminate]. destruct (b64_index b) as [y|] eqn:Eb; [|discriminate].
  destruct (index_digit _ _ Ea) as [A1 A2]. destruct (index_digit _ _ Eb) as [B1 B2].
  destruct (b64_index c) as [z|] eqn:Ec.
  - destruct (index_digit _ _ Ec) as [C1 C2]. destruct (b64_index d) as [w|] eqn:Ed.
    + destruct (index_digit _ _ Ed) as [D1 D2]. cbv zeta in H. destruct (b64_quanta r) as [l'|] eqn:Er; [|discriminate].
      destruct (IH r l') as (ds & pad & k & F & E & P & L); [cbn [length] in HL; lia|exact Er|].
      exists (x :: y :: z :: w :: ds), pad, (S k). split; [repeat (constructor; try assumption)|]. split; [cbn [map app]; rewrite <- A2, <- B2, <- C2, <- D2, <- E; reflexivity|].
      split; [exact P|cbn [length]; lia].
    + destruct (b2n d =? 61) eqn:Ed2; [|discriminate]. destruct r; [|discriminate]. exists [x; y; z], 1%nat, 1%nat.
      apply N.eqb_eq in Ed2. assert (d = x3d) by (apply b2n_inj; rewrite Ed2; reflexivity). subst d.
      split; [repeat (constructor; try assumption)|]. split; [cbn [map app repeat]; rewrite <- A2, <- B2, <- C2; reflexivity|]. split; [lia|reflexivity].
  - destruct (b2n c =? 61) eqn:Ec2; [|discriminate]. destruct (b2n d =? 61) eqn:Ed2; [|discriminate]. destruct r; [|discriminate]. exists [x; y], 2%nat, 1%nat.
    apply N.eqb_eq in Ed2, Ec2. assert (d = x3d) by (apply b2n_inj; rewrite Ed2; reflexivity). assert (c = x3d) by (apply b2n_inj; rewrite Ec2; reflexivity). subst c d.
    split; [repeat (constructor; try assumption)|]. split; [cbn [map app repeat]; rewrite <- A2, <- B2; reflexivity|]. split; [lia|reflexivity].
Qed.

Lemma quanta_digits : forall k ds pad, Forall (fun d => d < 64) ds -> (pad < 3)%nat -> (length ds + pad = 4 * k)%nat ->
  exists l, b64_quanta (map digit_char ds ++ repeat x3d pad) = Some l /\ (length l + pad = 3 * k)%nat /\
    be64 ds * 64 ^ N.of_nat pad / 256 ^ N.of_nat pad = be256 l.
Proof.
  induction k as [|k IH]; intros ds pad F P L.
  { destruct ds; [|cbn in L; lia]. cbn [length] in L. assert (pad = O) by lia. subst pad. exists []. repeat split. }
  assert (HC : (length ds + pad = 4 /\ pad <> 0 \/ 4 <= length ds)%nat) by lia. destruct HC as [[HC HP]|HC].
  - assert (k = O) by lia. subst k. destruct pad as [|[|[|pad]]]; try lia.
    + destruct ds as [|x [|y [|z [|w ds]]]]; try (cbn [length] in HC; lia).
      inversion F as [|? ? Fx F1]; subst. inversion F1 as [|? ? Fy F2]; subst. inversion F2 as [|? ? Fz F3]; subst.
      cbn [map app repeat b64_quanta]. rewrite !digit_index by assumption. change (b64_index x3d) with (@None N). cbn [b2n].
      change (b2n x3d =? 61) with true. cbn [andb]. eexists. split; [reflexivity|]. split; [reflexivity|].
      unfold be64, be256. cbn [fold_left]. rewrite !b2n_n2b. change (64 ^ N.of_nat 1) with 64. change (256 ^ N.of_nat 1) with 256.
      set (v := (x * 64 + y) * 64 + z). replace (((0 * 64 + x) * 64 + y) * 64 + z) with v by (unfold v; lia).
      assert (HV : v < 262144) by (unfold v; lia). rewrite (N.mod_small (v / 1024)) by (apply N.div_lt_upper_bound; lia).
      change 256 with (4 * 64) at 1. rewrite N.div_mul_cancel_r by discriminate. rewrite N.mul_0_l, N.add_0_l.
      pose proof (N.div_mod (v / 4) 256 ltac:(discriminate)) as E. rewrite N.div_div in E by discriminate. change (4 * 256) with 1024 in E. lia.
    + destruct ds as [|x [|y [|z ds]]]; try (cbn [length] in HC; lia).
      inversion F as [|? ? Fx F1]; subst. inversion F1 as [|? ? Fy F2]; subst.
      cbn [map app repeat b64_quanta]. rewrite !digit_index by assumption. change (b64_index x3d) with (@None N).
      change (b2n x3d =? 61) with true. cbn [andb]. eexists. split; [reflexivity|]. split; [reflexivity|].
      unfold be64, be256. cbn [fold_left]. rewrite !b2n_n2b. change (64 ^ N.of_nat 2) with 4096. change (256 ^ N.of_nat 2) with 65536.
      set (v := x * 64 + y). replace ((0 * 64 + x) * 64 + y) with v by (unfold v; lia).
      assert (HV : v < 4096) by (unfold v; lia). rewrite (N.mod_small (v / 16)) by (apply N.div_lt_upper_bound; lia).
      change 65536 with (16 * 4096). rewrite N.div_mul_cancel_r by discriminate. lia.
  - destruct ds as [|x [|y [|z [|w ds]]]]; try (cbn [length] in HC; lia).
    inversion F as [|? ? Fx F1]; subst. inversion F1 as [|? ? Fy F2]; subst. inversion F2 as [|? ? Fz F3]; subst. inversion F3 as [|? ? Fw F4]; subst.
    destruct (IH ds pad F4 P) as (l & E1 & E2 & E3); [cbn [length] in L; lia|].
    cbn [map app b64_quanta]. rewrite !digit_index by assumption. cbv zeta. rewrite E1. eexists. split; [reflexivity|]. split; [cbn [length]; lia|].
    set (v := ((x * 64 + y) * 64 + z) * 64 + w). assert (HV : v < 16777216) by (unfold v; lia).
    unfold be64, be256. cbn [fold_left]. rewrite be64_from, be256_from, !b2n_n2b. rewrite !N.mul_0_l, !N.add_0_l. fold v.
    replace ((v / 65536 mod 256 * 256 + v / 256 mod 256) * 256 + v mod 256) with v.
    2:{ rewrite (N.mod_small (v / 65536)) by (apply N.div_lt_upper_bound; lia).
        pose proof (N.div_mod v 256 ltac:(discriminate)) as Q1. pose proof (N.div_mod (v / 256) 256 ltac:(discriminate)) as Q2.
        rewrite N.div_div in Q2 by discriminate. change (256 * 256) with 65536 in Q2. lia. }
    rewrite N.mul_add_distr_r, <- N.mul_assoc, <- N.pow_add_r, <- Nat2N.inj_add.
    cbn [length] in L. replace (length ds + pad)%nat with (4 * k)%nat by lia. rewrite pow_64_4, <- E2, Nat2N.inj_add, N.pow_add_r, N.mul_assoc.
    rewrite N.div_add_l by (apply N.pow_nonzero; discriminate). rewrite E3. reflexivity.
Qed.

Lemma be256_bound : forall l, be256 l < 256 ^ N.of_nat (length l).
Proof.
  induction l as [|a l IH]; [reflexivity|]. unfold be256. cbn [fold_left]. rewrite be256_from. cbn [length]. rewrite Nat2N.inj_succ, N.pow_succ_r by apply N.le_0_l.
  pose proof (b2n_lt a). rewrite N.mul_0_l, N.add_0_l. nia.
Qed.
Lemma be256_inj : forall l l', length l = length l' -> be256 l = be256 l' -> l = l'.
Proof.
  induction l as [|a l IH]; intros [|b l'] HL H; try discriminate HL; [reflexivity|]. injection HL as HL.
  unfold be256 in H. cbn [fold_left] in H. rewrite !be256_from, !N.mul_0_l, !N.add_0_l, <- HL in H.
  pose proof (be256_bound l) as B1. pose proof (be256_bound l') as B2. rewrite <- HL in B2.
  assert (E : b2n a = b2n b /\ be256 l = be256 l').
  { assert (HM : forall q r, r < 256 ^ N.of_nat (length l) -> (q * 256 ^ N.of_nat (length l) + r) / 256 ^ N.of_nat (length l) = q).
    { intros q r Hr. rewrite N.div_add_l by (apply N.pow_nonzero; discriminate). rewrite N.div_small by exact Hr. lia. }
    pose proof (HM (b2n a) _ B1) as Q1. pose proof (HM (b2n b) _ B2) as Q2. rewrite H in Q1. rewrite Q1 in Q2. split; [exact Q2|rewrite Q2 in H; lia]. }
  destruct E as [E1 E2]. f_equal; [apply b2n_inj; exact E1|apply IH; assumption].
Qed.

Lemma breaks_filter : forall s, filter not_newline s = without_breaks s.
Proof.
  intros s. unfold without_breaks. apply filter_ext. intros c. destruct c; reflexivity.
Qed.

Lemma b64_decode_exact : forall s l, b64_decode s = Some l <-> base64_read l s.
Proof.
  intros s l. unfold b64_decode, base64_read. rewrite breaks_filter. set (t := without_breaks s). split.
  - intros H. destruct (quanta_form _ _ _ (Nat.le_refl _) H) as (ds & pad & k & F & E & P & L).
    destruct (quanta_digits k ds pad F P L) as (l' & H1 & H2 & H3). rewrite <- E, H in H1. injection H1 as <-.
    exists ds, pad. repeat (split; [assumption|]). split; [lia|exact H3].
  - intros (ds & pad & F & E & P & L & V).
    destruct (quanta_digits ((length ds + pad) / 4)%nat ds pad F P) as (l' & H1 & H2 & H3).
    { pose proof (Nat.div_mod (length ds + pad) 4 ltac:(discriminate)). assert ((length ds + pad) mod 4 < 4)%nat by (apply Nat.mod_upper_bound; discriminate). lia. }
    rewrite E, H1. f_equal. apply be256_inj; [|congruence].
    pose proof (Nat.div_mod (length ds + pad) 4 ltac:(discriminate)). assert ((length ds + pad) mod 4 < 4)%nat by (apply Nat.mod_upper_bound; discriminate). lia.
Qed.

(** * Member names *)
Lemma lower_same : forall a b, lower a = lower b <-> a = b \/ exists n, 65 <= n <= 90 /\ ((b2n a = n /\ b2n b = n + 32) \/ (b2n a = n + 32 /\ b2n b = n)).
Proof.
  intros a b. unfold lower. cbv zeta. pose proof (b2n_lt a). pose proof (b2n_lt b).
  assert (EQ : a = b <-> b2n a = b2n b) by (split; [intros ->; reflexivity|apply b2n_inj]).
  split.
  - intros E. destruct ((65 <=? b2n a) && (b2n a <=? 90)) eqn:Ea; destruct ((65 <=? b2n b) && (b2n b <=? 90)) eqn:Eb.
    + left. apply EQ. lia.
    + right. exists (b2n a). lia.
    + right. exists (b2n b). lia.
    + left. apply EQ. exact E.
  - intros [->|(n & Hn & [[H1 H2]|[H1 H2]])]; [reflexivity| |];
      destruct ((65 <=? b2n a) && (b2n a <=? 90)) eqn:Ea; destruct ((65 <=? b2n b) && (b2n b <=? 90)) eqn:Eb; lia.
Qed.
Lemma low_s : forall a, lower a = 115 <-> In a [x53; x73].
Proof. intros a. destruct a; vm_compute; split; intros H; try discriminate; tauto || (repeat (destruct H as [H|H]; [discriminate H|]); destruct H). Qed.
Lemma low_k : forall a, lower a = 107 <-> In a [x4b; x6b].
Proof. intros a. destruct a; vm_compute; split; intros H; try discriminate; tauto || (repeat (destruct H as [H|H]; [discriminate H|]); destruct H). Qed.

Lemma same_letter_cases : forall a k, same_letter a k <-> (exists b, k = [b] /\ lower a = lower b) \/ (lower a = 115 /\ k = [xc5; xbf]) \/ (lower a = 107 /\ k = [xe2; x84; xaa]).
Proof.
  intros a k. split.
  - intros [|b H|H|H].
    + left. exists a. split; reflexivity.
    + left. exists b. split; [reflexivity|]. apply lower_same. right. exact H.
    + right. left. split; [apply low_s; exact H|reflexivity].
    + right. right. split; [apply low_k; exact H|reflexivity].
  - intros [(b & -> & H)|[(H & ->)|(H & ->)]].
    + apply lower_same in H. destruct H as [<-|H]; [constructor|apply Same_case; exact H].
    + apply Same_s. apply low_s. exact H.
    + apply Same_k. apply low_k. exact H.
Qed.

Lemma byte_is : forall b n, n < 256 -> (b2n b =? n) = true <-> b = n2b n.
Proof.
  intros b n Hn. rewrite N.eqb_eq. split.
  - intros E. apply b2n_inj. rewrite b2n_n2b, E. symmetry. apply N.mod_small. exact Hn.
  - intros ->. rewrite b2n_n2b. apply N.mod_small. exact Hn.
Qed.

Lemma fold_eq_exact : forall name key, fold_eq name key = true <-> same_name name key.
Proof.
  assert (HB : forall (b : byte), lower b <> 115 -> lower b <> 107 -> True) by (intros; exact I). clear HB.
  induction name as [|a name IH]; intros key.
  - destruct key as [|b key]; cbn [fold_eq]; split; intros H; try discriminate; [constructor|reflexivity|]. inversion H.
  - assert (HS : same_name (a :: name) key <-> exists k r, key = k ++ r /\ same_letter a k /\ same_name name r).
    { split; [intros H; inversion H; subst; eauto|]. intros (k & r & -> & H1 & H2). constructor; assumption. }
    rewrite HS. clear HS. destruct key as [|b r].
    { cbn [fold_eq]. split; [discriminate|]. intros (k & r & E & H & _). apply same_letter_cases in H.
      destruct H as [(b & -> & _)|[(_ & ->)|(_ & ->)]]; discriminate E. }
    cbn [fold_eq]. destruct (lower a =? lower b) eqn:E1.
    + rewrite IH. apply N.eqb_eq in E1. split.
      * intros H. exists [b], r. split; [reflexivity|]. split; [|exact H]. apply same_letter_cases. left. exists b. split; [reflexivity|exact E1].
      * intros (k & t & E & H & HN). apply same_letter_cases in H. destruct H as [(b' & -> & _)|[(Ha & ->)|(Ha & ->)]]; injection E as -> E.
        -- rewrite E. exact HN.
        -- exfalso. rewrite E1 in Ha. vm_compute in Ha. discriminate.
        -- exfalso. rewrite E1 in Ha. vm_compute in Ha. discriminate.
    + apply N.eqb_neq in E1. destruct r as [|c r2].
      { split; [discriminate|]. intros (k & t & E & H & HN). apply same_letter_cases in H. exfalso.
        destruct H as [(b' & -> & HL)|[(Ha & ->)|(Ha & ->)]]; injection E as -> E; try discriminate E. exact (E1 HL). }
      destruct ((lower a =? 115) && (b2n b =? 197) && (b2n c =? 191)) eqn:E2.
      * apply Bool.andb_true_iff in E2. destruct E2 as [E2 E3]. apply Bool.andb_true_iff in E2. destruct E2 as [E2 E4].
        apply N.eqb_eq in E2. apply byte_is in E3; [|reflexivity]. apply byte_is in E4; [|reflexivity]. subst b c. rewrite IH. split.
        -- intros H. exists [xc5; xbf], r2. split; [reflexivity|]. split; [|exact H]. apply same_letter_cases. right. left. split; [exact E2|reflexivity].
        -- intros (k & t & E & H & HN). apply same_letter_cases in H. destruct H as [(b' & -> & HL)|[(Ha & ->)|(Ha & ->)]].
           ++ injection E as <- E. exfalso. exact (E1 HL).
           ++ injection E as ->. exact HN.
           ++ discriminate E.
      * destruct r2 as [|d r3].
        { split; [discriminate|]. intros (k & t & E & H & HN). exfalso. apply same_letter_cases in H. destruct H as [(b' & -> & HL)|[(Ha & ->)|(Ha & ->)]].
          - injection E as <- E. exact (E1 HL).
          - injection E as -> -> E. rewrite Ha in E2. vm_compute in E2. discriminate.
          - discriminate E. }
        destruct ((lower a =? 107) && (b2n b =? 226) && (b2n c =? 132) && (b2n d =? 170)) eqn:E3.
        -- apply Bool.andb_true_iff in E3. destruct E3 as [E3 E6]. apply Bool.andb_true_iff in E3. destruct E3 as [E3 E5]. apply Bool.andb_true_iff in E3. destruct E3 as [E3 E4].
           apply N.eqb_eq in E3. apply byte_is in E4; [|reflexivity]. apply byte_is in E5; [|reflexivity]. apply byte_is in E6; [|reflexivity]. subst b c d. rewrite IH. split.
           ++ intros H. exists [xe2; x84; xaa], r3. split; [reflexivity|]. split; [|exact H]. apply same_letter_cases. right. right. split; [exact E3|reflexivity].
           ++ intros (k & t & E & H & HN). apply same_letter_cases in H. destruct H as [(b' & -> & HL)|[(Ha & ->)|(Ha & ->)]].
              ** injection E as <- E. exfalso. exact (E1 HL).
              ** discriminate E.
              ** injection E as ->. exact HN.
        -- split; [discriminate|]. intros (k & t & E & H & HN). exfalso. apply same_letter_cases in H. destruct H as [(b' & -> & HL)|[(Ha & ->)|(Ha & ->)]].
           ++ injection E as <- E. exact (E1 HL).
           ++ injection E as -> -> E. rewrite Ha in E2. vm_compute in E2. discriminate.
           ++ injection E as -> -> -> E. rewrite Ha in E3. vm_compute in E3. discriminate.
Qed.

Lemma find_by_first : forall (p : bytes -> bool) (P : bytes -> Prop) (HP : forall n, p n = true <-> P n) fs i t,
  find_by p fs = Some (i, t) <-> first_field P (map fst fs) i /\ option_map snd (nth_error fs i) = Some t.
Proof.
  intros p P HP. induction fs as [|[k u] fs IH]; intros i t; cbn [find_by map fst].
  - split; [discriminate|]. intros [[(n & H & _) _] _]. destruct i; discriminate H.
  - destruct (p k) eqn:E.
    + split.
      * intros H. injection H as <- <-. split; [|reflexivity]. split; [exists k; split; [reflexivity|apply HP; exact E]|]. intros j n Hj. lia.
      * intros [[_ H1] H2]. destruct i as [|i]; [cbn in H2; injection H2 as <-; reflexivity|]. exfalso. apply (H1 O k); [lia|reflexivity|apply HP; exact E].
    + assert (NK : ~ P k) by (intros Q; apply HP in Q; congruence). destruct (find_by p fs) as [[i' t']|] eqn:EF.
      * split.
        -- intros H. injection H as <- <-. destruct (proj1 (IH i' t') eq_refl) as [[(n & Q1 & Q2) Q3] Q4]. split; [|exact Q4].
           split; [exists n; split; [exact Q1|exact Q2]|]. intros [|j] m Hj Hm; [cbn in Hm; injection Hm as <-; exact NK|]. apply (Q3 j m); [lia|exact Hm].
        -- intros [[(n & Q1 & Q2) Q3] Q4]. destruct i as [|i]; [cbn in Q1; injection Q1 as <-; contradiction|].
           assert (HI : Some (i', t') = Some (i, t)).
           { apply IH. split; [|exact Q4]. split; [exists n; split; assumption|]. intros j m Hj Hm. apply (Q3 (S j) m); [lia|exact Hm]. }
           injection HI as <- <-. reflexivity.
      * split; [discriminate|]. intros [[(n & Q1 & Q2) Q3] Q4]. exfalso. destruct i as [|i]; [cbn in Q1; injection Q1 as <-; contradiction|].
        assert (HI : None = Some (i, t)); [|discriminate HI]. apply IH. split; [|exact Q4]. split; [exists n; split; assumption|]. intros j m Hj Hm. apply (Q3 (S j) m); [lia|exact Hm].
Qed.
Lemma find_by_none : forall (p : bytes -> bool) fs, find_by p fs = None <-> forall n, In n (map fst fs) -> p n = false.
Proof.
  intros p. induction fs as [|[k u] fs IH]; cbn [find_by map fst]; [split; [intros _ n []|reflexivity]|].
  destruct (p k) eqn:E.
  - split; [discriminate|]. intros H. specialize (H k (or_introl eq_refl)). congruence.
  - destruct (find_by p fs) as [[i t]|] eqn:EF.
    + split; [discriminate|]. intros H. assert (HN : Some (i, t) = None); [|discriminate HN]. apply IH. intros n Hn. apply H. right. exact Hn.
    + split; [|reflexivity]. intros _ n [<-|Hn]; [exact E|]. apply IH; [reflexivity|exact Hn].
Qed.

Lemma find_field_exact : forall key fs i t, find_field key fs = Some (i, t) <-> member_field key (map fst fs) i /\ option_map snd (nth_error fs i) = Some t.
Proof.
  intros key fs i t. unfold find_field, member_field.
  assert (HB : forall n, bytes_eqb n key = true <-> n = key) by (intros n; apply bytes_eqb_eq).
  pose proof (find_by_first (fun k => bytes_eqb k key) (fun n => n = key) HB fs) as H1.
  pose proof (find_by_first (fun k => fold_eq k key) (fun n => same_name n key) (fun n => fold_eq_exact n key) fs) as H2.
  destruct (find_by (fun k => bytes_eqb k key) fs) as [[i' t']|] eqn:EF.
  - destruct (proj1 (H1 i' t') eq_refl) as [[(n & Q1 & Q2) Q3] Q4]. split.
    + intros E. injection E as <- <-. split; [left; split; [exists n; split; assumption|exact Q3]|exact Q4].
    + intros [[HF|[HN _]] HT]; [apply H1; split; assumption|]. exfalso. apply (HN n); [|exact Q2]. exact (nth_error_In _ _ Q1).
  - rewrite H2. split.
    + intros [HF HT]. split; [|exact HT]. right. split; [|exact HF]. intros n Hn. pose proof (proj1 (find_by_none _ _) EF n Hn) as Q. cbn beta in Q. intros ->. rewrite (proj2 (HB key) eq_refl) in Q. discriminate.
    + intros [[HF|[_ HF]] HT]; [|split; assumption]. exfalso. assert (HI : None = Some (i, t)) by (apply H1; split; assumption). discriminate HI.
Qed.
