(** WireGrammarProofs.v: the decoder of Wire.v accepts exactly the grammar of WireGrammarSpec.v. *)
From Verif Require Import Base Bytehelper Ecc Wire Messages WireGrammarSpec ParserErrors.
From Coq Require Import ZArith NArith List Lia.
Import ListNotations.
Local Open Scope N_scope.

(** * Varints *)
Lemma b2n_lt : forall b, b2n b < 256.
Proof. intros b. unfold b2n. pose proof (Byte.to_N_bounded b). lia. Qed.
Lemma n2b_b2n : forall b, n2b (b2n b) = b.
Proof. intros b. destruct b; reflexivity. Qed.
Lemma b2n_n2b : forall n, n < 256 -> b2n (n2b n) = n.
Proof. intros n H. rewrite Base.b2n_n2b. apply N.mod_small. exact H. Qed.
Lemma base128_byte : forall b, b2n b < 128 -> base128 (b2n b) [b].
Proof. intros b H. rewrite <- (n2b_b2n b) at 2. constructor. exact H. Qed.
Lemma base128_cons : forall b n l, 128 <= b2n b -> base128 n l -> base128 (b2n b - 128 + 128 * n) (b :: l).
Proof.
  intros b n l H K. rewrite <- (n2b_b2n b) at 2. replace (b2n b) with (128 + (b2n b - 128)) at 2 by lia.
  constructor; [pose proof (b2n_lt b); lia|exact K].
Qed.
Lemma base128_shape : forall n p, base128 n p -> match p with [] => False | b :: l =>
  (l = [] /\ b2n b < 128 /\ n = b2n b) \/ (exists m, 128 <= b2n b /\ base128 m l /\ n = b2n b - 128 + 128 * m) end.
Proof.
  intros n p H. destruct H as [k Hk|d k l Hd Hk].
  - left. rewrite b2n_n2b by lia. auto.
  - right. exists k. rewrite b2n_n2b by lia. split; [lia|]. split; [exact Hk|lia].
Qed.
Lemma base128_inv : forall n b l, base128 n (b :: l) ->
  (l = [] /\ b2n b < 128 /\ n = b2n b) \/ (exists m, 128 <= b2n b /\ base128 m l /\ n = b2n b - 128 + 128 * m).
Proof. intros n b l H. exact (base128_shape _ _ H). Qed.
Lemma base128_nil : forall n, ~ base128 n [].
Proof. intros n H. inversion H. Qed.

Lemma dec_fuel_spec : forall f l n r, dec_varint_fuel (S f) l = Some (n, r) <->
  exists p, l = p ++ r /\ base128 n p /\ (length p <= S f)%nat /\ n < 2 * 128 ^ N.of_nat f.
Proof.
  induction f as [|f IH]; intros l n r.
  - destruct l as [|b l]; [split; [discriminate|intros (p & E & B & _); destruct p; [contradiction (base128_nil _ B)|discriminate E]]|].
    cbn [dec_varint_fuel Nat.eqb]. change (2 * 128 ^ N.of_nat 0) with 2. destruct (b2n b <? 2) eqn:E; split.
    + intros H. apply N.ltb_lt in E. injection H as <- <-. exists [b]. split; [reflexivity|]. split; [apply base128_byte; lia|]. split; [cbn; lia|exact E].
    + intros (p & EL & B & LP & LN). destruct p as [|c p]; [contradiction (base128_nil _ B)|]. injection EL as -> ->.
      destruct (base128_inv _ _ _ B) as [(-> & Hb & ->)|(m & Hb & Hm & ->)]; [reflexivity|lia].
    + discriminate.
    + intros (p & EL & B & LP & LN). apply N.ltb_ge in E. destruct p as [|c p]; [contradiction (base128_nil _ B)|]. injection EL as -> ->.
      destruct (base128_inv _ _ _ B) as [(-> & Hb & ->)|(m & Hb & Hm & ->)]; [lia|]. destruct p; [contradiction (base128_nil _ Hm)|cbn in LP; lia].
  - replace (2 * 128 ^ N.of_nat (S f)) with (128 * (2 * 128 ^ N.of_nat f)) by (rewrite Nat2N.inj_succ, N.pow_succ_r'; lia).
    assert (P : 0 < 128 ^ N.of_nat f) by (apply N.neq_0_lt_0, N.pow_nonzero; lia).
    destruct l as [|b l]; [split; [discriminate|intros (p & E & B & _); destruct p; [contradiction (base128_nil _ B)|discriminate E]]|].
    change (dec_varint_fuel (S (S f)) (b :: l)) with
      (if b2n b <? 128 then Some (b2n b, l)
       else match dec_varint_fuel (S f) l with Some (hi, r') => Some ((b2n b - 128) + 128 * hi, r') | None => None end).
    destruct (b2n b <? 128) eqn:E; [apply N.ltb_lt in E|apply N.ltb_ge in E].
    + split.
      * intros H. injection H as <- <-. exists [b]. split; [reflexivity|]. split; [apply base128_byte; exact E|]. split; [cbn; lia|lia].
      * intros (p & EL & B & LP & LN). destruct p as [|c p]; [contradiction (base128_nil _ B)|]. injection EL as -> ->.
        destruct (base128_inv _ _ _ B) as [(-> & Hb & ->)|(m & Hb & Hm & ->)]; [reflexivity|lia].
    + split.
      * intros H. destruct (dec_varint_fuel (S f) l) as [[hi r']|] eqn:D; [|discriminate H].
        assert (EN : n = b2n b - 128 + 128 * hi) by exact (eq_sym (f_equal (fun o => match o with Some (x, _) => x | None => 0 end) H)).
        assert (ER : r = r') by exact (eq_sym (f_equal (fun o => match o with Some (_, x) => x | None => [] end) H)). clear H. subst n r'.
        apply IH in D. destruct D as (p & -> & B & LP & LN). exists (b :: p). split; [reflexivity|]. split; [apply base128_cons; assumption|].
        split; [cbn [length]; lia|]. pose proof (b2n_lt b). lia.
      * intros (p & EL & B & LP & LN). destruct p as [|c p]; [contradiction (base128_nil _ B)|]. injection EL as -> ->.
        destruct (base128_inv _ _ _ B) as [(-> & Hb & ->)|(m & Hb & Hm & ->)]; [lia|].
        assert (D : dec_varint_fuel (S f) (p ++ r) = Some (m, r)) by (apply IH; exists p; split; [reflexivity|]; split; [exact Hm|]; cbn in LP; split; [lia|lia]).
        rewrite D. reflexivity.
Qed.
Lemma dec_varint_spec : forall l n r, dec_varint l = Some (n, r) <-> exists p, l = p ++ r /\ varint n p.
Proof.
  intros l n r. unfold dec_varint, varint. rewrite (dec_fuel_spec 9 l n r). change (2 * 128 ^ N.of_nat 9) with (2 ^ 64). reflexivity.
Qed.
Lemma dec_varint_app : forall n p r, varint n p -> dec_varint (p ++ r) = Some (n, r).
Proof. intros n p r H. apply dec_varint_spec. exists p. split; [reflexivity|exact H]. Qed.
Lemma varint_nonempty : forall n p, varint n p -> (0 < length p)%nat.
Proof. intros n p (B & _). destruct p; [contradiction (base128_nil _ B)|cbn; lia]. Qed.
Lemma dec_varint_none : forall l, dec_varint l = None -> forall n p r, l = p ++ r -> ~ varint n p.
Proof. intros l H n p r -> V. rewrite (dec_varint_app n p r V) in H. discriminate H. Qed.

(** * Skipping *)
Lemma drop_n_spec : forall m l r, drop_n m l = Some r <-> exists p, l = p ++ r /\ N.of_nat (length p) = m.
Proof.
  intros m l r. unfold drop_n. destruct (N.of_nat (length l) <? m) eqn:E; [apply N.ltb_lt in E|apply N.ltb_ge in E]; split.
  - discriminate.
  - intros (p & -> & H). rewrite app_length in E. lia.
  - intros H. injection H as <-. exists (firstn (N.to_nat m) l). split; [symmetry; apply firstn_skipn|]. rewrite firstn_length. lia.
  - intros (p & -> & H). f_equal. replace (N.to_nat m) with (length p + 0)%nat by lia. rewrite skipn_app, skipn_all2 by lia.
    replace (length p + 0 - length p)%nat with 0%nat by lia. reflexivity.
Qed.

Scheme skipped_mut := Induction for skipped Sort Prop
  with group_mut := Induction for group Sort Prop.

(** The flat form: [closes d l]: [l] closes [d] open groups. *)
Definition plain (w : N) (b : bytes) : Prop := skipped w b /\ w <> 3.
Inductive closes : nat -> bytes -> Prop :=
| closes_none : closes 0 []
| closes_plain : forall d x t b l, varint x t -> plain (x mod 8) b -> closes (S d) l -> closes (S d) (t ++ b ++ l)
| closes_start : forall d x t l, varint x t -> x mod 8 = 3 -> closes (S (S d)) l -> closes (S d) (t ++ l)
| closes_end : forall d x t l, varint x t -> x mod 8 = 4 -> closes d l -> closes (S d) (t ++ l).

Lemma group_closes : forall p, group p -> forall d l, closes d l -> closes (S d) (p ++ l).
Proof.
  apply (group_mut (fun w b _ => w = 3 -> forall d l, closes d l -> closes (S d) (b ++ l)) (fun p _ => forall d l, closes d l -> closes (S d) (p ++ l))).
  - intros n l V H. discriminate H.
  - intros l V H. discriminate H.
  - intros q l V H. discriminate H.
  - intros l G IH _. exact IH.
  - intros l V H. discriminate H.
  - intros x t V E d l K. eapply closes_end; eassumption.
  - intros x t b l V Sk IHb G IHg d r K. rewrite <- !app_assoc. destruct (N.eq_dec (x mod 8) 3) as [E|E].
    + eapply closes_start; [exact V|exact E|]. apply IHb; [exact E|]. apply IHg. exact K.
    + eapply closes_plain; [exact V|split; [exact Sk|exact E]|]. apply IHg. exact K.
Qed.
Lemma closes_groups : forall d l, closes d l -> exists ps, length ps = d /\ l = concat ps /\ Forall group ps.
Proof.
  induction 1 as [|d x t b l V P K IH|d x t l V E K IH|d x t l V E K IH].
  - exists []. auto.
  - destruct IH as (ps & L & -> & F). destruct ps as [|p ps]; [discriminate L|]. inversion F; subst.
    exists ((t ++ b ++ p) :: ps). split; [exact L|]. split; [cbn [concat]; rewrite <- !app_assoc; reflexivity|].
    constructor; [|assumption]. eapply group_field; [exact V|exact (proj1 P)|assumption].
  - destruct IH as (ps & L & -> & F). destruct ps as [|p [|q ps]]; try discriminate L. inversion F; subst. inversion H2; subst.
    exists ((t ++ p ++ q) :: ps). split; [cbn in L |- *; lia|]. split; [cbn [concat]; rewrite <- !app_assoc; reflexivity|].
    constructor; [|assumption]. eapply group_field; [exact V| |eassumption]. rewrite E. constructor. assumption.
  - destruct IH as (ps & L & -> & F). exists (t :: ps). split; [cbn; lia|]. split; [reflexivity|]. constructor; [|exact F]. eapply group_end; eassumption.
Qed.
Lemma group_is_closes : forall p, group p <-> closes 1 p.
Proof.
  intros p. split.
  - intros G. rewrite <- (app_nil_r p). apply group_closes; [exact G|constructor].
  - intros K. destruct (closes_groups _ _ K) as (ps & L & -> & F). destruct ps as [|q [|? ?]]; try discriminate L. cbn [concat]. rewrite app_nil_r. inversion F; subst. assumption.
Qed.

Lemma mod8 : forall x, x mod 8 < 8.
Proof. intros x. apply N.mod_lt. lia. Qed.

Lemma find_end_group_sound : forall f d l r, find_end_group f (S d) l = Some r -> exists p, l = p ++ r /\ closes (S d) p.
Proof.
  induction f as [|f IH]; intros d l r H; [discriminate H|]. cbn [find_end_group] in H.
  destruct (dec_varint l) as [[x l1]|] eqn:D; [|discriminate H]. apply dec_varint_spec in D. destruct D as (t & -> & V).
  assert (STEP : forall b l2, l1 = b ++ l2 -> plain (x mod 8) b -> find_end_group f (S d) l2 = Some r -> exists p, t ++ l1 = p ++ r /\ closes (S d) p).
  { intros b l2 -> P K. destruct (IH _ _ _ K) as (q & -> & Q). exists (t ++ b ++ q). split; [rewrite <- !app_assoc; reflexivity|]. eapply closes_plain; eassumption. }
  unfold wt_varint, wt_fixed32, wt_fixed64, wt_bytes, wt_start_group, wt_end_group in H.
  destruct (x mod 8 =? 0) eqn:E0; [apply N.eqb_eq in E0|].
  { destruct (dec_varint l1) as [[y l2]|] eqn:D; [|discriminate H]. apply dec_varint_spec in D. destruct D as (b & -> & W).
    apply (STEP b l2); [reflexivity| |exact H]. rewrite E0. split; [econstructor; eassumption|lia]. }
  destruct (x mod 8 =? 5) eqn:E5; [apply N.eqb_eq in E5|].
  { destruct (drop_n 4 l1) as [l2|] eqn:D; [|discriminate H]. apply drop_n_spec in D. destruct D as (b & -> & W).
    apply (STEP b l2); [reflexivity| |exact H]. rewrite E5. split; [constructor; lia|lia]. }
  destruct (x mod 8 =? 1) eqn:E1; [apply N.eqb_eq in E1|].
  { destruct (drop_n 8 l1) as [l2|] eqn:D; [|discriminate H]. apply drop_n_spec in D. destruct D as (b & -> & W).
    apply (STEP b l2); [reflexivity| |exact H]. rewrite E1. split; [constructor; lia|lia]. }
  destruct (x mod 8 =? 2) eqn:E2; [apply N.eqb_eq in E2|].
  { destruct (dec_varint l1) as [[m l2]|] eqn:D; [|discriminate H]. apply dec_varint_spec in D. destruct D as (b & -> & W).
    destruct (drop_n m l2) as [l3|] eqn:D; [|discriminate H]. apply drop_n_spec in D. destruct D as (c & -> & W2).
    apply (STEP (b ++ c) l3); [rewrite <- app_assoc; reflexivity| |exact H]. rewrite E2. split; [constructor; rewrite W2; exact W|lia]. }
  destruct (x mod 8 =? 3) eqn:E3; [apply N.eqb_eq in E3|].
  { destruct (IH _ _ _ H) as (q & -> & Q). exists (t ++ q). split; [rewrite <- app_assoc; reflexivity|]. eapply closes_start; eassumption. }
  destruct (x mod 8 =? 4) eqn:E4; [apply N.eqb_eq in E4|discriminate H].
  destruct d as [|d].
  - injection H as <-. exists t. split; [reflexivity|]. rewrite <- (app_nil_r t). eapply closes_end; [exact V|exact E4|constructor].
  - destruct (IH _ _ _ H) as (q & -> & Q). exists (t ++ q). split; [rewrite <- app_assoc; reflexivity|]. eapply closes_end; eassumption.
Qed.
Lemma find_end_group_complete : forall d p, closes d p -> forall f r, (length p <= f)%nat -> d <> 0%nat -> find_end_group f d (p ++ r) = Some r.
Proof.
  induction 1 as [|d x t b l V P K IH|d x t l V E K IH|d x t l V E K IH]; intros f r HF HD; [contradiction| | |];
    (destruct f as [|f]; [rewrite ?app_length in HF; pose proof (varint_nonempty _ _ V); lia|]);
    cbn [find_end_group]; rewrite <- !app_assoc, (dec_varint_app _ _ _ V); rewrite ?app_length in HF; pose proof (varint_nonempty _ _ V);
    unfold wt_varint, wt_fixed32, wt_fixed64, wt_bytes, wt_start_group, wt_end_group.
  - destruct P as (Sk & N3). inversion Sk as [n q W E|q W E|q c W E|q W E|q W E]; subst.
    + cbn [N.eqb]. rewrite (dec_varint_app _ _ _ W). apply IH; [lia|lia].
    + cbn [N.eqb Pos.eqb]. assert (D : drop_n 8 (b ++ l ++ r) = Some (l ++ r)) by (apply drop_n_spec; exists b; split; [reflexivity|lia]). rewrite D. apply IH; [lia|lia].
    + cbn [N.eqb Pos.eqb]. rewrite <- app_assoc, (dec_varint_app _ _ _ W).
      assert (D : drop_n (N.of_nat (length c)) (c ++ l ++ r) = Some (l ++ r)) by (apply drop_n_spec; exists c; split; [reflexivity|lia]). rewrite D. rewrite app_length in HF. apply IH; [lia|lia].
    + contradiction N3. symmetry. assumption.
    + cbn [N.eqb Pos.eqb]. assert (D : drop_n 4 (b ++ l ++ r) = Some (l ++ r)) by (apply drop_n_spec; exists b; split; [reflexivity|lia]). rewrite D. apply IH; [lia|lia].
  - rewrite E. cbn [N.eqb Pos.eqb]. apply IH; [lia|lia].
  - rewrite E. cbn [N.eqb Pos.eqb]. destruct d as [|d]; [inversion K; subst; reflexivity|]. apply IH; [lia|lia].
Qed.

Lemma skip_field_spec : forall w l r, skip_field w l = Some r <-> exists b, l = b ++ r /\ skipped w b.
Proof.
  intros w l r. unfold skip_field, wt_varint, wt_fixed32, wt_fixed64, wt_bytes, wt_start_group. split.
  - intros H.
    destruct (w =? 0) eqn:E0; [apply N.eqb_eq in E0; subst|].
    { destruct (dec_varint l) as [[y l2]|] eqn:D; [|discriminate H]. injection H as <-. apply dec_varint_spec in D. destruct D as (b & -> & W). exists b. split; [reflexivity|econstructor; eassumption]. }
    destruct (w =? 5) eqn:E5; [apply N.eqb_eq in E5; subst|].
    { apply drop_n_spec in H. destruct H as (b & -> & W). exists b. split; [reflexivity|constructor; lia]. }
    destruct (w =? 1) eqn:E1; [apply N.eqb_eq in E1; subst|].
    { apply drop_n_spec in H. destruct H as (b & -> & W). exists b. split; [reflexivity|constructor; lia]. }
    destruct (w =? 2) eqn:E2; [apply N.eqb_eq in E2; subst|].
    { destruct (dec_varint l) as [[m l2]|] eqn:D; [|discriminate H]. apply dec_varint_spec in D. destruct D as (b & -> & W).
      apply drop_n_spec in H. destruct H as (c & -> & W2). exists (b ++ c). split; [rewrite <- app_assoc; reflexivity|constructor; rewrite W2; exact W]. }
    destruct (w =? 3) eqn:E3; [apply N.eqb_eq in E3; subst|discriminate H].
    apply find_end_group_sound in H. destruct H as (p & -> & K). exists p. split; [reflexivity|]. constructor. apply group_is_closes. exact K.
  - intros (b & -> & Sk). inversion Sk as [n q W E|q W E|q c W E|q W E|q W E]; subst; cbn [N.eqb Pos.eqb].
    + rewrite (dec_varint_app _ _ _ W). reflexivity.
    + apply drop_n_spec. exists b. split; [reflexivity|lia].
    + rewrite <- app_assoc, (dec_varint_app _ _ _ W). apply drop_n_spec. exists c. split; [reflexivity|lia].
    + apply find_end_group_complete; [apply group_is_closes; exact W|rewrite app_length; lia|lia].
    + apply drop_n_spec. exists b. split; [reflexivity|lia].
Qed.

(** * Messages *)
Definition agrees (kinds : N -> option fkind) (S : schema) : Prop := forall t k, kinds t = Some k <-> In (t, k) S.

Lemma dec_known_good : forall k l, match dec_known k (wire_type k) l with
  | inl (Some (v, r)) => exists b, l = b ++ r /\ body k v b
  | inl None => forall v b r, l = b ++ r -> ~ body k v b
  | inr _ => False end.
Proof.
  intros k l. destruct k; cbn [dec_known wire_type].
  - change (0 =? wt_varint) with true. cbv iota. destruct (dec_varint l) as [[x r]|] eqn:D.
    + apply dec_varint_spec in D. destruct D as (b & -> & W). exists b. split; [reflexivity|]. unfold u32. change u32_modulus with (2 ^ 32). constructor. exact W.
    + intros v b r -> B. inversion B; subst. eapply dec_varint_none; [exact D|reflexivity|eassumption].
  - change (2 =? wt_bytes) with true. cbv iota. destruct (dec_varint l) as [[m r]|] eqn:D.
    + apply dec_varint_spec in D. destruct D as (b & -> & W). destruct (N.of_nat (length r) <? m) eqn:E; [apply N.ltb_lt in E|apply N.ltb_ge in E].
      * intros v c s Hc B. inversion B as [|q d W2 E1 E2]; subst. rewrite <- app_assoc in Hc. pose proof (dec_varint_app _ _ (d ++ s) W2) as D2. rewrite <- Hc in D2.
        rewrite (dec_varint_app _ _ _ W) in D2. injection D2 as -> ->. rewrite app_length in E. lia.
      * exists (b ++ firstn (N.to_nat m) r). split; [rewrite <- app_assoc, firstn_skipn; reflexivity|]. constructor. rewrite firstn_length.
        replace (N.of_nat (Nat.min (N.to_nat m) (length r))) with m by lia. exact W.
    + intros v b r -> B. inversion B as [|q d W2 E1 E2]; subst. eapply dec_varint_none; [exact D|rewrite <- app_assoc; reflexivity|eassumption].
Qed.
Lemma dec_known_bad : forall k w l, w <> wire_type k -> dec_known k w l = inr tt.
Proof. intros k w l H. destruct k; cbn [dec_known wire_type] in *; [destruct (w =? wt_varint) eqn:E|destruct (w =? wt_bytes) eqn:E]; try reflexivity; apply N.eqb_eq in E; contradiction. Qed.
Lemma body_dec : forall k v b r, body k v b -> dec_known k (wire_type k) (b ++ r) = inl (Some (v, r)).
Proof.
  intros k v b r B. inversion B as [n q W E1 E2|q d W E1 E2]; subst; cbn [dec_known wire_type].
  - change (0 =? wt_varint) with true. cbv iota. rewrite (dec_varint_app _ _ _ W). reflexivity.
  - change (2 =? wt_bytes) with true. cbv iota. rewrite <- app_assoc, (dec_varint_app _ _ _ W).
    replace (N.of_nat (length (d ++ r)) <? N.of_nat (length d)) with false by (rewrite app_length; symmetry; apply N.ltb_ge; lia).
    rewrite Nat2N.id, firstn_app, skipn_app, Nat.sub_diag, firstn_all, skipn_all, firstn_O, app_nil_r. reflexivity.
Qed.

Lemma loop_sound : forall kinds S, agrees kinds S -> forall f l fs, unmarshal_loop kinds f l = Some fs -> message S l fs.
Proof.
  intros kinds Sc A. induction f as [|f IH]; intros l fs H.
  - destruct l as [|c l]; [injection H as <-; constructor|discriminate H].
  - destruct l as [|c l]; [injection H as <-; constructor|]. cbn [unmarshal_loop] in H.
    destruct (dec_varint (c :: l)) as [[x r]|] eqn:D; [|discriminate H]. apply dec_varint_spec in D. destruct D as (t & -> & V).
    destruct (x / 8 =? 0) eqn:E0; [discriminate H|]. apply N.eqb_neq in E0.
    assert (SKIP : (forall k, In (x / 8, k) Sc -> x mod 8 <> wire_type k) ->
      match skip_field (x mod 8) r with Some r' => unmarshal_loop kinds f r' | None => None end = Some fs -> message Sc (t ++ r) fs).
    { intros NK K. destruct (skip_field (x mod 8) r) as [r'|] eqn:Sk; [|discriminate K]. apply skip_field_spec in Sk. destruct Sk as (b & -> & Sk).
      eapply message_other; [exact V|exact E0|exact NK|exact Sk|]. apply IH. exact K. }
    destruct (kinds (x / 8)) as [k|] eqn:EK.
    + destruct (N.eq_dec (x mod 8) (wire_type k)) as [EW|EW].
      * pose proof (dec_known_good k r) as G. rewrite EW in H. destruct (dec_known k (wire_type k) r) as [[[v r']|]|u]; [|discriminate H|contradiction].
        destruct G as (b & -> & B). destruct (unmarshal_loop kinds f r') as [gs|] eqn:U; [|discriminate H]. injection H as <-.
        eapply message_known; [exact V|exact E0|apply A; exact EK|exact EW|exact B|]. apply IH. exact U.
      * rewrite (dec_known_bad _ _ _ EW) in H. apply SKIP; [|exact H]. intros k' HI. apply A in HI. rewrite EK in HI. injection HI as <-. exact EW.
    + apply SKIP; [|exact H]. intros k' HI. apply A in HI. rewrite EK in HI. discriminate HI.
Qed.
Lemma loop_complete : forall kinds S, agrees kinds S -> forall l fs, message S l fs -> forall f, (length l <= f)%nat -> unmarshal_loop kinds f l = Some fs.
Proof.
  intros kinds Sc A l fs M. induction M as [|x t k v b l fs V E0 HI EW B M IH|x t b l fs V E0 NK Sk M IH]; intros f HF.
  - destruct f; reflexivity.
  - pose proof (varint_nonempty _ _ V) as P. rewrite !app_length in HF. destruct f as [|f]; [lia|].
    pose proof (dec_varint_app _ _ (b ++ l) V) as D. destruct (t ++ b ++ l) as [|c rest] eqn:EL; [destruct t; [cbn in P; lia|discriminate EL]|].
    cbn [unmarshal_loop]. rewrite D. destruct (x / 8 =? 0) eqn:E; [apply N.eqb_eq in E; contradiction|]. apply A in HI. rewrite HI, EW, (body_dec _ _ _ _ B), IH by lia. reflexivity.
  - pose proof (varint_nonempty _ _ V) as P. rewrite !app_length in HF. destruct f as [|f]; [lia|].
    pose proof (dec_varint_app _ _ (b ++ l) V) as D. destruct (t ++ b ++ l) as [|c rest] eqn:EL; [destruct t; [cbn in P; lia|discriminate EL]|].
    cbn [unmarshal_loop]. rewrite D. destruct (x / 8 =? 0) eqn:E; [apply N.eqb_eq in E; contradiction|].
    assert (X : skip_field (x mod 8) (b ++ l) = Some l) by (apply skip_field_spec; exists b; split; [reflexivity|exact Sk]). rewrite X, IH by lia.
    destruct (kinds (x / 8)) as [k|] eqn:EK; [|reflexivity]. rewrite (dec_known_bad k (x mod 8)); [reflexivity|]. apply NK, A. exact EK.
Qed.
Lemma unmarshal_spec : forall kinds S, agrees kinds S -> forall l fs, unmarshal kinds l = Ok fs <-> message S l fs.
Proof.
  intros kinds Sc A l fs. unfold unmarshal. split.
  - intros H. destruct (unmarshal_loop kinds (length l) l) as [gs|] eqn:U; [|discriminate H]. injection H as <-. eapply loop_sound; eassumption.
  - intros M. rewrite (loop_complete _ _ A _ _ M (length l) (le_n _)). reflexivity.
Qed.
Lemma unmarshal_err : forall kinds S, agrees kinds S -> forall l, (unmarshal kinds l = Err EProto <-> forall fs, ~ message S l fs) /\
  (forall e, unmarshal kinds l = Err e -> e = EProto) /\ unmarshal kinds l <> Panic.
Proof.
  intros kinds Sc A l. split.
  - split.
    + intros H fs M. apply (unmarshal_spec _ _ A) in M. rewrite M in H. discriminate H.
    + intros H. destruct (unmarshal kinds l) as [fs|e|] eqn:U; [contradiction (H fs); apply (unmarshal_spec _ _ A); exact U| |];
        unfold unmarshal in U; destruct (unmarshal_loop kinds (length l) l); try discriminate U. symmetry. exact U.
  - unfold unmarshal. split; [intros e H|]; destruct (unmarshal_loop kinds (length l) l); congruence.
Qed.

(** * Values *)
Lemma message_typed : forall S l fs, message S l fs -> forall t v, In (t, v) fs -> exists k, In (t, k) S /\ match k with KUint32 => exists n, v = FUint n | KBytes => exists b, v = FBytes b end.
Proof.
  intros Sc l fs M. induction M as [|x t k v b l fs V E0 HI EW B M IH|x t b l fs V E0 NK Sk M IH]; intros t' v' H.
  - contradiction H.
  - destruct H as [H|H]; [|exact (IH _ _ H)]. injection H as <- <-. exists k. split; [exact HI|]. inversion B; subst; eexists; reflexivity.
  - exact (IH _ _ H).
Qed.
Lemma absent_cons : forall t p fs, absent t (p :: fs) <-> fst p <> t /\ absent t fs.
Proof.
  intros t [t' v] fs. unfold absent. cbn [fst]. split.
  - intros H. split; [intros ->; apply (H v); left; reflexivity|intros u K; apply (H u); right; exact K].
  - intros [N H] u [K|K]; [injection K as -> ->; contradiction|exact (H u K)].
Qed.
Lemma last_uint_spec : forall t fs acc n, (forall v, In (t, v) fs -> exists k, v = FUint k) ->
  last_uint t fs acc = n <-> (last_is t (FUint n) fs \/ (absent t fs /\ n = acc)).
Proof.
  intros t fs. induction fs as [|[t' v] fs IH]; intros acc n T.
  - cbn [last_uint]. split; [intros <-; right; split; [intros v []|reflexivity]|]. intros [(pre & post & E & _)|[_ ->]]; [destruct pre; discriminate E|reflexivity].
  - assert (T' : forall v, In (t, v) fs -> exists k, v = FUint k) by (intros u K; apply T; right; exact K).
    assert (LC : forall w, last_is t w ((t', v) :: fs) <-> last_is t w fs \/ (t' = t /\ v = w /\ absent t fs)).
    { intros w. split.
      - intros (pre & post & E & Ab). destruct pre as [|p pre]; [injection E as -> -> ->; right; auto|injection E as <- ->]. left. exists pre, post. auto.
      - intros [(pre & post & -> & Ab)|(-> & -> & Ab)]; [exists ((t', v) :: pre), post; auto|exists [], fs; auto]. }
    rewrite LC, absent_cons. cbn [fst]. destruct v as [m|b].
    + cbn [last_uint]. rewrite (IH _ _ T'). destruct (t' =? t) eqn:E; [apply N.eqb_eq in E|apply N.eqb_neq in E].
      * split; [intros [H|(Ab & ->)]; [left; left; exact H|left; right; auto]|].
        intros [[H|(_ & F & Ab)]|((NE & _) & _)]; [left; exact H|right; split; [exact Ab|congruence]|contradiction].
      * split; [intros [H|(Ab & ->)]; [left; left; exact H|right; auto]|].
        intros [[H|(F & _)]|((_ & Ab) & ->)]; [left; exact H|contradiction|right; auto].
    + cbn [last_uint]. rewrite (IH _ _ T'). assert (N : t' <> t) by (intros ->; destruct (T (FBytes b)) as (k & K); [left; reflexivity|discriminate K]).
      split; [intros [H|(Ab & ->)]; [left; left; exact H|right; auto]|].
      intros [[H|(F & _)]|((_ & Ab) & ->)]; [left; exact H|contradiction|right; auto].
Qed.
Lemma last_bytes_spec : forall t fs acc o, (forall v, In (t, v) fs -> exists k, v = FBytes k) ->
  last_bytes t fs acc = o <-> ((exists b, o = Some b /\ last_is t (FBytes b) fs) \/ (absent t fs /\ o = acc)).
Proof.
  intros t fs. induction fs as [|[t' v] fs IH]; intros acc n T.
  - cbn [last_bytes]. split; [intros <-; right; split; [intros v []|reflexivity]|]. intros [(b & _ & pre & post & E & _)|[_ ->]]; [destruct pre; discriminate E|reflexivity].
  - assert (T' : forall v, In (t, v) fs -> exists k, v = FBytes k) by (intros u K; apply T; right; exact K).
    assert (LC : forall w, last_is t w ((t', v) :: fs) <-> last_is t w fs \/ (t' = t /\ v = w /\ absent t fs)).
    { intros w. split.
      - intros (pre & post & E & Ab). destruct pre as [|p pre]; [injection E as -> -> ->; right; auto|injection E as <- ->]. left. exists pre, post. auto.
      - intros [(pre & post & -> & Ab)|(-> & -> & Ab)]; [exists ((t', v) :: pre), post; auto|exists [], fs; auto]. }
    rewrite absent_cons. cbn [fst]. destruct v as [m|b].
    + cbn [last_bytes]. rewrite (IH _ _ T'). assert (N : t' <> t) by (intros ->; destruct (T (FUint m)) as (k & K); [left; reflexivity|discriminate K]).
      split; [intros [(x & -> & H)|(Ab & ->)]; [left; exists x; split; [reflexivity|apply LC; left; exact H]|right; auto]|].
      intros [(x & -> & H)|((_ & Ab) & ->)]; [apply LC in H; destruct H as [H|(F & _)]; [left; exists x; auto|contradiction]|right; auto].
    + cbn [last_bytes]. rewrite (IH _ _ T'). destruct (t' =? t) eqn:E; [apply N.eqb_eq in E|apply N.eqb_neq in E].
      * split; [intros [(x & -> & H)|(Ab & ->)]; left; [exists x; split; [reflexivity|apply LC; left; exact H]|exists b; split; [reflexivity|apply LC; right; auto]]|].
        intros [(x & -> & H)|((NE & _) & _)]; [|contradiction]. apply LC in H. destruct H as [H|(_ & F & Ab)]; [left; exists x; auto|right; split; [exact Ab|congruence]].
      * split; [intros [(x & -> & H)|(Ab & ->)]; [left; exists x; split; [reflexivity|apply LC; left; exact H]|right; auto]|].
        intros [(x & -> & H)|((_ & Ab) & ->)]; [apply LC in H; destruct H as [H|(F & _)]; [left; exists x; auto|contradiction]|right; auto].
Qed.
Lemma get_uint_spec : forall S l fs t n, message S l fs -> (forall k, In (t, k) S -> k = KUint32) -> get_uint t fs = n <-> number t fs n.
Proof.
  intros Sc l fs t n M K. unfold get_uint, number. apply last_uint_spec. intros v H. destruct (message_typed _ _ _ M _ _ H) as (k & HI & T). rewrite (K k HI) in T. exact T.
Qed.
Lemma get_bytes_spec : forall S l fs t o, message S l fs -> (forall k, In (t, k) S -> k = KBytes) -> get_bytes t fs = o <-> content t fs o.
Proof.
  intros Sc l fs t o M K. unfold get_bytes, content. rewrite last_bytes_spec.
  - destruct o as [b|]; split.
    + intros [(x & E & H)|(_ & E)]; [injection E as <-; exact H|discriminate E].
    + intros H. left. exists b. auto.
    + intros [(x & E & H)|(H & _)]; [discriminate E|exact H].
    + intros H. right. auto.
  - intros v H. destruct (message_typed _ _ _ M _ _ H) as (k & HI & T). rewrite (K k HI) in T. exact T.
Qed.
