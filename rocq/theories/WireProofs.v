(** WireProofs.v: the protobuf decoder inverts the encoder. *)
From Verif Require Import Base Wire.
From Coq Require Import ZifyBool ZifyN ZifyNat.

(** Lengths a Go slice can have. *)
Definition fits {A} (l : list A) : Prop := (N.of_nat (length l) < 9223372036854775808)%N.

Lemma dec_enc_varint_fuel : forall f n rest,
  (n < 2 * 128 ^ N.of_nat f)%N ->
  dec_varint_fuel (S f) (enc_varint_fuel (S f) n ++ rest) = Some (n, rest).
Proof.
  induction f as [|f IH]; intros n rest H.
  - change (2 * 128 ^ N.of_nat 0)%N with 2%N in H.
    cbn [enc_varint_fuel]. replace (n <? 128)%N with true by lia.
    cbn [app dec_varint_fuel Nat.eqb]. rewrite b2n_n2b, N.mod_small by lia.
    replace (n <? 2)%N with true by lia. reflexivity.
  - remember (S f) as sf eqn:Hsf. cbn [enc_varint_fuel].
    destruct (n <? 128)%N eqn:E.
    + cbn [app dec_varint_fuel]. replace (sf =? 0)%nat with false by lia.
      rewrite b2n_n2b, N.mod_small by lia. rewrite E. reflexivity.
    + cbn [app dec_varint_fuel]. replace (sf =? 0)%nat with false by lia.
      pose proof (N.mod_lt n 128 ltac:(discriminate)) as HM.
      rewrite b2n_n2b, N.mod_small by lia.
      replace (128 + n mod 128 <? 128)%N with false by lia.
      subst sf. rewrite IH.
      * f_equal. f_equal. pose proof (N.div_mod n 128 ltac:(discriminate)). lia.
      * apply N.div_lt_upper_bound; [discriminate|].
        rewrite Nat2N.inj_succ, N.pow_succ_r' in H. lia.
Qed.

Lemma dec_enc_varint : forall n rest, (n < 18446744073709551616)%N ->
  dec_varint (enc_varint n ++ rest) = Some (n, rest).
Proof.
  intros n rest H. apply dec_enc_varint_fuel.
  change (2 * 128 ^ N.of_nat 9)%N with 18446744073709551616%N. exact H.
Qed.

Lemma enc_varint_nonempty : forall n, enc_varint n <> [].
Proof.
  intros n H. unfold enc_varint in H. cbn [enc_varint_fuel] in H.
  destruct (n <? 128)%N; discriminate.
Qed.

(** Fields whose tag and value the encoder can represent, of the declared kind. *)
Definition field_ok (kinds : N -> option fkind) (f : N * fval) : Prop :=
  match f with
  | (t, FUint n) => (0 < t < 536870912)%N /\ kinds t = Some KUint32 /\ (n < u32_modulus)%N
  | (t, FBytes b) => (0 < t < 536870912)%N /\ kinds t = Some KBytes /\ fits b
  end.

Lemma enc_field_nonempty : forall f, enc_field f <> [].
Proof.
  intros [t [n|b]] H; cbn in H; apply app_eq_nil in H; destruct H as [H _];
    exact (enc_varint_nonempty _ H).
Qed.

Lemma tag_div : forall t w, (w < 8)%N -> ((t * 8 + w) / 8 = t)%N.
Proof.
  intros t w H. rewrite N.add_comm, N.div_add by discriminate. rewrite N.div_small by exact H. reflexivity.
Qed.
Lemma tag_mod : forall t w, (w < 8)%N -> ((t * 8 + w) mod 8 = w)%N.
Proof.
  intros t w H. rewrite N.add_comm, N.mod_add by discriminate. apply N.mod_small. exact H.
Qed.

Lemma unmarshal_loop_field : forall kinds f rest fuel,
  field_ok kinds f -> 
  unmarshal_loop kinds (S fuel) (enc_field f ++ rest) =
    match unmarshal_loop kinds fuel rest with Some fs => Some (f :: fs) | None => None end.
Proof.
  intros kinds [t v] rest fuel Hok.
  destruct (enc_field (t, v) ++ rest) as [|b0 l0] eqn:EL.
  { apply app_eq_nil in EL. destruct EL as [EL _]. exfalso. exact (enc_field_nonempty _ EL). }
  cbn [unmarshal_loop]. rewrite <- EL. clear b0 l0 EL.
  destruct v as [n|b]; cbn in Hok; destruct Hok as [Ht [Hk Hv]]; cbn [enc_field].
  - unfold wt_varint. rewrite <- app_assoc, dec_enc_varint by lia.
    rewrite tag_div, tag_mod by reflexivity.
    replace (t =? 0)%N with false by lia. rewrite Hk. cbn [dec_known].
    replace (0 =? wt_varint)%N with true by reflexivity.
    rewrite dec_enc_varint by (unfold u32_modulus in Hv; lia).
    rewrite u32_small by exact Hv. reflexivity.
  - unfold wt_bytes. rewrite <- !app_assoc, dec_enc_varint by lia.
    rewrite tag_div, tag_mod by reflexivity.
    replace (t =? 0)%N with false by lia. rewrite Hk. cbn [dec_known].
    replace (2 =? wt_bytes)%N with true by reflexivity.
    rewrite dec_enc_varint by (unfold fits in Hv; lia).
    rewrite app_length.
    replace (N.of_nat (length b + length rest) <? N.of_nat (length b))%N with false by lia.
    rewrite Nat2N.id.
    rewrite firstn_app, Nat.sub_diag, firstn_all. cbn [firstn]. rewrite app_nil_r.
    rewrite skipn_app, Nat.sub_diag, skipn_all. cbn [skipn app]. reflexivity.
Qed.

Lemma unmarshal_loop_marshal_app : forall kinds fs fuel rest,
  Forall (field_ok kinds) fs -> (length (marshal fs) + length rest <= fuel)%nat ->
  unmarshal_loop kinds fuel (marshal fs ++ rest) =
    match unmarshal_loop kinds (fuel - length fs) rest with Some gs => Some (fs ++ gs) | None => None end.
Proof.
  intros kinds fs. induction fs as [|f fs IH]; intros fuel rest Hok Hf.
  - cbn [marshal flat_map app length]. rewrite Nat.sub_0_r. destruct (unmarshal_loop kinds fuel rest); reflexivity.
  - inversion Hok as [|? ? H1 H2]; subst. unfold marshal in *. cbn [flat_map] in *.
    rewrite app_length in Hf.
    assert (HL : (0 < length (enc_field f))%nat).
    { destruct (enc_field f) eqn:E; [exfalso; exact (enc_field_nonempty _ E)|cbn; lia]. }
    destruct fuel as [|fuel]; [lia|].
    rewrite <- app_assoc, unmarshal_loop_field by exact H1.
    rewrite IH by (try assumption; lia). cbn [length Nat.sub].
    destruct (unmarshal_loop kinds (fuel - length fs) rest); reflexivity.
Qed.

Lemma unmarshal_loop_nil : forall kinds fuel, unmarshal_loop kinds fuel [] = Some [].
Proof. intros kinds [|f]; reflexivity. Qed.

Theorem unmarshal_marshal : forall kinds fs,
  Forall (field_ok kinds) fs -> unmarshal kinds (marshal fs) = Ok fs.
Proof.
  intros kinds fs H. unfold unmarshal.
  rewrite <- (app_nil_r (marshal fs)) at 2.
  rewrite unmarshal_loop_marshal_app by (cbn; auto; lia).
  rewrite unmarshal_loop_nil, app_nil_r. reflexivity.
Qed.

Lemma marshal_inj : forall kinds fs gs,
  Forall (field_ok kinds) fs -> Forall (field_ok kinds) gs -> marshal fs = marshal gs -> fs = gs.
Proof.
  intros kinds fs gs H1 H2 E.
  pose proof (unmarshal_marshal kinds fs H1) as U1. pose proof (unmarshal_marshal kinds gs H2) as U2.
  rewrite E in U1. congruence.
Qed.

(** An unknown field is skipped wherever it stands between fields. *)
Lemma unmarshal_loop_unknown : forall kinds t v rest fuel,
  kinds t = None -> (0 < t < 536870912)%N ->
  (match v with FUint n => n < 18446744073709551616 | FBytes b => N.of_nat (length b) < 9223372036854775808 end)%N ->
  unmarshal_loop kinds (S fuel) (enc_field (t, v) ++ rest) = unmarshal_loop kinds fuel rest.
Proof.
  intros kinds t v rest fuel Hk Ht Hv.
  destruct (enc_field (t, v) ++ rest) as [|b0 l0] eqn:EL.
  { apply app_eq_nil in EL. destruct EL as [EL _]. exfalso. exact (enc_field_nonempty _ EL). }
  cbn [unmarshal_loop]. rewrite <- EL. clear b0 l0 EL.
  destruct v as [n|b]; cbn [enc_field].
  - unfold wt_varint. rewrite <- app_assoc, dec_enc_varint by lia.
    rewrite tag_div, tag_mod by reflexivity.
    replace (t =? 0)%N with false by lia. rewrite Hk. cbn [skip_field].
    replace (0 =? wt_varint)%N with true by reflexivity.
    unfold skip_field. cbn [N.eqb wt_varint].
    rewrite dec_enc_varint by exact Hv. reflexivity.
  - unfold wt_bytes. rewrite <- !app_assoc, dec_enc_varint by lia.
    rewrite tag_div, tag_mod by reflexivity.
    replace (t =? 0)%N with false by lia. rewrite Hk.
    unfold skip_field, wt_varint, wt_fixed32, wt_fixed64, wt_bytes. cbn [N.eqb Pos.eqb].
    rewrite dec_enc_varint by lia.
    unfold drop_n. rewrite app_length.
    replace (N.of_nat (length b + length rest) <? N.of_nat (length b))%N with false by lia.
    rewrite Nat2N.id, skipn_app, Nat.sub_diag, skipn_all. cbn [skipn app]. reflexivity.
Qed.

(** More fuel than the input length changes nothing: the loop consumes input at each turn. *)
Lemma dec_varint_fuel_shrinks : forall f l n r, dec_varint_fuel f l = Some (n, r) -> (length r < length l)%nat.
Proof.
  induction f as [|f IH]; intros l n r H; cbn in H; [discriminate|].
  destruct l as [|b l]; [discriminate|].
  destruct (f =? 0)%nat.
  - destruct (b2n b <? 2)%N; [|discriminate]. injection H as _ <-. cbn. lia.
  - destruct (b2n b <? 128)%N.
    + injection H as _ <-. cbn. lia.
    + destruct (dec_varint_fuel f l) as [[hi r']|] eqn:E; [|discriminate].
      injection H as _ <-. apply IH in E. cbn. lia.
Qed.

Lemma dec_varint_shrinks : forall l n r, dec_varint l = Some (n, r) -> (length r < length l)%nat.
Proof. intros l n r. apply dec_varint_fuel_shrinks. Qed.

Lemma drop_n_shrinks : forall m l r, drop_n m l = Some r -> (length r <= length l)%nat.
Proof.
  intros m l r H. unfold drop_n in H. destruct (N.of_nat (length l) <? m)%N; [discriminate|].
  injection H as <-. rewrite skipn_length. lia.
Qed.

Lemma find_end_group_shrinks : forall f d l r, find_end_group f d l = Some r -> (length r <= length l)%nat.
Proof.
  induction f as [|f IH]; intros d l r H; cbn [find_end_group] in H; [discriminate|].
  destruct (dec_varint l) as [[x r1]|] eqn:E1; [|discriminate].
  pose proof (dec_varint_shrinks _ _ _ E1) as L1.
  destruct (x mod 8 =? wt_varint)%N.
  { destruct (dec_varint r1) as [[y r2]|] eqn:E2; [|discriminate].
    pose proof (dec_varint_shrinks _ _ _ E2). apply IH in H. lia. }
  destruct (x mod 8 =? wt_fixed32)%N.
  { destruct (drop_n 4 r1) as [r2|] eqn:E2; [|discriminate].
    pose proof (drop_n_shrinks _ _ _ E2). apply IH in H. lia. }
  destruct (x mod 8 =? wt_fixed64)%N.
  { destruct (drop_n 8 r1) as [r2|] eqn:E2; [|discriminate].
    pose proof (drop_n_shrinks _ _ _ E2). apply IH in H. lia. }
  destruct (x mod 8 =? wt_bytes)%N.
  { destruct (dec_varint r1) as [[y r2]|] eqn:E2; [|discriminate].
    destruct (drop_n y r2) as [r3|] eqn:E3; [|discriminate].
    pose proof (dec_varint_shrinks _ _ _ E2). pose proof (drop_n_shrinks _ _ _ E3). apply IH in H. lia. }
  destruct (x mod 8 =? wt_start_group)%N.
  { apply IH in H. lia. }
  destruct (x mod 8 =? wt_end_group)%N; [|discriminate].
  destruct d as [|[|d]].
  - injection H as <-. lia.
  - injection H as <-. lia.
  - apply IH in H. lia.
Qed.

Lemma skip_field_shrinks : forall w l r, skip_field w l = Some r -> (length r <= length l)%nat.
Proof.
  intros w l r H. unfold skip_field in H.
  destruct (w =? wt_varint)%N.
  { destruct (dec_varint l) as [[x r1]|] eqn:E; [|discriminate]. injection H as <-.
    pose proof (dec_varint_shrinks _ _ _ E). lia. }
  destruct (w =? wt_fixed32)%N; [exact (drop_n_shrinks _ _ _ H)|].
  destruct (w =? wt_fixed64)%N; [exact (drop_n_shrinks _ _ _ H)|].
  destruct (w =? wt_bytes)%N.
  { destruct (dec_varint l) as [[x r1]|] eqn:E; [|discriminate].
    pose proof (dec_varint_shrinks _ _ _ E). pose proof (drop_n_shrinks _ _ _ H). lia. }
  destruct (w =? wt_start_group)%N; [|discriminate].
  exact (find_end_group_shrinks _ _ _ _ H).
Qed.

Lemma dec_known_shrinks : forall k w l v r, dec_known k w l = inl (Some (v, r)) -> (length r <= length l)%nat.
Proof.
  intros k w l v r H. destruct k; cbn [dec_known] in H.
  - destruct (w =? wt_varint)%N; [|discriminate].
    destruct (dec_varint l) as [[x r1]|] eqn:E; [|discriminate]. injection H as _ <-.
    pose proof (dec_varint_shrinks _ _ _ E). lia.
  - destruct (w =? wt_bytes)%N; [|discriminate].
    destruct (dec_varint l) as [[x r1]|] eqn:E; [|discriminate].
    destruct (N.of_nat (length r1) <? x)%N; [discriminate|]. injection H as _ <-.
    pose proof (dec_varint_shrinks _ _ _ E). rewrite skipn_length. lia.
Qed.

Lemma unmarshal_loop_fuel : forall kinds l f1 f2,
  (length l <= f1)%nat -> (length l <= f2)%nat -> unmarshal_loop kinds f1 l = unmarshal_loop kinds f2 l.
Proof.
  intros kinds l. remember (length l) as n eqn:Hn.
  assert (HH : (length l <= n)%nat) by lia. clear Hn.
  revert l HH. induction n as [|n IH]; intros l HH f1 f2 H1 H2.
  - destruct l; [|cbn in HH; lia]. rewrite !unmarshal_loop_nil. reflexivity.
  - destruct l as [|b l]; [rewrite !unmarshal_loop_nil; reflexivity|].
    destruct f1 as [|f1]; [lia|]. destruct f2 as [|f2]; [lia|].
    cbn [unmarshal_loop].
    destruct (dec_varint (b :: l)) as [[x r]|] eqn:E; [|reflexivity].
    pose proof (dec_varint_shrinks _ _ _ E) as L1.
    destruct (x / 8 =? 0)%N; [reflexivity|].
    assert (SK : match skip_field (x mod 8) r with Some r' => unmarshal_loop kinds f1 r' | None => None end
               = match skip_field (x mod 8) r with Some r' => unmarshal_loop kinds f2 r' | None => None end).
    { destruct (skip_field (x mod 8) r) as [r'|] eqn:ES; [|reflexivity].
      pose proof (skip_field_shrinks _ _ _ ES) as L2. apply IH; cbn in *; lia. }
    destruct (kinds (x / 8)%N) as [k|]; [|exact SK].
    destruct (dec_known k (x mod 8) r) as [[[v r']|]|] eqn:EK; [|reflexivity|exact SK].
    pose proof (dec_known_shrinks _ _ _ _ _ EK) as L2.
    rewrite (IH r' ltac:(cbn in *; lia) f1 f2 ltac:(cbn in *; lia) ltac:(cbn in *; lia)). reflexivity.
Qed.
