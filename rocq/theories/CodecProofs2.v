(** CodecProofs2.v: further facts on the parsers (permuted fields, over-long integers, panics). *)
From Verif Require Import Base Labels Crypto Bytehelper Ecc Itoa Wire Messages WireProofs CodecProofs.
From Coq Require Import ZifyBool ZifyN ZifyNat Permutation.

(** * Field order *)

Lemma last_uint_notin : forall t fs acc, ~ In t (map fst fs) -> last_uint t fs acc = acc.
Proof.
  intros t fs. induction fs as [|[t' [n|b]] fs IH]; intros acc H; cbn in *; [reflexivity| |].
  - destruct (t' =? t)%N eqn:E; [apply N.eqb_eq in E; tauto|]. apply IH; tauto.
  - apply IH; tauto.
Qed.
Lemma last_bytes_notin : forall t fs acc, ~ In t (map fst fs) -> last_bytes t fs acc = acc.
Proof.
  intros t fs. induction fs as [|[t' [n|b]] fs IH]; intros acc H; cbn in *; [reflexivity| |].
  - apply IH; tauto.
  - destruct (t' =? t)%N eqn:E; [apply N.eqb_eq in E; tauto|]. apply IH; tauto.
Qed.

Lemma last_uint_perm : forall t f g, Permutation f g -> NoDup (map fst f) -> forall acc,
  last_uint t f acc = last_uint t g acc.
Proof.
  intros t f g P. induction P as [|[t1 v1] l l' P IH|[t1 v1] [t2 v2] l|l l' l'' P1 IH1 P2 IH2]; intros ND acc.
  - reflexivity.
  - cbn in ND. inversion ND; subst. destruct v1; cbn; apply IH; assumption.
  - cbn in ND. inversion ND as [|? ? N1 N2]; subst. destruct v1, v2; cbn; try reflexivity.
    destruct (t1 =? t)%N eqn:E1; destruct (t2 =? t)%N eqn:E2; try reflexivity.
    apply N.eqb_eq in E1. apply N.eqb_eq in E2. subst. exfalso. apply N1. left. reflexivity.
  - rewrite IH1 by assumption. apply IH2.
    apply (Permutation_NoDup (Permutation_map fst P1)). assumption.
Qed.
Lemma last_bytes_perm : forall t f g, Permutation f g -> NoDup (map fst f) -> forall acc,
  last_bytes t f acc = last_bytes t g acc.
Proof.
  intros t f g P. induction P as [|[t1 v1] l l' P IH|[t1 v1] [t2 v2] l|l l' l'' P1 IH1 P2 IH2]; intros ND acc.
  - reflexivity.
  - cbn in ND. inversion ND; subst. destruct v1; cbn; apply IH; assumption.
  - cbn in ND. inversion ND as [|? ? N1 N2]; subst. destruct v1, v2; cbn; try reflexivity.
    destruct (t1 =? t)%N eqn:E1; destruct (t2 =? t)%N eqn:E2; try reflexivity.
    apply N.eqb_eq in E1. apply N.eqb_eq in E2. subst. exfalso. apply N1. left. reflexivity.
  - rewrite IH1 by assumption. apply IH2.
    apply (Permutation_NoDup (Permutation_map fst P1)). assumption.
Qed.

Lemma sig_fields_nodup : forall s, NoDup (map fst (sig_fields s)).
Proof.
  intros s. unfold sig_fields, opt_bytes_field.
  destruct (sg_ratchet s); destruct (sg_ct s); cbn; repeat constructor; cbn; intuition discriminate.
Qed.

Lemma sig_permuted : forall ver s mac fs, sig_wf s -> length mac = 8%nat ->
  Permutation (sig_fields s) fs ->
  sig_from_bytes (ver :: marshal fs ++ mac) = sig_from_bytes (ver :: marshal (sig_fields s) ++ mac).
Proof.
  intros ver s mac fs Hwf Hm P. unfold sig_from_bytes. rewrite sig_deserialize_body by assumption.
  assert (E : sig_deserialize (ver :: marshal fs ++ mac) =
    Ok {| sg_ratchet := sg_ratchet s; sg_counter := sg_counter s; sg_prev := sg_prev s; sg_ct := sg_ct s;
        sg_version := Z.of_N (high_bits ver); sg_mac := Some mac |}).
  { unfold sig_deserialize. rewrite (split_three_tail ver _ mac mac_length) by exact Hm. cbn [bind].
    rewrite unmarshal_marshal by (apply (Permutation_Forall P); apply sig_fields_ok; exact Hwf).
    cbn [bind]. unfold get_bytes, get_uint.
    rewrite <- !(last_uint_perm _ _ _ P) by apply sig_fields_nodup.
    rewrite <- !(last_bytes_perm _ _ _ P) by apply sig_fields_nodup.
    fold (get_bytes 1 (sig_fields s)) (get_bytes 4 (sig_fields s))
         (get_uint 2 (sig_fields s)) (get_uint 3 (sig_fields s)).
    destruct (sig_fields_get s) as (-> & -> & -> & ->). reflexivity. }
  rewrite E. reflexivity.
Qed.

(** Parsing depends only on the version nibble, the last eight bytes and the decoded fields. *)
Lemma sig_parse_factors : forall v1 v2 b1 b2 mac fs1 fs2,
  high_bits v1 = high_bits v2 -> length mac = 8%nat ->
  unmarshal sig_kinds b1 = Ok fs1 -> unmarshal sig_kinds b2 = Ok fs2 ->
  get_bytes 1 fs1 = get_bytes 1 fs2 -> get_uint 2 fs1 = get_uint 2 fs2 ->
  get_uint 3 fs1 = get_uint 3 fs2 -> get_bytes 4 fs1 = get_bytes 4 fs2 ->
  sig_from_bytes (v1 :: b1 ++ mac) = sig_from_bytes (v2 :: b2 ++ mac).
Proof.
  intros v1 v2 b1 b2 mac fs1 fs2 Hv Hm E1 E2 G1 G2 G3 G4. unfold sig_from_bytes, sig_deserialize.
  rewrite (split_three_tail v1 _ mac mac_length) by exact Hm.
  rewrite (split_three_tail v2 _ mac mac_length) by exact Hm. cbn [bind].
  rewrite E1, E2. cbn [bind]. rewrite Hv, G1, G2, G3, G4. reflexivity.
Qed.

(** * The other parsers *)

Lemma pk_from_bytes_panic : forall l, pk_from_bytes l = Panic <->
  l = [] \/
  exists s b i m, pk_deserialize l = Ok s /\ (pk_version s = 2 \/ pk_version s = 3)%Z /\
    pk_base s = Some b /\ pk_identity s = Some i /\ pk_message s = Some m /\
    (b = [] \/ (exists rb, b = x05 :: rb) /\ (i = [] \/ (exists ri, i = x05 :: ri) /\ sig_from_bytes m = Panic)).
Proof.
  intros l. unfold pk_from_bytes. destruct l as [|v r].
  { cbn. split; auto. }
  unfold pk_deserialize. destruct (unmarshal pk_kinds r) as [fs| |] eqn:EU; cbn [bind].
  2:{ split; [discriminate|]. intros [H|(s & b & i & m & H & _)]; discriminate. }
  2:{ exfalso. exact (unmarshal_no_panic _ _ EU). }
  set (s := {| pk_reg := _ |}). unfold pk_from_struct, unsupported_version, current_version.
  split.
  - intros H. right.
    destruct (pk_version s <=? 1)%Z eqn:E1; [discriminate|].
    destruct (pk_version s >? 3)%Z eqn:E2; [discriminate|].
    destruct (pk_base s) as [b|] eqn:Eb; [|discriminate].
    destruct (pk_identity s) as [i|] eqn:Ei; [|discriminate].
    destruct (pk_message s) as [m|] eqn:Em; [|discriminate].
    exists s, b, i, m. do 5 (split; [first [reflexivity|lia|assumption]|]).
    destruct (decode_point b) as [kb| |] eqn:Db; cbn [bind] in H; [|discriminate|].
    2:{ left. apply decode_point_panic. exact Db. }
    right. apply decode_point_ok in Db. destruct Db as (rb & -> & _). split; [eauto|].
    destruct (decode_point i) as [ki| |] eqn:Di; cbn [bind] in H; [|discriminate|].
    2:{ left. apply decode_point_panic. exact Di. }
    right. apply decode_point_ok in Di. destruct Di as (ri & -> & _). split; [eauto|].
    destruct (sig_from_bytes m) eqn:Es; cbn [bind] in H; try discriminate. reflexivity.
  - intros [H|(s' & b & i & m & HS & HV & Hb & Hi & Hm & HC)]; [discriminate|].
    injection HS as <-. fold s in HV, Hb, Hi, Hm |- *.
    replace (pk_version s <=? 1)%Z with false by lia. replace (pk_version s >? 3)%Z with false by lia.
    rewrite Hb, Hi, Hm. destruct HC as [->|((rb & ->) & HC)]; [reflexivity|].
    destruct (decode_point (x05 :: rb)) as [kb| |] eqn:Db; try (cbn in Db; discriminate). cbn [bind].
    destruct HC as [->|((ri & ->) & HC)]; [reflexivity|].
    destruct (decode_point (x05 :: ri)) as [ki| |] eqn:Di; try (cbn in Di; discriminate). cbn [bind].
    rewrite HC. reflexivity.
Qed.

Lemma pk_from_bytes_ok : forall l m, pk_from_bytes l = Ok m ->
  (pk_version (pm_struct m) = 2 \/ pk_version (pm_struct m) = 3)%Z /\
  (exists r, pk_base (pm_struct m) = Some (x05 :: r) /\ pm_base m = to_arr 32 r) /\
  (exists r, pk_identity (pm_struct m) = Some (x05 :: r) /\ pm_identity m = to_arr 32 r) /\
  (exists b, pk_message (pm_struct m) = Some b /\ sig_from_bytes b = Ok (pm_message m)) /\
  (exists i, pk_prekey_id (pm_struct m) = Some (ou_some i)).
Proof.
  intros l m H. unfold pk_from_bytes in H. destruct l as [|v r]; [discriminate|].
  unfold pk_deserialize in H. destruct (unmarshal pk_kinds r) as [fs| |] eqn:EU; cbn [bind] in H; try discriminate.
  match type of H with pk_from_struct ?x = _ => set (s := x) in * end.
  unfold pk_from_struct, unsupported_version, current_version in H.
  destruct (pk_version s <=? 1)%Z eqn:E1; [discriminate|].
  destruct (pk_version s >? 3)%Z eqn:E2; [discriminate|].
  destruct (pk_base s) as [b|] eqn:Eb; [|discriminate].
  destruct (pk_identity s) as [i|] eqn:Ei; [|discriminate].
  destruct (pk_message s) as [mm|] eqn:Em; [|discriminate].
  destruct (decode_point b) as [kb| |] eqn:Db; cbn [bind] in H; try discriminate.
  destruct (decode_point i) as [ki| |] eqn:Di; cbn [bind] in H; try discriminate.
  destruct (sig_from_bytes mm) as [sm| |] eqn:Es; cbn [bind] in H; try discriminate.
  injection H as <-. cbn [pm_struct pm_base pm_identity pm_message].
  apply decode_point_ok in Db. apply decode_point_ok in Di.
  destruct Db as (rb & -> & ->). destruct Di as (ri & -> & ->).
  repeat split; eauto. lia. exists (get_uint 1 fs). reflexivity.
Qed.

Lemma skm_from_bytes_no_panic : forall l, skm_from_bytes l <> Panic.
Proof.
  intros l. unfold skm_from_bytes. destruct (skm_deserialize l) as [s| |] eqn:E; cbn [bind]; try discriminate.
  - unfold skm_from_struct. destruct (km_version s <=? 1)%N; [discriminate|].
    destruct (3 <? km_version s)%N; [discriminate|]. destruct (km_ct s); discriminate.
  - exfalso. exact (skm_deserialize_no_panic _ E).
Qed.

Lemma skm_from_bytes_ok : forall l m, skm_from_bytes l = Ok m ->
  (km_version m = 2 \/ km_version m = 3)%N /\ (exists c, km_ct m = Some c) /\
  (exists sig, km_sig m = Some sig /\ length sig = 64%nat).
Proof.
  intros l m H. unfold skm_from_bytes in H. destruct (skm_deserialize l) as [s| |] eqn:E; cbn [bind] in H; try discriminate.
  unfold skm_from_struct in H.
  destruct (km_version s <=? 1)%N eqn:E1; [discriminate|].
  destruct (3 <? km_version s)%N eqn:E2; [discriminate|].
  destruct (km_ct s) as [c|] eqn:Ec; [|discriminate]. injection H as <-.
  split; [lia|]. split; [eauto|].
  unfold skm_deserialize, split_three in E.
  match type of E with context [if ?b then _ else _] => destruct b eqn:EB end; cbn [bind] in E; [discriminate|].
  destruct (firstn (Z.to_nat 1) l) as [|v vr]; [discriminate|].
  match type of E with context [unmarshal ?k ?x] => destruct (unmarshal k x) as [fs| |] eqn:EU end;
    cbn [bind] in E; [|discriminate|discriminate].
  match type of E with Ok ?x = Ok _ => assert (HS : s = x) by congruence end. clear E. subst s.
  cbn [km_sig]. eexists. split; [reflexivity|].
  rewrite firstn_length, skipn_length. lia.
Qed.

Lemma skd_from_bytes_panic : forall l, skd_from_bytes l = Panic <->
  l = [] \/ exists s, skd_deserialize l = Ok s /\ (ds_version s = 2 \/ ds_version s = 3)%N /\
                      ds_chain s <> None /\ ds_signing s = Some [].
Proof.
  intros [|v r].
  { cbn. split; auto. }
  unfold skd_from_bytes, skd_deserialize. destruct (unmarshal skd_kinds r) as [fs| |] eqn:EU; cbn [bind].
  2:{ split; [discriminate|]. intros [H|(s & H & _)]; discriminate. }
  2:{ exfalso. exact (unmarshal_no_panic _ _ EU). }
  set (s := {| ds_id := _ |}). unfold skd_from_struct. split.
  - intros H. right. exists s. split; [reflexivity|].
    destruct (ds_version s <=? 1)%N eqn:E1; [discriminate|].
    destruct (3 <? ds_version s)%N eqn:E2; [discriminate|].
    destruct (ds_signing s) as [k|] eqn:Ek; [|discriminate].
    destruct (ds_chain s) as [c|] eqn:Ec; [|discriminate].
    destruct (decode_point k) eqn:Dk; cbn [bind] in H; try discriminate.
    apply decode_point_panic in Dk. subst k. repeat split; [lia|discriminate].
  - intros [H|(s' & HS & HV & HC & HK)]; [discriminate|]. injection HS as <-. fold s in HV, HC, HK |- *.
    replace (ds_version s <=? 1)%N with false by lia. replace (3 <? ds_version s)%N with false by lia.
    rewrite HK. destruct (ds_chain s); [reflexivity|congruence].
Qed.

Lemma skd_from_bytes_ok : forall l m, skd_from_bytes l = Ok m ->
  (dm_version m = 2 \/ dm_version m = 3)%N /\ (exists c, dm_chain m = Some c).
Proof.
  intros [|v r] m H; [discriminate|]. unfold skd_from_bytes, skd_deserialize in H.
  destruct (unmarshal skd_kinds r) as [fs| |] eqn:EU; cbn [bind] in H; try discriminate.
  match type of H with skd_from_struct ?x = _ => set (s := x) in *; clearbody s end.
  unfold skd_from_struct in H.
  destruct (ds_version s <=? 1)%N eqn:E1; [discriminate|].
  destruct (3 <? ds_version s)%N eqn:E2; [discriminate|].
  destruct (ds_signing s) as [k|] eqn:Ek; [|discriminate].
  destruct (ds_chain s) as [c|] eqn:Ec; [|discriminate].
  destruct (decode_point k) as [sk| |]; cbn [bind] in H; try discriminate. injection H as <-.
  split; [cbn [dm_version]; lia|]. cbn [dm_chain]. eauto.
Qed.

(** * Over-long integers *)

(** A varint with one redundant continuation: 0x80|n then 0x00, for n < 128. *)
Lemma dec_overlong : forall n rest, (n < 128)%N -> dec_varint (n2b (128 + n) :: x00 :: rest) = Some (n, rest).
Proof.
  intros n rest H. unfold dec_varint. cbn [dec_varint_fuel Nat.eqb].
  rewrite b2n_n2b. rewrite N.mod_small by lia. replace (128 + n <? 128)%N with false by lia.
  change (b2n x00) with 0%N. change (0 <? 128)%N with true. cbv iota.
  f_equal. f_equal. lia.
Qed.

(** The same message with its counter in the redundant two-byte form. *)
Definition overlong_body (s : sig_struct) : bytes :=
  marshal (opt_bytes_field 1 (sg_ratchet s)) ++
  [x10; n2b (128 + sg_counter s); x00] ++
  marshal ((3%N, FUint (sg_prev s)) :: opt_bytes_field 4 (sg_ct s)).

Lemma sig_overlong : forall ver s mac, sig_wf s -> length mac = 8%nat -> (sg_counter s < 128)%N ->
  sig_from_bytes (ver :: overlong_body s ++ mac) = sig_from_bytes (ver :: marshal (sig_fields s) ++ mac).
Proof.
  intros ver s mac Hwf Hm Hc.
  assert (HU : unmarshal sig_kinds (overlong_body s) = Ok (sig_fields s)).
  { assert (HF := sig_fields_ok s Hwf). unfold sig_fields in HF.
    apply Forall_app in HF. destruct HF as [F1 F2]. inversion F2 as [|? ? F3 F4]; subst.
    unfold unmarshal, overlong_body.
    rewrite (unmarshal_loop_marshal_app sig_kinds (opt_bytes_field 1 (sg_ratchet s))).
    - match goal with |- context [unmarshal_loop sig_kinds ?f _] => set (fuel := f) end.
      assert (HL : exists f', fuel = S f' /\ (length (marshal ((3%N, FUint (sg_prev s)) :: opt_bytes_field 4 (sg_ct s))) <= f')%nat).
      { subst fuel. rewrite !app_length. cbn [length].
        assert (length (opt_bytes_field 1 (sg_ratchet s)) <= length (marshal (opt_bytes_field 1 (sg_ratchet s))))%nat.
        { destruct (sg_ratchet s); cbn [opt_bytes_field length]; [|lia].
          unfold marshal. cbn [flat_map]. rewrite app_nil_r.
          destruct (enc_field (1%N, FBytes b)) eqn:EF; [exfalso; exact (enc_field_nonempty _ EF)|cbn; lia]. }
        exists (length (marshal (opt_bytes_field 1 (sg_ratchet s))) + (2 + length (marshal ((3%N, FUint (sg_prev s)) :: opt_bytes_field 4 (sg_ct s)))) - length (opt_bytes_field 1 (sg_ratchet s)))%nat.
        split; lia. }
      destruct HL as (f' & -> & HL). cbn [app].
      change (x10 :: n2b (128 + sg_counter s) :: x00 :: marshal ((3%N, FUint (sg_prev s)) :: opt_bytes_field 4 (sg_ct s)))
        with (x10 :: (n2b (128 + sg_counter s) :: x00 :: marshal ((3%N, FUint (sg_prev s)) :: opt_bytes_field 4 (sg_ct s)))).
      cbn [unmarshal_loop].
      assert (HT : forall r, dec_varint (x10 :: r) = Some (16%N, r)) by reflexivity.
      rewrite HT. change (16 / 8)%N with 2%N. change (16 mod 8)%N with 0%N. change (2 =? 0)%N with false. cbv iota.
      change (sig_kinds 2) with (Some KUint32). cbv iota. cbn [dec_known]. change (0 =? wt_varint)%N with true. cbv iota.
      rewrite dec_overlong by exact Hc.
      rewrite (unmarshal_loop_fuel sig_kinds _ f' (length (marshal ((3%N, FUint (sg_prev s)) :: opt_bytes_field 4 (sg_ct s))))) by lia.
      assert (HR := unmarshal_marshal sig_kinds _ F4). unfold unmarshal in HR. cbn [app] in HR.
      destruct (unmarshal_loop sig_kinds _ (marshal ((3%N, FUint (sg_prev s)) :: opt_bytes_field 4 (sg_ct s)))); [|discriminate].
      injection HR as ->. destruct Hwf as (W & _). rewrite u32_small by exact W. reflexivity.
    - exact F1.
    - rewrite !app_length. lia. }
  apply (sig_parse_factors ver ver _ _ mac (sig_fields s) (sig_fields s)); auto.
  apply unmarshal_marshal. apply sig_fields_ok. exact Hwf.
Qed.

(** * Statements used in PropertiesCodec.v *)

Lemma decode_point_classification : forall b,
  (decode_point b = Panic <-> b = []) /\
  (forall k, decode_point b = Ok k <-> exists r, b = x05 :: r /\ k = to_arr 32 r) /\
  (forall e, decode_point b = Err e <-> e = EBadKeyType /\ exists t r, b = t :: r /\ t <> x05).
Proof.
  intros b. split; [apply decode_point_panic|]. split; [intros k; apply decode_point_ok|].
  intros e. destruct b as [|t r]; cbn.
  - split; [discriminate|]. intros (_ & t & r & H & _). discriminate.
  - destruct (Byte.eqb t djb_type) eqn:E.
    + apply Byte.byte_dec_bl in E. subst t. split; [discriminate|].
      intros (_ & t & r' & H & HN). injection H as <- <-. exfalso. apply HN. reflexivity.
    + split.
      * intros H. injection H as <-. split; [reflexivity|]. exists t, r. split; [reflexivity|].
        intros ->. discriminate.
      * intros (-> & _). reflexivity.
Qed.

Lemma sig_fields_roundtrip : forall ratchet counter prev ct mac,
  (counter < 2 ^ 32)%N -> (prev < 2 ^ 32)%N -> fits ct -> length mac = 8%nat ->
  let s := {| sg_ratchet := Some (ser_pub ratchet); sg_counter := counter; sg_prev := prev; sg_ct := Some ct;
     sg_version := 3; sg_mac := Some mac |} in
  sig_from_bytes (sig_serialize s) = Ok {| sm_struct := s; sm_ratchet := ratchet |}.
Proof.
  intros ratchet counter prev ct mac H1 H2 H3 H4 s.
  apply (sig_roundtrip {| sm_struct := s; sm_ratchet := ratchet |} mac); auto.
  - repeat split; auto. cbn. unfold fits. rewrite ser_pub_length. reflexivity.
  - unfold sig_from_struct. cbn [sm_struct sg_version sg_ct sg_ratchet s].
    change (3 <=? unsupported_version)%Z with false. change (3 >? current_version)%Z with false. cbv iota.
    rewrite decode_ser_pub. reflexivity.
Qed.

Lemma sig_fields_roundtrip_v2 : forall ratchet counter prev ct mac,
  (counter < 2 ^ 32)%N -> (prev < 2 ^ 32)%N -> fits ct -> length mac = 8%nat ->
  let s v := {| sg_ratchet := Some (ser_pub ratchet); sg_counter := counter; sg_prev := prev; sg_ct := Some ct;
     sg_version := v; sg_mac := Some mac |} in
  sig_from_bytes (sig_serialize (s 2%Z)) = Ok {| sm_struct := s 3%Z; sm_ratchet := ratchet |}.
Proof.
  intros ratchet counter prev ct mac H1 H2 H3 H4 s.
  pose proof (sig_roundtrip_gen {| sm_struct := s 2%Z; sm_ratchet := ratchet |} mac) as R.
  cbn [sm_struct sm_ratchet] in R. unfold sig_msg_bytes in R. cbn [sm_struct] in R.
  rewrite R; auto.
  - repeat split; auto. cbn. unfold fits. rewrite ser_pub_length. reflexivity.
  - unfold sig_from_struct. cbn [sm_struct sg_version sg_ct sg_ratchet s].
    change (2 <=? unsupported_version)%Z with false. change (2 >? current_version)%Z with false. cbv iota.
    rewrite decode_ser_pub. reflexivity.
Qed.

Lemma decode_ser_pub_msg : forall v r c p ct mac,
  (v = 2 \/ v = 3)%Z ->
  let s := {| sg_ratchet := Some (ser_pub r); sg_counter := c; sg_prev := p; sg_ct := Some ct;
     sg_version := v; sg_mac := mac |} in
  sig_from_struct s = Ok {| sm_struct := s; sm_ratchet := r |}.
Proof.
  intros v r c p ct mac HV s. unfold sig_from_struct. cbn [sg_version sg_ct sg_ratchet s].
  unfold unsupported_version, current_version.
  replace (v <=? 1)%Z with false by lia. replace (v >? 3)%Z with false by lia. cbv iota.
  rewrite decode_ser_pub. reflexivity.
Qed.

Lemma new_signal_message_ok : forall C counter prev mac_key ratchet ct sender receiver,
  (forall k x, length (hmac C k x) = 32%nat) ->
  exists mac, length mac = 8%nat /\
  mac = firstn 8 (hmac C mac_key (mac_input 3 sender receiver (itoa 3 ++ sig_serialize
     {| sg_ratchet := Some (ser_pub ratchet); sg_counter := counter; sg_prev := prev;
        sg_ct := Some ct; sg_version := 0; sg_mac := None |}))) /\
  new_signal_message C 3 counter prev mac_key ratchet ct sender receiver =
  Ok {| sm_struct := {| sg_ratchet := Some (ser_pub ratchet); sg_counter := counter; sg_prev := prev;
                        sg_ct := Some ct; sg_version := 3; sg_mac := Some mac |}; sm_ratchet := ratchet |}.
Proof.
  intros C counter prev mac_key ratchet ct sender receiver HL.
  eexists. split; [|split; [reflexivity|]].
  - rewrite firstn_length, HL. reflexivity.
  - unfold new_signal_message, get_mac, trim. rewrite HL. change (32 <? mac_length)%nat with false.
    cbn [bind]. change mac_length with 8%nat. apply decode_ser_pub_msg. auto.
Qed.

Lemma new_signal_message_roundtrip : forall C counter prev mac_key ratchet ct sender receiver m,
  (forall k x, length (hmac C k x) = 32%nat) ->
  (counter < 2 ^ 32)%N -> (prev < 2 ^ 32)%N -> fits ct ->
  new_signal_message C 3 counter prev mac_key ratchet ct sender receiver = Ok m ->
  sig_from_bytes (sig_msg_bytes m) = Ok m.
Proof.
  intros C counter prev mac_key ratchet ct sender receiver m HL H1 H2 H3 H.
  destruct (new_signal_message_ok C counter prev mac_key ratchet ct sender receiver HL) as (mac & Hm & _ & E).
  rewrite E in H. injection H as <-. apply sig_fields_roundtrip; assumption.
Qed.

Lemma verify_mac_exact : forall C m a b key,
  (forall k x, length (hmac C k x) = 32%nat) ->
  sig_from_struct (sm_struct m) = Ok m ->
  (verify_mac C m 3 a b key = Ok tt <->
   match sg_mac (sm_struct m) with Some x => x | None => [] end =
   firstn 8 (hmac C key (mac_input 3 a b (itoa (sg_version (sm_struct m)) ++ sig_serialize (strip_struct (sm_struct m)))))).
Proof.
  intros C m a b key HL Hm. unfold verify_mac. rewrite Hm. cbn [bind]. unfold get_mac, trim. rewrite HL.
  change (32 <? mac_length)%nat with false. cbn [bind]. change mac_length with 8%nat.
  match goal with |- context [bytes_eqb ?x ?y] => destruct (bytes_eqb x y) eqn:E end.
  - apply bytes_eqb_eq in E. split; [intros _; symmetry; exact E|reflexivity].
  - split; [discriminate|]. intros H. rewrite H, bytes_eqb_refl in E. discriminate.
Qed.

Lemma forgery_needs_collision : forall C m1 m2 a1 b1 a2 b2 key,
  (forall k x, length (hmac C k x) = 32%nat) ->
  sig_from_struct (sm_struct m1) = Ok m1 -> sig_from_struct (sm_struct m2) = Ok m2 ->
  sig_wf (sm_struct m1) -> sig_wf (sm_struct m2) ->
  verify_mac C m1 3 a1 b1 key = Ok tt -> verify_mac C m2 3 a2 b2 key = Ok tt ->
  sg_mac (sm_struct m1) = sg_mac (sm_struct m2) ->
  (a1 = a2 /\ b1 = b2 /\ m1 = m2) \/
  exists x y, x <> y /\ firstn 8 (hmac C key x) = firstn 8 (hmac C key y).
Proof.
  intros C m1 m2 a1 b1 a2 b2 key HL H1 H2 W1 W2 V1 V2 HM.
  apply verify_mac_exact in V1; [|exact HL|exact H1]. apply verify_mac_exact in V2; [|exact HL|exact H2].
  rewrite HM, V2 in V1.
  match type of V1 with firstn _ (hmac _ _ ?x) = firstn _ (hmac _ _ ?y) =>
    destruct (list_eq_dec Byte.byte_eq_dec x y) as [E|E] end.
  - left. apply mac_input_inj in E; try assumption.
    + destruct E as (-> & -> & E1 & E2 & E3 & E4 & E5). repeat split.
      assert (ES : sm_struct m1 = sm_struct m2).
      { destruct (sm_struct m1), (sm_struct m2); cbn in *; subst; reflexivity. }
      rewrite ES in H1. congruence.
    + apply sig_from_struct_ok in H2. tauto.
    + apply sig_from_struct_ok in H1. tauto.
  - right. eexists. eexists. split; [exact E|exact V1].
Qed.

Lemma sig_unknown_field_in : forall ver s mac t v, sig_wf s -> length mac = 8%nat ->
  ~ In t [1; 2; 3; 4]%N -> (0 < t < 2 ^ 29)%N ->
  match v with FUint n => (n < 2 ^ 64)%N | FBytes b => fits b end ->
  sig_from_bytes (ver :: (marshal (sig_fields s) ++ enc_field (t, v)) ++ mac) =
  sig_from_bytes (ver :: marshal (sig_fields s) ++ mac).
Proof.
  intros ver s mac t v H1 H2 H3 H4 H5. apply sig_unknown_field; auto.
  unfold sig_kinds. cbn in H3.
  destruct (t =? 1)%N eqn:E1; [exfalso; apply H3; apply N.eqb_eq in E1; auto|].
  destruct (t =? 2)%N eqn:E2; [exfalso; apply H3; apply N.eqb_eq in E2; auto|].
  destruct (t =? 3)%N eqn:E3; [exfalso; apply H3; apply N.eqb_eq in E3; auto|].
  destruct (t =? 4)%N eqn:E4; [exfalso; apply H3; apply N.eqb_eq in E4; auto 10|]. reflexivity.
Qed.

Lemma prekey_message_roundtrip : forall reg id signed base identity inner,
  (reg < 2 ^ 32)%N -> (id < 2 ^ 32)%N -> (signed < 2 ^ 32)%N -> fits (sig_msg_bytes inner) ->
  sig_from_bytes (sig_msg_bytes inner) = Ok inner ->
  let m := {| pm_struct := {| pk_reg := reg; pk_prekey_id := Some (ou_some id); pk_signed_id := signed;
                pk_base := Some (ser_pub base); pk_identity := Some (ser_pub identity);
                pk_message := Some (sig_msg_bytes inner); pk_version := 3 |};
              pm_base := base; pm_identity := identity; pm_message := inner |} in
  new_prekey_message 3 reg (Some (ou_some id)) signed base identity inner = Ok m /\
  exists bs, pk_msg_bytes m = Ok bs /\ pk_from_bytes bs = Ok m.
Proof.
  intros reg id signed base identity inner H1 H2 H3 H4 H5 m.
  assert (HS : pk_from_struct (pm_struct m) = Ok m).
  { unfold pk_from_struct. cbn [pm_struct m pk_version pk_base pk_identity pk_message].
    change (3 <=? unsupported_version)%Z with false. change (3 >? current_version)%Z with false. cbv iota.
    rewrite !decode_ser_pub. cbn [bind]. rewrite H5. reflexivity. }
  split; [exact HS|]. apply (pk_roundtrip m (ou_some id)); auto.
  repeat split; auto; cbn; unfold fits; rewrite ser_pub_length; reflexivity.
Qed.

Lemma absent_id_becomes_zero : forall m,
  pk_wf (pm_struct m) -> pk_prekey_id (pm_struct m) = Some ou_none -> pk_from_struct (pm_struct m) = Ok m ->
  exists bs m', pk_msg_bytes m = Ok bs /\ pk_from_bytes bs = Ok m' /\
    pk_prekey_id (pm_struct m') = Some (ou_some 0).
Proof.
  intros m W Ho Hok. destruct (pk_roundtrip_gen m ou_none W Ho Hok) as (bs & H1 & H2).
  exists bs. eexists. split; [exact H1|]. split; [exact H2|]. reflexivity.
Qed.

Lemma skm_fields_roundtrip : forall id iter ct sig,
  (id < 2 ^ 32)%N -> (iter < 2 ^ 32)%N -> fits ct -> length sig = 64%nat ->
  let m := {| km_id := id; km_iter := iter; km_ct := Some ct; km_version := 3; km_sig := Some sig |} in
  skm_from_bytes (skm_signed m) = Ok m.
Proof.
  intros id iter ct sig H1 H2 H3 H4 m. apply (skm_roundtrip m sig); auto. repeat split; auto.
Qed.

Lemma new_skm_roundtrip : forall C id iter ct k g m g',
  (id < 2 ^ 32)%N -> (iter < 2 ^ 32)%N -> fits ct ->
  new_sender_key_message C id iter ct (Some k) g = (Ok m, g') ->
  skm_from_bytes (skm_signed m) = Ok m.
Proof.
  intros C id iter ct k g m g' H1 H2 H3 H. unfold new_sender_key_message in H.
  destruct (calculate_signature C k _ g) as [sig g1]. injection H as <- _.
  apply skm_fields_roundtrip; auto. apply arr_length.
Qed.

Lemma skd_fields_roundtrip : forall id iter chain k,
  (id < 2 ^ 32)%N -> (iter < 2 ^ 32)%N -> fits chain ->
  exists m, skd_from_bytes (skd_bytes (new_skd id iter chain k)) = Ok m /\
    dm_id m = id /\ dm_iter m = iter /\ dm_chain m = Some chain /\ dm_sigkey m = k.
Proof.
  intros id iter chain k H1 H2 H3. eexists. split.
  - apply (skd_roundtrip (new_skd id iter chain k) chain); auto.
  - repeat split.
Qed.

Lemma sig_short : forall l, (length l < 9)%nat -> exists e, sig_from_bytes l = Err e.
Proof.
  intros l H. unfold sig_from_bytes, sig_deserialize, split_three.
  match goal with |- context [if ?b then _ else _] => destruct b eqn:E end; cbn [bind]; [eauto|].
  unfold mac_length in E. lia.
Qed.

Lemma to_arr_split : forall n r, abytes (to_arr n r) = firstn n r ++ repeat x00 (n - length r).
Proof.
  intros n r. cbn [to_arr abytes]. unfold take_pad. rewrite firstn_app. f_equal.
  assert (forall k m, (k <= m)%nat -> firstn k (repeat x00 m) = repeat x00 k).
  { intros k. induction k as [|k IH]; intros [|m] H; cbn; try reflexivity; try lia. f_equal. apply IH. lia. }
  apply H. lia.
Qed.
