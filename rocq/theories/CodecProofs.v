(** CodecProofs.v: message wire round trips, MAC input injectivity, parser classification. *)
From Verif Require Import Base Labels Crypto Bytehelper Ecc Itoa Wire Messages WireProofs.
From Coq Require Import ZifyBool ZifyN ZifyNat.

Lemma decode_ser_pub : forall k, decode_point (ser_pub k) = Ok k.
Proof. intros k. cbn [decode_point ser_pub]. change (Byte.eqb djb_type djb_type) with true. cbn [abytes].
  rewrite to_arr_abytes. reflexivity. Qed.

Lemma ser_pub_inj : forall a b, ser_pub a = ser_pub b -> a = b.
Proof. intros a b H. injection H as H. apply arr_eq. exact H. Qed.

Lemma ser_pub_length : forall k, length (ser_pub k) = 33%nat.
Proof. intros k. cbn. rewrite arr_length. reflexivity. Qed.

Lemma split_three_tail : forall v body tail k,
  length tail = k ->
  split_three (Some (v :: body ++ tail)) 1 (Z.of_nat (length (v :: body ++ tail)) - 1 - Z.of_nat k) (Z.of_nat k)
  = Ok ([v], body, tail).
Proof.
  intros v body tail k H. unfold split_three. cbn [length]. rewrite app_length, H.
  replace ((1 <? 0)%Z || (Z.of_nat (S (length body + k)) - 1 - Z.of_nat k <? 0)%Z || (Z.of_nat k <? 0)%Z
           || (Z.of_nat (S (length body + k)) <? 1 + (Z.of_nat (S (length body + k)) - 1 - Z.of_nat k) + Z.of_nat k)%Z)
    with false by lia.
  replace (Z.to_nat (Z.of_nat (S (length body + k)) - 1 - Z.of_nat k)) with (length body) by lia.
  change (Z.to_nat 1) with 1%nat. rewrite Nat2Z.id.
  cbn [firstn skipn Nat.add].
  rewrite firstn_app, Nat.sub_diag, firstn_all. cbn [firstn]. rewrite app_nil_r.
  rewrite skipn_app, Nat.sub_diag, skipn_all. cbn [skipn app].
  rewrite <- H, firstn_all. reflexivity.
Qed.

(** * SignalMessage *)

Definition sig_wf (s : sig_struct) : Prop :=
  (sg_counter s < u32_modulus)%N /\ (sg_prev s < u32_modulus)%N /\
  match sg_ratchet s with Some b => fits b | None => True end /\
  match sg_ct s with Some b => fits b | None => True end.

Lemma sig_fields_ok : forall s, sig_wf s -> Forall (field_ok sig_kinds) (sig_fields s).
Proof.
  intros s (H1 & H2 & H3 & H4). unfold sig_fields, opt_bytes_field.
  apply Forall_app; split.
  - destruct (sg_ratchet s); constructor; [|constructor]. cbn. repeat split; try lia; try assumption; reflexivity.
  - constructor; [cbn; repeat split; try lia; assumption|].
    constructor; [cbn; repeat split; try lia; assumption|].
    destruct (sg_ct s); constructor; [|constructor]. cbn. repeat split; try lia; try assumption; reflexivity.
Qed.

Lemma sig_fields_get : forall s,
  get_bytes 1 (sig_fields s) = sg_ratchet s /\ get_uint 2 (sig_fields s) = sg_counter s /\
  get_uint 3 (sig_fields s) = sg_prev s /\ get_bytes 4 (sig_fields s) = sg_ct s.
Proof.
  intros s. unfold sig_fields. destruct (sg_ratchet s); destruct (sg_ct s); cbn; auto.
Qed.

Lemma sig_fields_inj : forall s t, sig_fields s = sig_fields t ->
  sg_ratchet s = sg_ratchet t /\ sg_counter s = sg_counter t /\ sg_prev s = sg_prev t /\ sg_ct s = sg_ct t.
Proof.
  intros s t E. destruct (sig_fields_get s) as (A & B & D & F). destruct (sig_fields_get t) as (A' & B' & D' & F').
  rewrite E in *. repeat split; congruence.
Qed.

(** What is read back from version byte [v], the fields of [s] and an 8-byte MAC. *)
Lemma sig_deserialize_body : forall v s mac, sig_wf s -> length mac = 8%nat ->
  sig_deserialize (v :: marshal (sig_fields s) ++ mac) =
  Ok {| sg_ratchet := sg_ratchet s; sg_counter := sg_counter s; sg_prev := sg_prev s; sg_ct := sg_ct s;
        sg_version := Z.of_N (high_bits v); sg_mac := Some mac |}.
Proof.
  intros v s mac Hwf Hm. unfold sig_deserialize. rewrite (split_three_tail v _ mac mac_length) by exact Hm.
  cbn [bind]. rewrite unmarshal_marshal by (apply sig_fields_ok; exact Hwf). cbn [bind].
  destruct (sig_fields_get s) as (-> & -> & -> & ->). reflexivity.
Qed.

Lemma sig_roundtrip_gen : forall m mac,
  sig_wf (sm_struct m) ->
  sig_from_struct (sm_struct m) = Ok m ->
  sg_mac (sm_struct m) = Some mac -> length mac = 8%nat ->
  sig_from_bytes (sig_msg_bytes m) =
    Ok {| sm_struct := {| sg_ratchet := sg_ratchet (sm_struct m); sg_counter := sg_counter (sm_struct m);
                          sg_prev := sg_prev (sm_struct m); sg_ct := sg_ct (sm_struct m);
                          sg_version := 3; sg_mac := Some mac |};
          sm_ratchet := sm_ratchet m |}.
Proof.
  intros m mac Hwf Hok Hmac Hlen. unfold sig_from_bytes, sig_msg_bytes, sig_serialize.
  unfold sig_from_struct in Hok.
  destruct (sg_version (sm_struct m) <=? unsupported_version)%Z eqn:E1; [discriminate|].
  destruct (sg_version (sm_struct m) >? current_version)%Z eqn:E2; [discriminate|].
  unfold unsupported_version, current_version in *.
  assert (HV : sg_version (sm_struct m) = 2%Z \/ sg_version (sm_struct m) = 3%Z) by lia.
  replace (sg_version (sm_struct m) =? 0)%Z with false by lia.
  assert (exists v, itoa (sg_version (sm_struct m)) = [v] /\ high_bits v = 3%N) as (v & Hi & Hh).
  { destruct HV as [-> | ->]; [exists x32|exists x33]; split; reflexivity. }
  rewrite Hi. cbn [app]. rewrite Hmac. rewrite sig_deserialize_body by assumption. rewrite Hh.
  cbn [bind]. unfold sig_from_struct. cbn [sg_version sg_ct sg_ratchet Z.of_N].
  change (3 <=? unsupported_version)%Z with false. change (3 >? current_version)%Z with false. cbn [orb].
  destruct (sg_ct (sm_struct m)); [|discriminate].
  destruct (sg_ratchet (sm_struct m)) as [rk|]; [|discriminate].
  destruct (decode_point rk) as [k| |]; cbn [bind] in *; try discriminate.
  injection Hok as Hok. rewrite <- Hok. cbn [sm_ratchet]. reflexivity.
Qed.

Lemma sig_roundtrip : forall m mac,
  sig_wf (sm_struct m) ->
  sig_from_struct (sm_struct m) = Ok m -> sg_version (sm_struct m) = 3%Z ->
  sg_mac (sm_struct m) = Some mac -> length mac = 8%nat ->
  sig_from_bytes (sig_msg_bytes m) = Ok m.
Proof.
  intros m mac Hwf Hok Hv Hmac Hlen. rewrite (sig_roundtrip_gen m mac) by assumption.
  f_equal. destruct m as [[a b c d e f] k]; cbn in *. subst. reflexivity.
Qed.

(** * MAC input *)

Lemma itoa_23 : forall v, (v = 2 \/ v = 3)%Z -> exists c, itoa v = [c].
Proof. intros v [-> | ->]; eexists; reflexivity. Qed.

Lemma sig_serialize_strip : forall s, sig_serialize (strip_struct s) = marshal (sig_fields s).
Proof. intros s. unfold sig_serialize, strip_struct. cbn. rewrite app_nil_r. reflexivity. Qed.

Lemma app_inj_len : forall (A : Type) (a b c d : list A),
  length a = length b -> a ++ c = b ++ d -> a = b /\ c = d.
Proof.
  intros A a. induction a as [|x a IH]; intros [|y b] c d HL E; cbn in *; try lia.
  - auto.
  - injection E as -> E. apply IH in E; [|lia]. destruct E as [-> ->]. auto.
Qed.

Lemma mac_input_inj : forall s1 s2 a1 a2 b1 b2,
  sig_wf s1 -> sig_wf s2 ->
  (sg_version s1 = 2 \/ sg_version s1 = 3)%Z -> (sg_version s2 = 2 \/ sg_version s2 = 3)%Z ->
  mac_input 3 a1 b1 (itoa (sg_version s1) ++ sig_serialize (strip_struct s1)) =
  mac_input 3 a2 b2 (itoa (sg_version s2) ++ sig_serialize (strip_struct s2)) ->
  a1 = a2 /\ b1 = b2 /\ sg_version s1 = sg_version s2 /\ sg_ratchet s1 = sg_ratchet s2 /\
  sg_counter s1 = sg_counter s2 /\ sg_prev s1 = sg_prev s2 /\ sg_ct s1 = sg_ct s2.
Proof.
  intros s1 s2 a1 a2 b1 b2 W1 W2 V1 V2 E. unfold mac_input in E.
  change (3 >=? 3)%Z with true in E. cbv iota in E.
  rewrite <- !app_assoc in E.
  apply app_inj_len in E; [|rewrite !ser_pub_length; reflexivity]. destruct E as [Ea E].
  apply app_inj_len in E; [|rewrite !ser_pub_length; reflexivity]. destruct E as [Eb E].
  apply ser_pub_inj in Ea. apply ser_pub_inj in Eb.
  destruct (itoa_23 _ V1) as [c1 I1]. destruct (itoa_23 _ V2) as [c2 I2].
  assert (HV : sg_version s1 = sg_version s2 /\ sig_serialize (strip_struct s1) = sig_serialize (strip_struct s2)).
  { assert (HL : length (itoa (sg_version s1)) = length (itoa (sg_version s2))) by (rewrite I1, I2; reflexivity).
    apply app_inj_len in E; [|exact HL]. destruct E as [E1 E2]. split; [|exact E2].
    destruct V1 as [V1|V1]; destruct V2 as [V2|V2]; rewrite V1, V2 in E1; cbn in E1; try discriminate; congruence. }
  destruct HV as [HV HS]. rewrite !sig_serialize_strip in HS.
  apply (marshal_inj sig_kinds) in HS; try (apply sig_fields_ok; assumption).
  apply sig_fields_inj in HS. destruct HS as (X1 & X2 & X3 & X4).
  repeat split; assumption.
Qed.

(** * PreKeySignalMessage *)

Definition pk_fields (s : pk_struct) (o : opt_u32) : list (N * fval) :=
  (if ou_empty o then [] else [(1%N, FUint (ou_value o))])
  ++ opt_bytes_field 2 (pk_base s) ++ opt_bytes_field 3 (pk_identity s)
  ++ opt_bytes_field 4 (pk_message s)
  ++ [(5%N, FUint (pk_reg s)); (6%N, FUint (pk_signed_id s))].

Definition opt_fits (b : option bytes) : Prop := match b with Some l => fits l | None => True end.

Definition pk_wf (s : pk_struct) : Prop :=
  (pk_reg s < u32_modulus)%N /\ (pk_signed_id s < u32_modulus)%N /\
  match pk_prekey_id s with Some o => (ou_value o < u32_modulus)%N | None => True end /\
  opt_fits (pk_base s) /\ opt_fits (pk_identity s) /\ opt_fits (pk_message s).

Lemma opt_bytes_ok : forall kinds t b, (0 < t < 536870912)%N -> kinds t = Some KBytes -> opt_fits b ->
  Forall (field_ok kinds) (opt_bytes_field t b).
Proof.
  intros kinds t b Ht Hk Hb. destruct b; cbn; constructor; [|constructor]. cbn. auto.
Qed.

Lemma pk_fields_ok : forall s o, pk_wf s -> pk_prekey_id s = Some o -> Forall (field_ok pk_kinds) (pk_fields s o).
Proof.
  intros s o (H1 & H2 & H3 & H4 & H5 & H6) Ho. rewrite Ho in H3. unfold pk_fields.
  apply Forall_app; split.
  { destruct (ou_empty o); constructor; [|constructor]. cbn. repeat split; try lia; assumption. }
  apply Forall_app; split; [apply opt_bytes_ok; try lia; auto|].
  apply Forall_app; split; [apply opt_bytes_ok; try lia; auto|].
  apply Forall_app; split; [apply opt_bytes_ok; try lia; auto|].
  constructor; [cbn; repeat split; try lia; assumption|].
  constructor; [cbn; repeat split; try lia; assumption|]. constructor.
Qed.

Lemma pk_fields_get : forall s o,
  get_uint 1 (pk_fields s o) = (if ou_empty o then 0%N else ou_value o) /\
  get_bytes 2 (pk_fields s o) = pk_base s /\ get_bytes 3 (pk_fields s o) = pk_identity s /\
  get_bytes 4 (pk_fields s o) = pk_message s /\ get_uint 5 (pk_fields s o) = pk_reg s /\
  get_uint 6 (pk_fields s o) = pk_signed_id s.
Proof.
  intros s o. unfold pk_fields.
  destruct (ou_empty o); destruct (pk_base s); destruct (pk_identity s); destruct (pk_message s); cbn; auto 10.
Qed.

Lemma pk_roundtrip_gen : forall m o,
  pk_wf (pm_struct m) -> pk_prekey_id (pm_struct m) = Some o ->
  pk_from_struct (pm_struct m) = Ok m ->
  exists bs, pk_msg_bytes m = Ok bs /\
  pk_from_bytes bs =
    Ok {| pm_struct := {| pk_reg := pk_reg (pm_struct m);
                          pk_prekey_id := Some (ou_some (if ou_empty o then 0%N else ou_value o));
                          pk_signed_id := pk_signed_id (pm_struct m); pk_base := pk_base (pm_struct m);
                          pk_identity := pk_identity (pm_struct m); pk_message := pk_message (pm_struct m);
                          pk_version := 3 |};
          pm_base := pm_base m; pm_identity := pm_identity m; pm_message := pm_message m |}.
Proof.
  intros m o Hwf Ho Hok. unfold pk_msg_bytes, pk_serialize. rewrite Ho.
  eexists. split; [reflexivity|]. fold (pk_fields (pm_struct m) o).
  unfold pk_from_struct in Hok.
  destruct (pk_version (pm_struct m) <=? unsupported_version)%Z eqn:E1; [discriminate|].
  destruct (pk_version (pm_struct m) >? current_version)%Z eqn:E2; [discriminate|].
  unfold unsupported_version, current_version in *.
  assert (HV : pk_version (pm_struct m) = 2%Z \/ pk_version (pm_struct m) = 3%Z) by lia.
  assert (exists v, itoa (pk_version (pm_struct m)) = [v] /\ high_bits v = 3%N) as (v & Hi & Hh).
  { destruct HV as [-> | ->]; [exists x32|exists x33]; split; reflexivity. }
  rewrite Hi. cbn [app]. unfold pk_from_bytes, pk_deserialize.
  rewrite unmarshal_marshal by (apply pk_fields_ok; assumption). cbn [bind]. rewrite Hh.
  destruct (pk_fields_get (pm_struct m) o) as (-> & -> & -> & -> & -> & ->).
  unfold pk_from_struct. cbn [pk_version pk_base pk_identity pk_message Z.of_N].
  change (3 <=? unsupported_version)%Z with false. change (3 >? current_version)%Z with false.
  destruct (pk_base (pm_struct m)) as [b|]; [|discriminate].
  destruct (pk_identity (pm_struct m)) as [i|]; [|discriminate].
  destruct (pk_message (pm_struct m)) as [mm|]; [|discriminate].
  destruct (decode_point b) as [kb| |]; cbn [bind] in *; try discriminate.
  destruct (decode_point i) as [ki| |]; cbn [bind] in *; try discriminate.
  destruct (sig_from_bytes mm) as [sm| |]; cbn [bind] in *; try discriminate.
  injection Hok as Hok. rewrite <- Hok. reflexivity.
Qed.

Lemma pk_roundtrip : forall m o,
  pk_wf (pm_struct m) -> pk_prekey_id (pm_struct m) = Some o -> ou_empty o = false ->
  pk_from_struct (pm_struct m) = Ok m -> pk_version (pm_struct m) = 3%Z ->
  exists bs, pk_msg_bytes m = Ok bs /\ pk_from_bytes bs = Ok m.
Proof.
  intros m o Hwf Ho He Hok Hv. destruct (pk_roundtrip_gen m o Hwf Ho Hok) as (bs & H1 & H2).
  exists bs. split; [exact H1|]. rewrite H2, He. f_equal.
  destruct m as [[a b c d e f g] k1 k2 k3]; cbn in *. subst. destruct o as [ov oe]; cbn in *. subst. reflexivity.
Qed.

(** * SenderKeyMessage *)

Definition skm_fields (s : skm) : list (N * fval) :=
  [(1%N, FUint (km_id s)); (2%N, FUint (km_iter s))] ++ opt_bytes_field 3 (km_ct s).

Definition skm_wf (s : skm) : Prop :=
  (km_id s < u32_modulus)%N /\ (km_iter s < u32_modulus)%N /\ opt_fits (km_ct s).

Lemma skm_fields_ok : forall s, skm_wf s -> Forall (field_ok skm_kinds) (skm_fields s).
Proof.
  intros s (H1 & H2 & H3). unfold skm_fields.
  constructor; [cbn; repeat split; try lia; assumption|].
  constructor; [cbn; repeat split; try lia; assumption|].
  apply opt_bytes_ok; try lia; auto.
Qed.

Lemma skm_fields_get : forall s,
  get_uint 1 (skm_fields s) = km_id s /\ get_uint 2 (skm_fields s) = km_iter s /\ get_bytes 3 (skm_fields s) = km_ct s.
Proof. intros s. unfold skm_fields. destruct (km_ct s); cbn; auto. Qed.

Lemma skm_roundtrip : forall m sig,
  skm_wf m -> skm_from_struct m = Ok m -> km_version m = 3%N -> km_sig m = Some sig -> length sig = 64%nat ->
  skm_from_bytes (skm_signed m) = Ok m.
Proof.
  intros m sig Hwf Hok Hv Hs Hl. unfold skm_from_bytes, skm_signed, skm_serialize.
  rewrite Hv, Hs. fold (skm_fields m). change (3 =? 0)%N with false. cbv iota.
  change (dec_n 3) with [x33]. cbn [app]. unfold skm_deserialize.
  change 64%Z with (Z.of_nat 64). rewrite (split_three_tail x33 _ sig 64) by exact Hl.
  cbn [bind]. rewrite unmarshal_marshal by (apply skm_fields_ok; exact Hwf). cbn [bind].
  destruct (skm_fields_get m) as (-> & -> & ->). change (high_bits x33) with 3%N.
  replace {| km_id := km_id m; km_iter := km_iter m; km_ct := km_ct m; km_version := 3; km_sig := Some sig |} with m.
  - exact Hok.
  - destruct m; cbn in *; subst; reflexivity.
Qed.

(** * SenderKeyDistributionMessage *)

Definition skd_fields (s : skd_struct) : list (N * fval) :=
  [(1%N, FUint (ds_id s)); (2%N, FUint (ds_iter s))] ++ opt_bytes_field 3 (ds_chain s) ++ opt_bytes_field 4 (ds_signing s).

Lemma skd_fields_get : forall s,
  get_uint 1 (skd_fields s) = ds_id s /\ get_uint 2 (skd_fields s) = ds_iter s /\
  get_bytes 3 (skd_fields s) = ds_chain s /\ get_bytes 4 (skd_fields s) = ds_signing s.
Proof. intros s. unfold skd_fields. destruct (ds_chain s); destruct (ds_signing s); cbn; auto. Qed.

Lemma skd_roundtrip : forall m chain,
  (dm_id m < u32_modulus)%N -> (dm_iter m < u32_modulus)%N -> dm_chain m = Some chain -> fits chain ->
  skd_from_bytes (skd_bytes m) =
    Ok {| dm_id := dm_id m; dm_iter := dm_iter m; dm_chain := Some chain; dm_version := 3; dm_sigkey := dm_sigkey m |}.
Proof.
  intros m chain H1 H2 Hc Hf. unfold skd_from_bytes, skd_bytes, skd_serialize.
  cbn [ds_id ds_iter ds_chain ds_signing ds_version]. change (dec_n 3) with [x33]. cbn [app].
  unfold skd_deserialize.
  set (s := {| ds_id := dm_id m; ds_iter := dm_iter m; ds_chain := dm_chain m;
               ds_signing := Some (ser_pub (dm_sigkey m)); ds_version := 3 |}).
  change (marshal ((1%N, FUint (dm_id m)) :: (2%N, FUint (dm_iter m)) ::
     opt_bytes_field 3 (dm_chain m) ++ opt_bytes_field 4 (Some (ser_pub (dm_sigkey m))))) with (marshal (skd_fields s)).
  rewrite unmarshal_marshal.
  - cbn [bind]. destruct (skd_fields_get s) as (-> & -> & -> & ->). change (high_bits x33) with 3%N.
    subst s. cbn [ds_id ds_iter ds_chain ds_signing]. rewrite Hc. unfold skd_from_struct.
    cbn [ds_version ds_signing ds_chain]. change (3 <=? 1)%N with false. change (3 <? 3)%N with false. cbv iota.
    rewrite decode_ser_pub. reflexivity.
  - unfold skd_fields. constructor; [cbn; repeat split; try lia; assumption|].
    constructor; [cbn; repeat split; try lia; assumption|].
    apply Forall_app; split; apply opt_bytes_ok; try lia; auto.
    + subst s; cbn. rewrite Hc. exact Hf.
    + subst s. cbn. unfold fits. cbn. rewrite arr_length. reflexivity.
Qed.

(** * Malleability *)

Lemma sig_low_nibble : forall v v' rest, high_bits v = high_bits v' ->
  sig_from_bytes (v :: rest) = sig_from_bytes (v' :: rest).
Proof.
  intros v v' rest H. unfold sig_from_bytes, sig_deserialize, split_three. cbn [length].
  destruct ((1 <? 0)%Z || (Z.of_nat (S (length rest)) - 1 - Z.of_nat mac_length <? 0)%Z ||
      (Z.of_nat mac_length <? 0)%Z ||
      (Z.of_nat (S (length rest)) <? 1 + (Z.of_nat (S (length rest)) - 1 - Z.of_nat mac_length) + Z.of_nat mac_length)%Z);
    [reflexivity|].
  cbn [bind]. change (Z.to_nat 1) with 1%nat. cbn [firstn skipn Nat.add]. rewrite H. reflexivity.
Qed.

Lemma sig_unknown_field : forall ver s mac t v, sig_wf s -> length mac = 8%nat ->
  sig_kinds t = None -> (0 < t < 536870912)%N ->
  match v with FUint n => (n < 18446744073709551616)%N | FBytes b => fits b end ->
  sig_from_bytes (ver :: (marshal (sig_fields s) ++ enc_field (t, v)) ++ mac) =
  sig_from_bytes (ver :: marshal (sig_fields s) ++ mac).
Proof.
  intros ver s mac t v Hwf Hm Hk Ht Hv. unfold sig_from_bytes. rewrite sig_deserialize_body by assumption.
  assert (E : sig_deserialize (ver :: (marshal (sig_fields s) ++ enc_field (t, v)) ++ mac) =
    Ok {| sg_ratchet := sg_ratchet s; sg_counter := sg_counter s; sg_prev := sg_prev s; sg_ct := sg_ct s;
        sg_version := Z.of_N (high_bits ver); sg_mac := Some mac |}).
  { unfold sig_deserialize. rewrite (split_three_tail ver _ mac mac_length) by exact Hm. cbn [bind].
    unfold unmarshal. rewrite unmarshal_loop_marshal_app
      by (try (apply sig_fields_ok; exact Hwf); rewrite app_length; lia).
    assert (HE : unmarshal_loop sig_kinds
                   (length (marshal (sig_fields s) ++ enc_field (t, v)) - length (sig_fields s))
                   (enc_field (t, v)) = Some []).
    { assert (HF : (length (enc_field (t, v)) <=
                    length (marshal (sig_fields s) ++ enc_field (t, v)) - length (sig_fields s))%nat).
      { rewrite app_length.
        assert (length (sig_fields s) <= length (marshal (sig_fields s)))%nat; [|lia].
        clear. induction (sig_fields s) as [|f l IH]; [cbn; lia|].
        unfold marshal in *. cbn [flat_map length]. rewrite app_length.
        destruct (enc_field f) eqn:EF; [exfalso; exact (enc_field_nonempty _ EF)|cbn; lia]. }
      rewrite (unmarshal_loop_fuel _ _ _ (S (length (enc_field (t, v))))) by lia.
      rewrite <- (app_nil_r (enc_field (t, v))) at 2.
      rewrite unmarshal_loop_unknown; [apply unmarshal_loop_nil|exact Hk|exact Ht|].
      destruct v; [exact Hv|exact Hv]. }
    rewrite HE, app_nil_r. cbn [bind].
    destruct (sig_fields_get s) as (-> & -> & -> & ->). reflexivity. }
  rewrite E. reflexivity.
Qed.

(** * Parser classification *)

Lemma unmarshal_no_panic : forall kinds l, unmarshal kinds l <> Panic.
Proof. intros kinds l. unfold unmarshal. destruct (unmarshal_loop kinds (length l) l); discriminate. Qed.

Lemma split_three_cases : forall l a b c, split_three l a b c <> Panic.
Proof.
  intros l a b c. unfold split_three. destruct l; [|discriminate].
  destruct ((a <? 0)%Z || _ || _ || _)%bool; discriminate.
Qed.

Lemma sig_deserialize_no_panic : forall l, sig_deserialize l <> Panic.
Proof.
  intros l. unfold sig_deserialize, split_three.
  match goal with |- context [if ?b then _ else _] => destruct b eqn:E end; cbn [bind]; [discriminate|].
  change (Z.to_nat 1) with 1%nat. destruct l as [|v l].
  - exfalso. cbn [length] in E. lia.
  - cbn [firstn]. destruct (unmarshal sig_kinds _) eqn:EU; cbn [bind]; try discriminate.
    exfalso. exact (unmarshal_no_panic _ _ EU).
Qed.

Lemma skm_deserialize_no_panic : forall l, skm_deserialize l <> Panic.
Proof.
  intros l. unfold skm_deserialize, split_three.
  match goal with |- context [if ?b then _ else _] => destruct b eqn:E end; cbn [bind]; [discriminate|].
  change (Z.to_nat 1) with 1%nat. destruct l as [|v l].
  - exfalso. cbn [length] in E. lia.
  - cbn [firstn]. destruct (unmarshal skm_kinds _) eqn:EU; cbn [bind]; try discriminate.
    exfalso. exact (unmarshal_no_panic _ _ EU).
Qed.

Lemma decode_point_panic : forall b, decode_point b = Panic <-> b = [].
Proof.
  intros [|t r]; split; intros H; try reflexivity; try discriminate.
  cbn in H. destruct (Byte.eqb t djb_type); discriminate.
Qed.

Lemma decode_point_ok : forall b k, decode_point b = Ok k <-> exists r, b = x05 :: r /\ k = to_arr 32 r.
Proof.
  intros [|t r] k; cbn; split.
  - discriminate.
  - intros (r & H & _). discriminate.
  - destruct (Byte.eqb t djb_type) eqn:E; [|discriminate].
    apply Byte.byte_dec_bl in E. intros H. injection H as <-. exists r. subst t. auto.
  - intros (r' & H & ->). injection H as -> ->. reflexivity.
Qed.

Lemma sig_from_struct_panic : forall s, sig_from_struct s = Panic <->
  (sg_version s = 2 \/ sg_version s = 3)%Z /\ sg_ct s <> None /\ sg_ratchet s = Some [].
Proof.
  intros s. unfold sig_from_struct, unsupported_version, current_version.
  destruct (sg_version s <=? 1)%Z eqn:E1; [split; [discriminate|lia]|].
  destruct (sg_version s >? 3)%Z eqn:E2; [split; [discriminate|lia]|].
  destruct (sg_ct s) as [c|]; [|split; [discriminate|intros (_ & H & _); congruence]].
  destruct (sg_ratchet s) as [rk|]; [|split; [discriminate|intros (_ & _ & H); congruence]].
  split.
  - intros H. destruct (decode_point rk) eqn:ED; cbn [bind] in H; try discriminate.
    apply decode_point_panic in ED. subst rk. repeat split; [lia|discriminate].
  - intros (_ & _ & H). injection H as ->. reflexivity.
Qed.

Lemma sig_from_bytes_panic : forall l, sig_from_bytes l = Panic <->
  exists s, sig_deserialize l = Ok s /\
    (sg_version s = 2 \/ sg_version s = 3)%Z /\ sg_ct s <> None /\ sg_ratchet s = Some [].
Proof.
  intros l. unfold sig_from_bytes. destruct (sig_deserialize l) as [s|e|] eqn:E; cbn [bind].
  - rewrite sig_from_struct_panic. split.
    + intros H. exists s. auto.
    + intros (s' & H & R). injection H as <-. exact R.
  - split; [discriminate|]. intros (s & H & _). discriminate.
  - exfalso. exact (sig_deserialize_no_panic _ E).
Qed.

Lemma sig_from_struct_ok : forall s m, sig_from_struct s = Ok m ->
  sm_struct m = s /\ (sg_version s = 2 \/ sg_version s = 3)%Z /\
  (exists c, sg_ct s = Some c) /\ (exists r, sg_ratchet s = Some (x05 :: r) /\ sm_ratchet m = to_arr 32 r).
Proof.
  intros s m H. unfold sig_from_struct, unsupported_version, current_version in H.
  destruct (sg_version s <=? 1)%Z eqn:E1; [discriminate|].
  destruct (sg_version s >? 3)%Z eqn:E2; [discriminate|].
  destruct (sg_ct s) as [c|]; [|discriminate].
  destruct (sg_ratchet s) as [rk|]; [|discriminate].
  destruct (decode_point rk) as [k| |] eqn:ED; cbn [bind] in H; try discriminate.
  injection H as <-. cbn. apply decode_point_ok in ED. destruct ED as (r & -> & ->).
  repeat split; [lia|eauto|eauto].
Qed.

Lemma sig_from_bytes_ok : forall l m, sig_from_bytes l = Ok m ->
  (sg_version (sm_struct m) = 2 \/ sg_version (sm_struct m) = 3)%Z /\
  (exists c, sg_ct (sm_struct m) = Some c) /\
  (exists r, sg_ratchet (sm_struct m) = Some (x05 :: r) /\ sm_ratchet m = to_arr 32 r) /\
  (exists mac, sg_mac (sm_struct m) = Some mac /\ length mac = 8%nat) /\
  (sg_counter (sm_struct m) < u32_modulus)%N /\ (sg_prev (sm_struct m) < u32_modulus)%N.
Proof.
  assert (HU : forall kinds f l fs, unmarshal_loop kinds f l = Some fs ->
            Forall (fun x => match snd x with FUint n => (n < u32_modulus)%N | FBytes _ => True end) fs).
  { intros kinds f. induction f as [|f IH]; intros l fs H.
    - destruct l; [injection H as <-; constructor|discriminate].
    - destruct l as [|b l]; [injection H as <-; constructor|]. cbn [unmarshal_loop] in H.
      destruct (dec_varint (b :: l)) as [[x r]|]; [|discriminate].
      destruct (x / 8 =? 0)%N; [discriminate|].
      destruct (kinds (x / 8)%N) as [k|].
      + destruct (dec_known k (x mod 8) r) as [[[v r']|]|] eqn:EK; [|discriminate|].
        * destruct (unmarshal_loop kinds f r') as [fs'|] eqn:EF; [|discriminate]. injection H as <-.
          constructor; [|exact (IH _ _ EF)]. cbn. destruct k; cbn [dec_known] in EK.
          -- destruct (x mod 8 =? wt_varint)%N; [|discriminate].
             destruct (dec_varint r) as [[y r1]|]; [|discriminate]. injection EK as <- _. apply u32_lt.
          -- destruct (x mod 8 =? wt_bytes)%N; [|discriminate].
             destruct (dec_varint r) as [[y r1]|]; [|discriminate].
             destruct (N.of_nat (length r1) <? y)%N; [discriminate|]. injection EK as <- _. exact I.
        * destruct (skip_field (x mod 8) r) as [r'|]; [exact (IH _ _ H)|discriminate].
      + destruct (skip_field (x mod 8) r) as [r'|]; [exact (IH _ _ H)|discriminate]. }
  assert (HG : forall t fs acc, (acc < u32_modulus)%N ->
     Forall (fun x => match snd x with FUint n => (n < u32_modulus)%N | FBytes _ => True end) fs ->
     (last_uint t fs acc < u32_modulus)%N).
  { intros t fs. induction fs as [|[t' [n|b]] fs IH]; intros acc Ha HF; cbn; [exact Ha| |];
      inversion HF; subst; apply IH; auto. destruct (t' =? t)%N; auto. }
  intros l m H. unfold sig_from_bytes in H.
  destruct (sig_deserialize l) as [s| |] eqn:E; cbn [bind] in H; try discriminate.
  apply sig_from_struct_ok in H. destruct H as (-> & HV & HC & HR).
  split; [exact HV|]. split; [exact HC|]. split; [exact HR|].
  unfold sig_deserialize, split_three in E.
  match type of E with context [if ?b then _ else _] => destruct b eqn:EB end; cbn [bind] in E; [discriminate|].
  destruct (firstn (Z.to_nat 1) l) as [|v vr]; [discriminate|].
  unfold unmarshal in E.
  match type of E with context [unmarshal_loop ?k ?f ?x] => destruct (unmarshal_loop k f x) as [fs|] eqn:EU end;
    cbn [bind] in E; [|discriminate].
  match type of E with Ok ?x = Ok _ => assert (HS : s = x) by congruence end. clear E. subst s.
  cbn [sg_mac sg_counter sg_prev]. apply HU in EU. split; [|split; apply HG; auto; reflexivity].
  eexists. split; [reflexivity|].
  rewrite firstn_length, skipn_length. unfold mac_length in *. lia.
Qed.
