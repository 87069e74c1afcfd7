(** ParserErrors.v: which error the four parsers return, C19. *)
From Verif Require Import Base Bytehelper Ecc Wire Messages.
From Coq Require Import ZArith NArith List Lia.
Import ListNotations.

Lemma version_cases : forall n : N, (Z.of_N n <=? 1)%Z = (n <=? 1)%N /\ (Z.of_N n >? 3)%Z = (3 <? n)%N.
Proof. intros n. split; [destruct (n <=? 1)%N eqn:E; lia|destruct (3 <? n)%N eqn:E; lia]. Qed.
Lemma split_head : forall l n1 n2 n3 v r p1 p2, split_three (Some l) n1 n2 n3 = Ok (v :: r, p1, p2) -> hd x00 l = v.
Proof.
  intros l n1 n2 n3 v r p1 p2 H. unfold split_three in H. destruct (_ || _)%bool; [discriminate H|]. cbv zeta in H.
  assert (E : firstn (Z.to_nat n1) l = v :: r) by exact (f_equal (fun x => match x with Ok (a, _, _) => a | _ => v :: r end) H).
  destruct (Z.to_nat n1); [discriminate E|]. destruct l; [discriminate E|]. cbn [firstn] in E. exact (f_equal (hd x00) E).
Qed.
Lemma sig_version_byte : forall l s, sig_deserialize l = Ok s -> sg_version s = Z.of_N (b2n (hd x00 l) / 16)%N.
Proof.
  intros l s H. unfold sig_deserialize in H. destruct (split_three _ _ _ _) as [[[p0 p1] p2]|e|] eqn:S; cbn [bind] in H; try discriminate H.
  destruct p0 as [|v r]; [discriminate H|]. destruct (unmarshal sig_kinds p1) as [fs|e|]; cbn [bind] in H; try discriminate H. injection H as <-. cbn [sg_version]. unfold high_bits.
  rewrite (split_head _ _ _ _ _ _ _ _ S). reflexivity.
Qed.
Lemma skm_version_byte : forall l s, skm_deserialize l = Ok s -> km_version s = (b2n (hd x00 l) / 16)%N.
Proof.
  intros l s H. unfold skm_deserialize in H. destruct (split_three _ _ _ _) as [[[p0 p1] p2]|e|] eqn:S; cbn [bind] in H; try discriminate H.
  destruct p0 as [|v r]; [discriminate H|]. destruct (unmarshal skm_kinds p1) as [fs|e|]; cbn [bind] in H; try discriminate H. injection H as <-. cbn [km_version]. unfold high_bits.
  rewrite (split_head _ _ _ _ _ _ _ _ S). reflexivity.
Qed.
Lemma pk_version_byte : forall l s, pk_deserialize l = Ok s -> pk_version s = Z.of_N (b2n (hd x00 l) / 16)%N.
Proof.
  intros l s H. unfold pk_deserialize in H. destruct l as [|v r]; [discriminate H|]. destruct (unmarshal pk_kinds r) as [fs|e|]; cbn [bind] in H; try discriminate H. injection H as <-. reflexivity.
Qed.
Lemma skd_version_byte : forall l s, skd_deserialize l = Ok s -> ds_version s = (b2n (hd x00 l) / 16)%N.
Proof.
  intros l s H. unfold skd_deserialize in H. destruct l as [|v r]; [discriminate H|]. destruct (unmarshal skd_kinds r) as [fs|e|]; cbn [bind] in H; try discriminate H. injection H as <-. reflexivity.
Qed.
Lemma other_type : forall t r, t <> x05 -> decode_point (t :: r) = Err EBadKeyType.
Proof. intros t r N. unfold decode_point. destruct (Byte.eqb t djb_type) eqn:E; [|reflexivity]. exfalso. apply N. destruct t; try discriminate E; reflexivity. Qed.
Lemma right_type : forall r, decode_point (x05 :: r) = Ok (to_arr 32 r).
Proof. reflexivity. Qed.

Lemma sig_errors : forall l,
  (forall e, sig_deserialize l = Err e -> sig_from_bytes l = Err e) /\
  (forall s, sig_deserialize l = Ok s ->
    ((b2n (hd x00 l) / 16 <= 1)%N -> sig_from_bytes l = Err ELegacy) /\ ((3 < b2n (hd x00 l) / 16)%N -> sig_from_bytes l = Err EUnknownVersion) /\
    ((2 <= b2n (hd x00 l) / 16 <= 3)%N ->
      (sg_ct s = None \/ sg_ratchet s = None -> sig_from_bytes l = Err EIncomplete) /\
      (forall t r, sg_ct s <> None -> sg_ratchet s = Some (t :: r) -> t <> x05 -> sig_from_bytes l = Err EBadKeyType))).
Proof.
  intros l. split; [intros e E; unfold sig_from_bytes; rewrite E; reflexivity|]. intros s E. unfold sig_from_bytes. rewrite E. cbn [bind]. unfold sig_from_struct.
  rewrite (sig_version_byte l s E). unfold unsupported_version, current_version. generalize (b2n (hd x00 l) / 16)%N. intros n. destruct (version_cases n) as (-> & ->).
  split; [intros H; assert (X : (n <=? 1)%N = true) by lia; rewrite X; reflexivity|]. split; [intros H; assert (X : (n <=? 1)%N = false) by lia; rewrite X; assert (Y : (3 <? n)%N = true) by lia; rewrite Y; reflexivity|].
  intros H. assert (X : (n <=? 1)%N = false) by lia; rewrite X; assert (Y : (3 <? n)%N = false) by lia; rewrite Y. split.
  - intros [-> | ->]; [reflexivity|destruct (sg_ct s); reflexivity].
  - intros t r H1 -> N. destruct (sg_ct s); [|contradiction H1; reflexivity]. rewrite (other_type t r N). reflexivity.
Qed.
Lemma pk_errors : forall l,
  (forall e, pk_deserialize l = Err e -> pk_from_bytes l = Err e) /\
  (forall s, pk_deserialize l = Ok s ->
    ((b2n (hd x00 l) / 16 <= 1)%N -> pk_from_bytes l = Err ELegacy) /\ ((3 < b2n (hd x00 l) / 16)%N -> pk_from_bytes l = Err EUnknownVersion) /\
    ((2 <= b2n (hd x00 l) / 16 <= 3)%N ->
      (pk_base s = None \/ pk_identity s = None \/ pk_message s = None -> pk_from_bytes l = Err EIncomplete) /\
      (forall t r, pk_base s = Some (t :: r) -> pk_identity s <> None -> pk_message s <> None -> t <> x05 -> pk_from_bytes l = Err EBadKeyType) /\
      (forall t r b, pk_base s = Some (x05 :: b) -> pk_identity s = Some (t :: r) -> pk_message s <> None -> t <> x05 -> pk_from_bytes l = Err EBadKeyType) /\
      (forall b r m e, pk_base s = Some (x05 :: b) -> pk_identity s = Some (x05 :: r) -> pk_message s = Some m -> sig_from_bytes m = Err e -> pk_from_bytes l = Err e))).
Proof.
  intros l. split; [intros e E; unfold pk_from_bytes; rewrite E; reflexivity|]. intros s E. unfold pk_from_bytes. rewrite E. cbn [bind]. unfold pk_from_struct.
  rewrite (pk_version_byte l s E). unfold unsupported_version, current_version. generalize (b2n (hd x00 l) / 16)%N. intros n. destruct (version_cases n) as (-> & ->).
  split; [intros H; assert (X : (n <=? 1)%N = true) by lia; rewrite X; reflexivity|]. split; [intros H; assert (X : (n <=? 1)%N = false) by lia; rewrite X; assert (Y : (3 <? n)%N = true) by lia; rewrite Y; reflexivity|].
  intros H. assert (X : (n <=? 1)%N = false) by lia; rewrite X; assert (Y : (3 <? n)%N = false) by lia; rewrite Y. split; [|split; [|split]].
  - intros [-> |[-> | ->]]; [reflexivity|destruct (pk_base s); reflexivity|destruct (pk_base s); [destruct (pk_identity s)|]; reflexivity].
  - intros t r -> H1 H2 N. destruct (pk_identity s); [|contradiction H1; reflexivity]. destruct (pk_message s); [|contradiction H2; reflexivity]. rewrite (other_type t r N). reflexivity.
  - intros t r b -> -> H2 N. destruct (pk_message s); [|contradiction H2; reflexivity]. rewrite right_type. cbn [bind]. rewrite (other_type t r N). reflexivity.
  - intros b r m e -> -> -> F. rewrite !right_type. cbn [bind]. rewrite F. reflexivity.
Qed.
Lemma skm_errors : forall l,
  (forall e, skm_deserialize l = Err e -> skm_from_bytes l = Err e) /\
  (forall s, skm_deserialize l = Ok s ->
    ((b2n (hd x00 l) / 16 <= 1)%N -> skm_from_bytes l = Err ELegacy) /\ ((3 < b2n (hd x00 l) / 16)%N -> skm_from_bytes l = Err EUnknownVersion) /\
    ((2 <= b2n (hd x00 l) / 16 <= 3)%N -> km_ct s = None -> skm_from_bytes l = Err EIncomplete)).
Proof.
  intros l. split; [intros e E; unfold skm_from_bytes; rewrite E; reflexivity|]. intros s E. unfold skm_from_bytes. rewrite E. cbn [bind]. unfold skm_from_struct.
  rewrite (skm_version_byte l s E). generalize (b2n (hd x00 l) / 16)%N. intros n.
  split; [intros H; assert (X : (n <=? 1)%N = true) by lia; rewrite X; reflexivity|]. split; [intros H; assert (X : (n <=? 1)%N = false) by lia; rewrite X; assert (Y : (3 <? n)%N = true) by lia; rewrite Y; reflexivity|].
  intros H ->. assert (X : (n <=? 1)%N = false) by lia; rewrite X; assert (Y : (3 <? n)%N = false) by lia; rewrite Y. reflexivity.
Qed.
Lemma skd_errors : forall l,
  (forall e, skd_deserialize l = Err e -> skd_from_bytes l = Err e) /\
  (forall s, skd_deserialize l = Ok s ->
    ((b2n (hd x00 l) / 16 <= 1)%N -> skd_from_bytes l = Err ELegacy) /\ ((3 < b2n (hd x00 l) / 16)%N -> skd_from_bytes l = Err EUnknownVersion) /\
    ((2 <= b2n (hd x00 l) / 16 <= 3)%N ->
      (ds_chain s = None \/ ds_signing s = None -> skd_from_bytes l = Err EIncomplete) /\
      (forall t r, ds_chain s <> None -> ds_signing s = Some (t :: r) -> t <> x05 -> skd_from_bytes l = Err EBadKeyType))).
Proof.
  intros l. split; [intros e E; unfold skd_from_bytes; rewrite E; reflexivity|]. intros s E. unfold skd_from_bytes. rewrite E. cbn [bind]. unfold skd_from_struct.
  rewrite (skd_version_byte l s E). generalize (b2n (hd x00 l) / 16)%N. intros n.
  split; [intros H; assert (X : (n <=? 1)%N = true) by lia; rewrite X; reflexivity|]. split; [intros H; assert (X : (n <=? 1)%N = false) by lia; rewrite X; assert (Y : (3 <? n)%N = true) by lia; rewrite Y; reflexivity|].
  intros H. assert (X : (n <=? 1)%N = false) by lia; rewrite X; assert (Y : (3 <? n)%N = false) by lia; rewrite Y. split.
  - intros [-> | ->]; [destruct (ds_signing s); reflexivity|reflexivity].
  - intros t r H1 -> N. destruct (ds_chain s); [|contradiction H1; reflexivity]. rewrite (other_type t r N). reflexivity.
Qed.
