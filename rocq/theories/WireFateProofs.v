(** WireFateProofs.v: the four parsers and the fates of WireGrammarSpec.v. *)
From Verif Require Import Base Bytehelper Ecc Wire Messages WireGrammarSpec WireGrammarProofs ParserErrors.
From Coq Require Import ZArith NArith List Lia.
Import ListNotations.
Local Open Scope N_scope.

Ltac kinds_agree := intros t k; cbv [sig_kinds pk_kinds skm_kinds skd_kinds signal_schema prekey_schema group_schema distribution_schema In];
  split;
  [ repeat match goal with |- context [t =? ?n] => destruct (N.eqb_spec t n); [subst; intros H; injection H as <-; tauto|] end; intros H; discriminate H
  | intros H; repeat (destruct H as [H|H]); try contradiction; injection H as <- <-; reflexivity ].
Lemma sig_agrees : agrees sig_kinds signal_schema. Proof. kinds_agree. Qed.
Lemma pk_agrees : agrees pk_kinds prekey_schema. Proof. kinds_agree. Qed.
Lemma skm_agrees : agrees skm_kinds group_schema. Proof. kinds_agree. Qed.
Lemma skd_agrees : agrees skd_kinds distribution_schema. Proof. kinds_agree. Qed.
Ltac kind_of := let k := fresh in let H := fresh in intros k H; cbv [signal_schema prekey_schema group_schema distribution_schema In] in H;
  repeat (destruct H as [H|H]); try contradiction; try discriminate H; injection H as <-; reflexivity.

Lemma key_fate_spec : forall k o, key_fate k o <-> decode_point k = o.
Proof.
  intros k o. split.
  - intros H. destruct H as [|t r N|r]; [reflexivity|exact (other_type t r N)|reflexivity].
  - intros <-. destruct k as [|t r]; [constructor|]. destruct (Byte.byte_eq_dec t x05) as [->|N]; [constructor|rewrite (other_type t r N); constructor; exact N].
Qed.
Lemma version_byte : forall v, version v = high_bits v.
Proof. reflexivity. Qed.

Lemma split_ok : forall v (b mac : bytes) n, length mac = n -> split_three (@Some bytes (v :: b ++ mac)) 1 (Z.of_nat (length (v :: b ++ mac)) - 1 - Z.of_nat n) (Z.of_nat n) = Ok ([v], b, mac).
Proof.
  intros v b mac n H. unfold split_three. cbn [length]. rewrite app_length, H.
  replace ((1 <? 0) || (Z.of_nat (S (length b + n)) - 1 - Z.of_nat n <? 0) || (Z.of_nat n <? 0) || (Z.of_nat (S (length b + n)) <? 1 + (Z.of_nat (S (length b + n)) - 1 - Z.of_nat n) + Z.of_nat n))%Z%bool with false.
  - cbv zeta. replace (Z.to_nat (Z.of_nat (S (length b + n)) - 1 - Z.of_nat n)) with (length b) by lia. change (Z.to_nat 1) with 1%nat. rewrite Nat2Z.id.
    cbn [firstn skipn Nat.add]. rewrite firstn_app, Nat.sub_diag, firstn_all, firstn_O, app_nil_r, skipn_app, Nat.sub_diag, skipn_all, skipn_O.
    cbn [app]. rewrite <- H, firstn_all. reflexivity.
  - symmetry. rewrite !Bool.orb_false_iff. repeat split; apply Z.ltb_ge; lia.
Qed.
Lemma split_short : forall (l : bytes) n, (length l < S n)%nat -> split_three (Some l) 1 (Z.of_nat (length l) - 1 - Z.of_nat n) (Z.of_nat n) = Err EInputTooSmall.
Proof.
  intros l n H. unfold split_three. replace (Z.of_nat (length l) - 1 - Z.of_nat n <? 0)%Z with true by (symmetry; apply Z.ltb_lt; lia).
  rewrite Bool.orb_true_r. reflexivity.
Qed.
Lemma sections : forall (l : bytes) n, (length l < S n)%nat \/ exists v b mac, l = v :: b ++ mac /\ length mac = n.
Proof.
  intros l n. destruct (Nat.lt_ge_cases (length l) (S n)) as [H|H]; [left; exact H|right]. destruct l as [|v l]; [cbn in H; lia|]. cbn [length] in H.
  exists v, (firstn (length l - n) l), (skipn (length l - n) l). split; [rewrite firstn_skipn; reflexivity|rewrite skipn_length; lia].
Qed.

Definition byte_version_cases : forall v, (version v <= 1) \/ (3 < version v) \/ supported v.
Proof. intros v. unfold supported. lia. Qed.

(** One lemma per version range, for the two ways the code compares. *)
Lemma z_legacy : forall v, version v <= 1 -> (Z.of_N (high_bits v) <=? unsupported_version)%Z = true.
Proof. intros v H. rewrite <- version_byte. apply Z.leb_le. unfold unsupported_version. lia. Qed.
Lemma z_newer : forall v, 3 < version v -> (Z.of_N (high_bits v) <=? unsupported_version)%Z = false /\ (Z.of_N (high_bits v) >? current_version)%Z = true.
Proof. intros v H. rewrite <- version_byte. unfold unsupported_version, current_version. split; [apply Z.leb_gt; lia|rewrite Z.gtb_ltb; apply Z.ltb_lt; lia]. Qed.
Lemma z_supported : forall v, supported v -> (Z.of_N (high_bits v) <=? unsupported_version)%Z = false /\ (Z.of_N (high_bits v) >? current_version)%Z = false.
Proof. intros v H. unfold supported in H. rewrite <- version_byte. unfold unsupported_version, current_version. split; [apply Z.leb_gt; lia|rewrite Z.gtb_ltb; apply Z.ltb_ge; lia]. Qed.
Lemma n_legacy : forall v, version v <= 1 -> (high_bits v <=? 1) = true.
Proof. intros v H. rewrite <- version_byte. apply N.leb_le. exact H. Qed.
Lemma n_newer : forall v, 3 < version v -> (high_bits v <=? 1) = false /\ (3 <? high_bits v) = true.
Proof. intros v H. rewrite <- version_byte. split; [apply N.leb_gt; lia|apply N.ltb_lt; lia]. Qed.
Lemma n_supported : forall v, supported v -> (high_bits v <=? 1) = false /\ (3 <? high_bits v) = false.
Proof. intros v H. unfold supported in H. rewrite <- version_byte. split; [apply N.leb_gt; lia|apply N.ltb_ge; lia]. Qed.

(** * SignalMessage *)
Lemma sig_deser_ok : forall v b mac fs, length mac = 8%nat -> message signal_schema b fs ->
  sig_from_bytes (v :: b ++ mac) = sig_from_struct {| sg_ratchet := get_bytes 1 fs; sg_counter := get_uint 2 fs; sg_prev := get_uint 3 fs;
            sg_ct := get_bytes 4 fs; sg_version := Z.of_N (high_bits v); sg_mac := Some mac |}.
Proof.
  intros v b mac fs L M. unfold sig_from_bytes, sig_deserialize, mac_length. cbv zeta. rewrite (split_ok v b mac 8 L). cbn [bind].
  apply (unmarshal_spec _ _ sig_agrees) in M. rewrite M. reflexivity.
Qed.
Lemma signal_fate_sound : forall l o, signal_fate l o -> sig_from_bytes l = o.
Proof.
  intros l o F. destruct F as [l L|v b mac L N|v b mac fs L M V|v b mac fs L M V|v b mac fs L M V A|v b mac fs k ct e L M V K CT F|v b mac fs k ct L M V K CT F|v b mac fs k ct counter prev key L M V K CT CO PR F].
  - unfold sig_from_bytes, sig_deserialize, mac_length. cbv zeta. rewrite (split_short l 8 L). reflexivity.
  - unfold sig_from_bytes, sig_deserialize, mac_length. cbv zeta. rewrite (split_ok v b mac 8 L). cbn [bind].
    apply (proj1 (unmarshal_err _ _ sig_agrees b)) in N. rewrite N. reflexivity.
  - rewrite (sig_deser_ok v b mac fs L M). unfold sig_from_struct. cbn [sg_version]. rewrite (z_legacy v V). reflexivity.
  - rewrite (sig_deser_ok v b mac fs L M). unfold sig_from_struct. cbn [sg_version]. destruct (z_newer v V) as (-> & ->). reflexivity.
  - rewrite (sig_deser_ok v b mac fs L M). unfold sig_from_struct. cbn [sg_version sg_ct sg_ratchet]. destruct (z_supported v V) as (-> & ->).
    destruct A as [A|A].
    + assert (E : get_bytes 1 fs = None) by (eapply (get_bytes_spec _ _ _ 1 None M); [kind_of|exact A]). rewrite E. destruct (get_bytes 4 fs); reflexivity.
    + assert (E : get_bytes 4 fs = None) by (eapply (get_bytes_spec _ _ _ 4 None M); [kind_of|exact A]). rewrite E. reflexivity.
  - rewrite (sig_deser_ok v b mac fs L M). unfold sig_from_struct. cbn [sg_version sg_ct sg_ratchet]. destruct (z_supported v V) as (-> & ->).
    apply (get_bytes_spec _ _ _ 1 _ M) in K; [|kind_of]. apply (get_bytes_spec _ _ _ 4 _ M) in CT; [|kind_of]. rewrite K, CT. apply key_fate_spec in F. rewrite F. reflexivity.
  - rewrite (sig_deser_ok v b mac fs L M). unfold sig_from_struct. cbn [sg_version sg_ct sg_ratchet]. destruct (z_supported v V) as (-> & ->).
    apply (get_bytes_spec _ _ _ 1 _ M) in K; [|kind_of]. apply (get_bytes_spec _ _ _ 4 _ M) in CT; [|kind_of]. rewrite K, CT. apply key_fate_spec in F. rewrite F. reflexivity.
  - rewrite (sig_deser_ok v b mac fs L M). unfold sig_from_struct. cbn [sg_version sg_ct sg_ratchet]. destruct (z_supported v V) as (-> & ->).
    apply (get_bytes_spec _ _ _ 1 _ M) in K; [|kind_of]. apply (get_bytes_spec _ _ _ 4 _ M) in CT; [|kind_of].
    apply (get_uint_spec _ _ _ 2 _ M) in CO; [|kind_of]. apply (get_uint_spec _ _ _ 3 _ M) in PR; [|kind_of]. rewrite K, CT, CO, PR. apply key_fate_spec in F. rewrite F. reflexivity.
Qed.
Lemma signal_fate_total : forall l, signal_fate l (sig_from_bytes l).
Proof.
  intros l. destruct (sections l 8) as [S|(v & b & mac & -> & L)].
  - rewrite (signal_fate_sound l _ (signal_short l S)). constructor. exact S.
  - destruct (unmarshal sig_kinds b) as [fs|e|] eqn:U.
    + apply (unmarshal_spec _ _ sig_agrees) in U.
      assert (C1 : content 1 fs (get_bytes 1 fs)) by (apply (get_bytes_spec _ _ _ 1 _ U); [kind_of|reflexivity]).
      assert (C4 : content 4 fs (get_bytes 4 fs)) by (apply (get_bytes_spec _ _ _ 4 _ U); [kind_of|reflexivity]).
      assert (N2 : number 2 fs (get_uint 2 fs)) by (apply (get_uint_spec _ _ _ 2 _ U); [kind_of|reflexivity]).
      assert (N3 : number 3 fs (get_uint 3 fs)) by (apply (get_uint_spec _ _ _ 3 _ U); [kind_of|reflexivity]).
      destruct (byte_version_cases v) as [V|[V|V]].
      * rewrite (signal_fate_sound _ _ (signal_legacy v b mac fs L U V)). eapply signal_legacy; eassumption.
      * rewrite (signal_fate_sound _ _ (signal_newer v b mac fs L U V)). eapply signal_newer; eassumption.
      * destruct (get_bytes 1 fs) as [k|]; [destruct (get_bytes 4 fs) as [ct|]|].
        -- assert (F : key_fate k (decode_point k)) by (apply key_fate_spec; reflexivity). destruct (decode_point k) as [key|e|].
           ++ rewrite (signal_fate_sound _ _ (signal_read v b mac fs k ct _ _ key L U V C1 C4 N2 N3 F)). eapply signal_read; eassumption.
           ++ rewrite (signal_fate_sound _ _ (signal_bad_key v b mac fs k ct e L U V C1 C4 F)). eapply signal_bad_key; eassumption.
           ++ rewrite (signal_fate_sound _ _ (signal_crash v b mac fs k ct L U V C1 C4 F)). eapply signal_crash; eassumption.
        -- rewrite (signal_fate_sound _ _ (signal_incomplete v b mac fs L U V (or_intror C4))). eapply signal_incomplete; [exact L|exact U|exact V|right; exact C4].
        -- rewrite (signal_fate_sound _ _ (signal_incomplete v b mac fs L U V (or_introl C1))). eapply signal_incomplete; [exact L|exact U|exact V|left; exact C1].
    + destruct (unmarshal_err _ _ sig_agrees b) as (H & HE & _). pose proof (HE e U) as ->. pose proof (proj1 H U) as U2. clear U. rename U2 into U.
      rewrite (signal_fate_sound _ _ (signal_malformed v b mac L U)). apply signal_malformed; assumption.
    + destruct (unmarshal_err _ _ sig_agrees b) as (_ & _ & H). contradiction.
Qed.

(** * PreKeySignalMessage *)
Lemma pk_deser_ok : forall v b fs, message prekey_schema b fs ->
  pk_from_bytes (v :: b) = pk_from_struct {| pk_reg := get_uint 5 fs; pk_prekey_id := Some (ou_some (get_uint 1 fs));
            pk_signed_id := get_uint 6 fs; pk_base := get_bytes 2 fs; pk_identity := get_bytes 3 fs;
            pk_message := get_bytes 4 fs; pk_version := Z.of_N (high_bits v) |}.
Proof.
  intros v b fs M. unfold pk_from_bytes, pk_deserialize. apply (unmarshal_spec _ _ pk_agrees) in M. rewrite M. reflexivity.
Qed.
Lemma prekey_fate_sound : forall l o, prekey_fate l o -> pk_from_bytes l = o.
Proof.
  assert (IN : forall m o, signal_fate m o -> sig_from_bytes m = o) by exact signal_fate_sound.
  intros l o F. destruct F as [|v b N|v b fs M V|v b fs M V|v b fs M V A|v b fs kb ki m e M V B I C F|v b fs kb ki m M V B I C F|v b fs kb ki m base e M V B I C F G|v b fs kb ki m base M V B I C F G
    |v b fs kb ki m base ident e M V B I C F G H|v b fs kb ki m base ident M V B I C F G H|v b fs kb ki m base ident inner id reg signed M V B I C F G H N1 N5 N6].
  - reflexivity.
  - unfold pk_from_bytes, pk_deserialize. apply (proj1 (unmarshal_err _ _ pk_agrees b)) in N. rewrite N. reflexivity.
  - rewrite (pk_deser_ok v b fs M). unfold pk_from_struct. cbn [pk_version]. rewrite (z_legacy v V). reflexivity.
  - rewrite (pk_deser_ok v b fs M). unfold pk_from_struct. cbn [pk_version]. destruct (z_newer v V) as (-> & ->). reflexivity.
  - rewrite (pk_deser_ok v b fs M). unfold pk_from_struct. cbn [pk_version pk_base pk_identity pk_message]. destruct (z_supported v V) as (-> & ->).
    destruct A as [A|[A|A]].
    + assert (E : get_bytes 2 fs = None) by (eapply (get_bytes_spec _ _ _ 2 None M); [kind_of|exact A]). rewrite E. reflexivity.
    + assert (E : get_bytes 3 fs = None) by (eapply (get_bytes_spec _ _ _ 3 None M); [kind_of|exact A]). rewrite E. destruct (get_bytes 2 fs); reflexivity.
    + assert (E : get_bytes 4 fs = None) by (eapply (get_bytes_spec _ _ _ 4 None M); [kind_of|exact A]). rewrite E. destruct (get_bytes 2 fs), (get_bytes 3 fs); reflexivity.
  - rewrite (pk_deser_ok v b fs M). unfold pk_from_struct. cbn [pk_version pk_base pk_identity pk_message]. destruct (z_supported v V) as (-> & ->).
    apply (get_bytes_spec _ _ _ 2 _ M) in B; [|kind_of]. apply (get_bytes_spec _ _ _ 3 _ M) in I; [|kind_of]. apply (get_bytes_spec _ _ _ 4 _ M) in C; [|kind_of].
    rewrite B, I, C. apply key_fate_spec in F. rewrite F. reflexivity.
  - rewrite (pk_deser_ok v b fs M). unfold pk_from_struct. cbn [pk_version pk_base pk_identity pk_message]. destruct (z_supported v V) as (-> & ->).
    apply (get_bytes_spec _ _ _ 2 _ M) in B; [|kind_of]. apply (get_bytes_spec _ _ _ 3 _ M) in I; [|kind_of]. apply (get_bytes_spec _ _ _ 4 _ M) in C; [|kind_of].
    rewrite B, I, C. apply key_fate_spec in F. rewrite F. reflexivity.
  - rewrite (pk_deser_ok v b fs M). unfold pk_from_struct. cbn [pk_version pk_base pk_identity pk_message]. destruct (z_supported v V) as (-> & ->).
    apply (get_bytes_spec _ _ _ 2 _ M) in B; [|kind_of]. apply (get_bytes_spec _ _ _ 3 _ M) in I; [|kind_of]. apply (get_bytes_spec _ _ _ 4 _ M) in C; [|kind_of].
    rewrite B, I, C. apply key_fate_spec in F. apply key_fate_spec in G. rewrite F. cbn [bind]. rewrite G. reflexivity.
  - rewrite (pk_deser_ok v b fs M). unfold pk_from_struct. cbn [pk_version pk_base pk_identity pk_message]. destruct (z_supported v V) as (-> & ->).
    apply (get_bytes_spec _ _ _ 2 _ M) in B; [|kind_of]. apply (get_bytes_spec _ _ _ 3 _ M) in I; [|kind_of]. apply (get_bytes_spec _ _ _ 4 _ M) in C; [|kind_of].
    rewrite B, I, C. apply key_fate_spec in F. apply key_fate_spec in G. rewrite F. cbn [bind]. rewrite G. reflexivity.
  - rewrite (pk_deser_ok v b fs M). unfold pk_from_struct. cbn [pk_version pk_base pk_identity pk_message]. destruct (z_supported v V) as (-> & ->).
    apply (get_bytes_spec _ _ _ 2 _ M) in B; [|kind_of]. apply (get_bytes_spec _ _ _ 3 _ M) in I; [|kind_of]. apply (get_bytes_spec _ _ _ 4 _ M) in C; [|kind_of].
    rewrite B, I, C. apply key_fate_spec in F. apply key_fate_spec in G. rewrite F. cbn [bind]. rewrite G. cbn [bind]. rewrite (IN _ _ H). reflexivity.
  - rewrite (pk_deser_ok v b fs M). unfold pk_from_struct. cbn [pk_version pk_base pk_identity pk_message]. destruct (z_supported v V) as (-> & ->).
    apply (get_bytes_spec _ _ _ 2 _ M) in B; [|kind_of]. apply (get_bytes_spec _ _ _ 3 _ M) in I; [|kind_of]. apply (get_bytes_spec _ _ _ 4 _ M) in C; [|kind_of].
    rewrite B, I, C. apply key_fate_spec in F. apply key_fate_spec in G. rewrite F. cbn [bind]. rewrite G. cbn [bind]. rewrite (IN _ _ H). reflexivity.
  - rewrite (pk_deser_ok v b fs M). unfold pk_from_struct. cbn [pk_version pk_base pk_identity pk_message]. destruct (z_supported v V) as (-> & ->).
    apply (get_bytes_spec _ _ _ 2 _ M) in B; [|kind_of]. apply (get_bytes_spec _ _ _ 3 _ M) in I; [|kind_of]. apply (get_bytes_spec _ _ _ 4 _ M) in C; [|kind_of].
    apply (get_uint_spec _ _ _ 1 _ M) in N1; [|kind_of]. apply (get_uint_spec _ _ _ 5 _ M) in N5; [|kind_of]. apply (get_uint_spec _ _ _ 6 _ M) in N6; [|kind_of].
    rewrite B, I, C, N1, N5, N6. apply key_fate_spec in F. apply key_fate_spec in G. rewrite F. cbn [bind]. rewrite G. cbn [bind]. rewrite (IN _ _ H). reflexivity.
Qed.
Lemma prekey_fate_total : forall l, prekey_fate l (pk_from_bytes l).
Proof.
  intros l. destruct l as [|v b]; [constructor|]. destruct (unmarshal pk_kinds b) as [fs|e|] eqn:U.
  - apply (unmarshal_spec _ _ pk_agrees) in U.
    assert (C2 : content 2 fs (get_bytes 2 fs)) by (apply (get_bytes_spec _ _ _ 2 _ U); [kind_of|reflexivity]).
    assert (C3 : content 3 fs (get_bytes 3 fs)) by (apply (get_bytes_spec _ _ _ 3 _ U); [kind_of|reflexivity]).
    assert (C4 : content 4 fs (get_bytes 4 fs)) by (apply (get_bytes_spec _ _ _ 4 _ U); [kind_of|reflexivity]).
    assert (N1 : number 1 fs (get_uint 1 fs)) by (apply (get_uint_spec _ _ _ 1 _ U); [kind_of|reflexivity]).
    assert (N5 : number 5 fs (get_uint 5 fs)) by (apply (get_uint_spec _ _ _ 5 _ U); [kind_of|reflexivity]).
    assert (N6 : number 6 fs (get_uint 6 fs)) by (apply (get_uint_spec _ _ _ 6 _ U); [kind_of|reflexivity]).
    destruct (byte_version_cases v) as [V|[V|V]].
    + rewrite (prekey_fate_sound _ _ (prekey_legacy v b fs U V)). eapply prekey_legacy; eassumption.
    + rewrite (prekey_fate_sound _ _ (prekey_newer v b fs U V)). eapply prekey_newer; eassumption.
    + destruct (get_bytes 2 fs) as [kb|]; [destruct (get_bytes 3 fs) as [ki|]; [destruct (get_bytes 4 fs) as [m|]|]|].
      * assert (F : key_fate kb (decode_point kb)) by (apply key_fate_spec; reflexivity). destruct (decode_point kb) as [base|e|].
        -- assert (G : key_fate ki (decode_point ki)) by (apply key_fate_spec; reflexivity). destruct (decode_point ki) as [ident|e|].
           ++ pose proof (signal_fate_total m) as H. destruct (sig_from_bytes m) as [inner|e|].
              ** rewrite (prekey_fate_sound _ _ (prekey_read v b fs kb ki m base ident inner _ _ _ U V C2 C3 C4 F G H N1 N5 N6)). eapply prekey_read; eassumption.
              ** rewrite (prekey_fate_sound _ _ (prekey_bad_inner v b fs kb ki m base ident e U V C2 C3 C4 F G H)). eapply prekey_bad_inner; eassumption.
              ** rewrite (prekey_fate_sound _ _ (prekey_inner_crash v b fs kb ki m base ident U V C2 C3 C4 F G H)). eapply prekey_inner_crash; eassumption.
           ++ rewrite (prekey_fate_sound _ _ (prekey_bad_identity v b fs kb ki m base e U V C2 C3 C4 F G)). eapply prekey_bad_identity; eassumption.
           ++ rewrite (prekey_fate_sound _ _ (prekey_identity_crash v b fs kb ki m base U V C2 C3 C4 F G)). eapply prekey_identity_crash; eassumption.
        -- rewrite (prekey_fate_sound _ _ (prekey_bad_base v b fs kb ki m e U V C2 C3 C4 F)). eapply prekey_bad_base; eassumption.
        -- rewrite (prekey_fate_sound _ _ (prekey_base_crash v b fs kb ki m U V C2 C3 C4 F)). eapply prekey_base_crash; eassumption.
      * rewrite (prekey_fate_sound _ _ (prekey_incomplete v b fs U V (or_intror (or_intror C4)))). eapply prekey_incomplete; [exact U|exact V|right; right; exact C4].
      * rewrite (prekey_fate_sound _ _ (prekey_incomplete v b fs U V (or_intror (or_introl C3)))). eapply prekey_incomplete; [exact U|exact V|right; left; exact C3].
      * rewrite (prekey_fate_sound _ _ (prekey_incomplete v b fs U V (or_introl C2))). eapply prekey_incomplete; [exact U|exact V|left; exact C2].
  - destruct (unmarshal_err _ _ pk_agrees b) as (H & HE & _). pose proof (HE e U) as ->. pose proof (proj1 H U) as U2. clear U. rename U2 into U.
    rewrite (prekey_fate_sound _ _ (prekey_malformed v b U)). apply prekey_malformed; assumption.
  - destruct (unmarshal_err _ _ pk_agrees b) as (_ & _ & H). contradiction.
Qed.

(** * SenderKeyMessage *)
Lemma skm_deser_ok : forall v b sig fs, length sig = 64%nat -> message group_schema b fs ->
  skm_from_bytes (v :: b ++ sig) = skm_from_struct {| km_id := get_uint 1 fs; km_iter := get_uint 2 fs; km_ct := get_bytes 3 fs; km_version := high_bits v; km_sig := Some sig |}.
Proof.
  intros v b sig fs L M. unfold skm_from_bytes, skm_deserialize. cbv zeta. change 64%Z with (Z.of_nat 64). rewrite (split_ok v b sig 64 L). cbn [bind].
  apply (unmarshal_spec _ _ skm_agrees) in M. rewrite M. reflexivity.
Qed.
Lemma group_fate_sound : forall l o, group_fate l o -> skm_from_bytes l = o.
Proof.
  intros l o F. destruct F as [l L|v b sig L N|v b sig fs L M V|v b sig fs L M V|v b sig fs L M V A|v b sig fs ct id iter L M V C N1 N2].
  - unfold skm_from_bytes, skm_deserialize. cbv zeta. change 64%Z with (Z.of_nat 64). rewrite (split_short l 64 L). reflexivity.
  - unfold skm_from_bytes, skm_deserialize. cbv zeta. change 64%Z with (Z.of_nat 64). rewrite (split_ok v b sig 64 L). cbn [bind].
    apply (proj1 (unmarshal_err _ _ skm_agrees b)) in N. rewrite N. reflexivity.
  - rewrite (skm_deser_ok v b sig fs L M). unfold skm_from_struct. cbn [km_version]. rewrite (n_legacy v V). reflexivity.
  - rewrite (skm_deser_ok v b sig fs L M). unfold skm_from_struct. cbn [km_version]. destruct (n_newer v V) as (-> & ->). reflexivity.
  - rewrite (skm_deser_ok v b sig fs L M). unfold skm_from_struct. cbn [km_version km_ct]. destruct (n_supported v V) as (-> & ->).
    assert (E : get_bytes 3 fs = None) by (eapply (get_bytes_spec _ _ _ 3 None M); [kind_of|exact A]). rewrite E. reflexivity.
  - rewrite (skm_deser_ok v b sig fs L M). unfold skm_from_struct. cbn [km_version km_ct]. destruct (n_supported v V) as (-> & ->).
    apply (get_bytes_spec _ _ _ 3 _ M) in C; [|kind_of]. apply (get_uint_spec _ _ _ 1 _ M) in N1; [|kind_of]. apply (get_uint_spec _ _ _ 2 _ M) in N2; [|kind_of].
    rewrite C, N1, N2. reflexivity.
Qed.
Lemma group_fate_total : forall l, group_fate l (skm_from_bytes l).
Proof.
  intros l. destruct (sections l 64) as [S|(v & b & sig & -> & L)].
  - rewrite (group_fate_sound l _ (group_short l S)). constructor. exact S.
  - destruct (unmarshal skm_kinds b) as [fs|e|] eqn:U.
    + apply (unmarshal_spec _ _ skm_agrees) in U.
      assert (C3 : content 3 fs (get_bytes 3 fs)) by (apply (get_bytes_spec _ _ _ 3 _ U); [kind_of|reflexivity]).
      assert (N1 : number 1 fs (get_uint 1 fs)) by (apply (get_uint_spec _ _ _ 1 _ U); [kind_of|reflexivity]).
      assert (N2 : number 2 fs (get_uint 2 fs)) by (apply (get_uint_spec _ _ _ 2 _ U); [kind_of|reflexivity]).
      destruct (byte_version_cases v) as [V|[V|V]].
      * rewrite (group_fate_sound _ _ (group_legacy v b sig fs L U V)). eapply group_legacy; eassumption.
      * rewrite (group_fate_sound _ _ (group_newer v b sig fs L U V)). eapply group_newer; eassumption.
      * destruct (get_bytes 3 fs) as [ct|].
        -- rewrite (group_fate_sound _ _ (group_read v b sig fs ct _ _ L U V C3 N1 N2)). eapply group_read; eassumption.
        -- rewrite (group_fate_sound _ _ (group_incomplete v b sig fs L U V C3)). eapply group_incomplete; eassumption.
    + destruct (unmarshal_err _ _ skm_agrees b) as (H & HE & _). pose proof (HE e U) as ->. pose proof (proj1 H U) as U2. clear U. rename U2 into U.
      rewrite (group_fate_sound _ _ (group_malformed v b sig L U)). apply group_malformed; assumption.
    + destruct (unmarshal_err _ _ skm_agrees b) as (_ & _ & H). contradiction.
Qed.

(** * SenderKeyDistributionMessage *)
Lemma skd_deser_ok : forall v b fs, message distribution_schema b fs ->
  skd_from_bytes (v :: b) = skd_from_struct {| ds_id := get_uint 1 fs; ds_iter := get_uint 2 fs; ds_chain := get_bytes 3 fs; ds_signing := get_bytes 4 fs; ds_version := high_bits v |}.
Proof. intros v b fs M. unfold skd_from_bytes, skd_deserialize. apply (unmarshal_spec _ _ skd_agrees) in M. rewrite M. reflexivity. Qed.
Lemma distribution_fate_sound : forall l o, distribution_fate l o -> skd_from_bytes l = o.
Proof.
  intros l o F. destruct F as [|v b N|v b fs M V|v b fs M V|v b fs M V A|v b fs ck k e M V C K F|v b fs ck k M V C K F|v b fs ck k key id iter M V C K F N1 N2].
  - reflexivity.
  - unfold skd_from_bytes, skd_deserialize. apply (proj1 (unmarshal_err _ _ skd_agrees b)) in N. rewrite N. reflexivity.
  - rewrite (skd_deser_ok v b fs M). unfold skd_from_struct. cbn [ds_version]. rewrite (n_legacy v V). reflexivity.
  - rewrite (skd_deser_ok v b fs M). unfold skd_from_struct. cbn [ds_version]. destruct (n_newer v V) as (-> & ->). reflexivity.
  - rewrite (skd_deser_ok v b fs M). unfold skd_from_struct. cbn [ds_version ds_chain ds_signing]. destruct (n_supported v V) as (-> & ->).
    destruct A as [A|A].
    + assert (E : get_bytes 3 fs = None) by (eapply (get_bytes_spec _ _ _ 3 None M); [kind_of|exact A]). rewrite E. destruct (get_bytes 4 fs); reflexivity.
    + assert (E : get_bytes 4 fs = None) by (eapply (get_bytes_spec _ _ _ 4 None M); [kind_of|exact A]). rewrite E. reflexivity.
  - rewrite (skd_deser_ok v b fs M). unfold skd_from_struct. cbn [ds_version ds_chain ds_signing]. destruct (n_supported v V) as (-> & ->).
    apply (get_bytes_spec _ _ _ 3 _ M) in C; [|kind_of]. apply (get_bytes_spec _ _ _ 4 _ M) in K; [|kind_of]. rewrite C, K. apply key_fate_spec in F. rewrite F. reflexivity.
  - rewrite (skd_deser_ok v b fs M). unfold skd_from_struct. cbn [ds_version ds_chain ds_signing]. destruct (n_supported v V) as (-> & ->).
    apply (get_bytes_spec _ _ _ 3 _ M) in C; [|kind_of]. apply (get_bytes_spec _ _ _ 4 _ M) in K; [|kind_of]. rewrite C, K. apply key_fate_spec in F. rewrite F. reflexivity.
  - rewrite (skd_deser_ok v b fs M). unfold skd_from_struct. cbn [ds_version ds_chain ds_signing ds_id ds_iter]. destruct (n_supported v V) as (-> & ->).
    apply (get_bytes_spec _ _ _ 3 _ M) in C; [|kind_of]. apply (get_bytes_spec _ _ _ 4 _ M) in K; [|kind_of].
    apply (get_uint_spec _ _ _ 1 _ M) in N1; [|kind_of]. apply (get_uint_spec _ _ _ 2 _ M) in N2; [|kind_of]. rewrite C, K, N1, N2. apply key_fate_spec in F. rewrite F. reflexivity.
Qed.
Lemma distribution_fate_total : forall l, distribution_fate l (skd_from_bytes l).
Proof.
  intros l. destruct l as [|v b]; [constructor|]. destruct (unmarshal skd_kinds b) as [fs|e|] eqn:U.
  - apply (unmarshal_spec _ _ skd_agrees) in U.
    assert (C3 : content 3 fs (get_bytes 3 fs)) by (apply (get_bytes_spec _ _ _ 3 _ U); [kind_of|reflexivity]).
    assert (C4 : content 4 fs (get_bytes 4 fs)) by (apply (get_bytes_spec _ _ _ 4 _ U); [kind_of|reflexivity]).
    assert (N1 : number 1 fs (get_uint 1 fs)) by (apply (get_uint_spec _ _ _ 1 _ U); [kind_of|reflexivity]).
    assert (N2 : number 2 fs (get_uint 2 fs)) by (apply (get_uint_spec _ _ _ 2 _ U); [kind_of|reflexivity]).
    destruct (byte_version_cases v) as [V|[V|V]].
    + rewrite (distribution_fate_sound _ _ (distribution_legacy v b fs U V)). eapply distribution_legacy; eassumption.
    + rewrite (distribution_fate_sound _ _ (distribution_newer v b fs U V)). eapply distribution_newer; eassumption.
    + destruct (get_bytes 3 fs) as [ck|]; [destruct (get_bytes 4 fs) as [k|]|].
      * assert (F : key_fate k (decode_point k)) by (apply key_fate_spec; reflexivity). destruct (decode_point k) as [key|e|].
        -- rewrite (distribution_fate_sound _ _ (distribution_read v b fs ck k key _ _ U V C3 C4 F N1 N2)). eapply distribution_read; eassumption.
        -- rewrite (distribution_fate_sound _ _ (distribution_bad_key v b fs ck k e U V C3 C4 F)). eapply distribution_bad_key; eassumption.
        -- rewrite (distribution_fate_sound _ _ (distribution_crash v b fs ck k U V C3 C4 F)). eapply distribution_crash; eassumption.
      * rewrite (distribution_fate_sound _ _ (distribution_incomplete v b fs U V (or_intror C4))). eapply distribution_incomplete; [exact U|exact V|right; exact C4].
      * rewrite (distribution_fate_sound _ _ (distribution_incomplete v b fs U V (or_introl C3))). eapply distribution_incomplete; [exact U|exact V|left; exact C3].
  - destruct (unmarshal_err _ _ skd_agrees b) as (H & HE & _). pose proof (HE e U) as ->. pose proof (proj1 H U) as U2. clear U. rename U2 into U.
    rewrite (distribution_fate_sound _ _ (distribution_malformed v b U)). apply distribution_malformed; assumption.
  - destruct (unmarshal_err _ _ skd_agrees b) as (_ & _ & H). contradiction.
Qed.
