(** PropertiesGroupCall.v: the answer of every group call and the record it leaves (C79). Specification: GroupCallSpec.v, BodySpec.v. *)
From Verif Require Import Base Labels Crypto Bytehelper Ecc Cbc Messages SessionState Group WireFormatSpec BodySpec GroupSpec GroupStoreSpec GroupCallSpec
  GroupProofs GroupProofs2 GroupConvProofs GroupStoreProofs BodyProofs GroupCallProofs Toy PropertiesGroupStore.
From Coq Require Import List Lia.
Import ListNotations.

Lemma nothing_good : forall st, nothing_yet st -> good st.
Proof. intros st [-> | ->]; (split; [|constructor]); [exact I|split; [constructor|apply Nat.le_0_l]]. Qed.

(** Every program of Encrypt, Decrypt, Process and Create calls on one sender key name, starting from a store with nothing or an empty record
    under that name, gives exactly the answers, and leaves exactly the record, that the case-by-case description allows. *)
Theorem C79_every_program : forall C, crypto_laws C -> forall st cs l st', nothing_yet st -> Forall call_ok cs ->
  (program_fate C st cs l st' <-> gplay C cs st = (l, st')).
Proof. intros C L st cs l st' HN HC. apply (program_spec C L); [apply nothing_good; exact HN|exact HC]. Qed.

(** The same of the next call after any program. *)
Theorem C79_every_call : forall C, crypto_laws C -> forall st cs c a st', nothing_yet st -> call_ok c ->
  (call_fate C (snd (gplay C cs st)) c a st' <-> gcall_run C c (snd (gplay C cs st)) = (a, st')).
Proof.
  intros C L st cs c a st' HN HC. pose proof (good_play C L cs st (nothing_good st HN)) as HG. split; [apply (call_det C L); assumption|].
  intros H. pose proof (call_total C L _ c HG HC) as T. rewrite H in T. exact T.
Qed.

(** The description decides: every program has one outcome. *)
Theorem C79_one_outcome : forall C, crypto_laws C -> forall st cs, nothing_yet st -> Forall call_ok cs ->
  exists l st', program_fate C st cs l st' /\ forall l1 st1, program_fate C st cs l1 st1 -> l1 = l /\ st1 = st'.
Proof.
  intros C L st cs HN HC. exists (fst (gplay C cs st)), (snd (gplay C cs st)). split; [apply (C79_every_program C L _ _ _ _ HN HC); apply surjective_pairing|].
  intros l1 st1 H. apply (C79_every_program C L _ _ _ _ HN HC) in H. rewrite H. split; reflexivity.
Qed.

(** Read off the description: after an error or a crash of Decrypt or Encrypt the stored record is as before. *)
Theorem C79_failed_call_keeps_the_record : forall C st c a st', call_fate C st c a st' ->
  match a with AMessage (Ok _) | APlain (Ok _) | AProcessed | ADistribution (Ok _) => True | _ => st' = st end.
Proof.
  intros C st c a st' H. destruct c as [pt g|m|d|g], a as [o|o| |o]; try (destruct H; fail); cbn [call_fate] in H.
  - destruct H; exact I || reflexivity.
  - destruct H as [| | | | | |r m b s af k s' o H1 H2 H3 H4 H5|]; try reflexivity; try exact I. destruct o as [pt|e|]; [exact I|reflexivity|reflexivity].
  - exact I.
  - destruct H; exact I || reflexivity.
Qed.

(** Cases met: a new key, a received one, a read message, its repetition, a forged one, an unknown id, a ragged and a short one, an empty record. *)
Definition ex_forged : skm := {| km_id := km_id (ex_m 1); km_iter := km_iter (ex_m 1); km_ct := Some [x00]; km_version := 3; km_sig := km_sig (ex_m 1) |}.
Definition ex_other : skm := {| km_id := 7; km_iter := 0; km_ct := Some [x00]; km_version := 3; km_sig := None |}.
Definition ex_signed (iter : N) (body : bytes) : skm :=
  match new_sender_key_message toy (dm_id ex_dist) iter body (Some (clamp (to_arr 32 [x21]))) [] with (Ok m, _) => m | _ => no_skm end.
Definition ex_program : list gcall :=
  [CProcess ex_dist; CDecrypt (ex_m 1); CDecrypt (ex_m 0); CDecrypt (ex_m 0); CDecrypt ex_forged; CDecrypt ex_other; CDecrypt (ex_signed 2 [x01]); CDecrypt ex_ragged;
   CDecrypt (ex_signed 2003 (repeat x00 16)); CDecrypt (ex_signed 2 (repeat xff 16)); CCreate []].
Example C79_example : Forall call_ok ex_program /\
  (exists st', program_fate toy None ex_program
    [AProcessed; APlain (Ok [x62]); APlain (Ok [x61]); APlain (Err EGroupOldCounter); APlain (Err EVerification); APlain (Err ENoSenderKeyForId);
     APlain (Err ECipherTooShort); APlain (Err EGroupOldCounter); APlain (Err EOver2000); APlain (Err EPadTooLong);
     ADistribution (Ok (match snd (gplay toy [CProcess ex_dist; CDecrypt (ex_m 1)] None) with Some (s :: _) => skd_of_state s | _ => ex_dist end))] st') /\
  program_fate toy (Some []) [CEncrypt [x61] []; CDecrypt (ex_m 0); CCreate []] [AMessage (Err ENoSenderKeys); APlain (Err ENoSenderKey); ADistribution (Err ERand)] (Some []) /\
  program_fate toy None [CEncrypt [x61] []; CDecrypt (ex_m 0); CCreate [None]] [AMessage Panic; APlain Panic; ADistribution (Err ERand)] None.
Proof.
  assert (A : Forall call_ok ex_program) by (repeat (constructor; [first [exact I|vm_compute; reflexivity]|]); constructor).
  split; [exact A|]. split; [|split].
  - exists (snd (gplay toy ex_program None)). apply (C79_every_program toy toy_laws None _ _ _ (or_introl eq_refl) A).
    assert (E : fst (gplay toy ex_program None) = [AProcessed; APlain (Ok [x62]); APlain (Ok [x61]); APlain (Err EGroupOldCounter); APlain (Err EVerification); APlain (Err ENoSenderKeyForId);
     APlain (Err ECipherTooShort); APlain (Err EGroupOldCounter); APlain (Err EOver2000); APlain (Err EPadTooLong);
     ADistribution (Ok (match snd (gplay toy [CProcess ex_dist; CDecrypt (ex_m 1)] None) with Some (s :: _) => skd_of_state s | _ => ex_dist end))]) by (vm_compute; reflexivity).
    rewrite <- E. apply surjective_pairing.
  - apply (C79_every_program toy toy_laws (Some []) _ _ _ (or_intror eq_refl)); [repeat constructor|vm_compute; reflexivity].
  - apply (C79_every_program toy toy_laws None _ _ _ (or_introl eq_refl)); [repeat constructor|vm_compute; reflexivity].
Qed.

Print Assumptions C79_every_program.
Print Assumptions C79_every_call.
Print Assumptions C79_one_outcome.
Print Assumptions C79_failed_call_keeps_the_record.
