(** PropertiesQuiet.v: the stores and the lengths of the packets tell nothing of the texts but their numbers of blocks (C89). The vocabulary is in QuietSpec.v:
    [fine] (an outcome that is a success), [alike], [alike_first], [alike_group] (messages that differ only in their contents), [same_readers],
    [after_process], [twin_programs] and [twin_gprograms] (programs that differ only in texts), [on_wire], [blocks_for], [same_envelope]; [run_program] and [call_alone]
    are those of SessionCallSpec.v, [gplay] and [gcall_run] those of GroupStoreSpec.v. *)
From Coq Require Import String List Arith Lia.
From Verif Require Import Base Labels Crypto Ecc Keys Messages SessionState SessionRecord SessionBuilder SessionCipher Address World Group ConvSpec ThreadSpec SessionCallSpec
  GroupSpec GroupStoreSpec QuietSpec QuietProofs Toy ToySession PropertiesMore.
Import ListNotations.
Local Open Scope list_scope.

(** Two encryptions that succeed leave the same stores, whatever the two texts are. *)
Theorem C89_encrypt : forall C a t1 t2 w c1 w1 c2 w2, w_encrypt C a t1 w = (Ok c1, w1) -> w_encrypt C a t2 w = (Ok c2, w2) -> w1 = w2.
Proof. exact encrypt_alike. Qed.

(** The two packets are of one kind and differ only in the body and the MAC. *)
Theorem C89_envelope : forall C a t1 t2 w c1 w1 c2 w2, w_encrypt C a t1 w = (Ok c1, w1) -> w_encrypt C a t2 w = (Ok c2, w2) -> same_envelope c1 c2.
Proof. exact envelopes. Qed.

(** Two decryptions of messages that differ only in their contents, each read by the same sessions (or where there is one session only), leave the same stores if they succeed, and draw the
    same random bytes. *)
Theorem C89_decrypt : forall C a m1 m2 g w x1 w1 g1 x2 w2 g2, alike m1 m2 -> same_readers C (v_load (World.view_of w a)) m1 m2 ->
  w_decrypt C a m1 g w = (Ok x1, w1, g1) -> w_decrypt C a m2 g w = (Ok x2, w2, g2) -> w1 = w2 /\ g1 = g2.
Proof. exact decrypt_alike. Qed.
Theorem C89_decrypt_message : forall C a p1 p2 g w x1 w1 g1 x2 w2 g2, alike_first p1 p2 ->
  same_readers C (after_process C (World.view_of w a) p1) (pm_message p1) (pm_message p2) ->
  w_decrypt_message C a p1 g w = (Ok x1, w1, g1) -> w_decrypt_message C a p2 g w = (Ok x2, w2, g2) -> w1 = w2 /\ g1 = g2.
Proof. exact message_alike. Qed.
(** Whole programs of session calls. *)
Theorem C89_programs : forall C w l1 l2, twin_programs C w l1 l2 -> snd (run_program C l1 w) = snd (run_program C l2 w).
Proof. exact twin_programs_same. Qed.

(** The group cipher. *)
Theorem C89_group_encrypt : forall C t1 g1 t2 g2 st, fine (fst (gw_encrypt C t1 g1 st)) -> fine (fst (gw_encrypt C t2 g2 st)) ->
  snd (gw_encrypt C t1 g1 st) = snd (gw_encrypt C t2 g2 st).
Proof. exact group_encrypt_alike. Qed.
Theorem C89_group_envelope : forall C t1 g1 t2 g2 st m1 m2, fst (gw_encrypt C t1 g1 st) = Ok m1 -> fst (gw_encrypt C t2 g2 st) = Ok m2 ->
  km_id m1 = km_id m2 /\ km_iter m1 = km_iter m2 /\ km_version m1 = km_version m2.
Proof. exact group_envelopes. Qed.
Theorem C89_group_decrypt : forall C m1 m2 st, alike_group m1 m2 -> fine (fst (gw_decrypt C m1 st)) -> fine (fst (gw_decrypt C m2 st)) ->
  snd (gw_decrypt C m1 st) = snd (gw_decrypt C m2 st).
Proof. exact group_decrypt_alike. Qed.
Theorem C89_group_programs : forall C st l1 l2, twin_gprograms C st l1 l2 -> snd (gplay C l1 st) = snd (gplay C l2 st).
Proof. exact twin_gprograms_same. Qed.

(** Two packets encrypted in the same state are of one length exactly if their texts are of as many blocks. *)
Theorem C89_packet_length : forall C, crypto_laws C -> forall a t1 t2 w c1 w1 c2 w2 k1 k2,
  w_encrypt C a t1 w = (Ok c1, w1) -> w_encrypt C a t2 w = (Ok c2, w2) -> pack c1 = Ok k1 -> pack c2 = Ok k2 ->
  (length (on_wire k1) = length (on_wire k2) <-> blocks_for (length t1) = blocks_for (length t2)).
Proof. intros C L. exact (packet_length C L). Qed.
Theorem C89_group_length : forall C, crypto_laws C -> forall t1 g1 t2 g2 st m1 m2,
  fst (gw_encrypt C t1 g1 st) = Ok m1 -> fst (gw_encrypt C t2 g2 st) = Ok m2 ->
  (length (skm_signed m1) = length (skm_signed m2) <-> blocks_for (length t1) = blocks_for (length t2)).
Proof. intros C L. exact (group_length C L). Qed.

(** Lengths that differ within a block are not told apart, and lengths in two blocks are. *)
Theorem C89_blocks : forall n m, blocks_for n = blocks_for m <-> exists k, 16 * k <= n < 16 * k + 16 /\ 16 * k <= m < 16 * k + 16.
Proof.
  intros n m. unfold blocks_for. assert (Dn := Nat.div_mod n 16 ltac:(discriminate)). assert (Bn := Nat.mod_upper_bound n 16 ltac:(discriminate)).
  assert (Dm := Nat.div_mod m 16 ltac:(discriminate)). assert (Bm := Nat.mod_upper_bound m 16 ltac:(discriminate)). split.
  - intros H. exists (n / 16). lia.
  - intros (k & Hn & Hm). assert (n / 16 = k) by (symmetry; apply (Nat.div_unique n 16 k (n - 16 * k)); lia).
    assert (m / 16 = k) by (symmetry; apply (Nat.div_unique m 16 k (m - 16 * k)); lia). lia.
Qed.

(** * A concrete run: Alice writes "hello" or "adieu" in a first message, and Bob reads one or the other *)

Definition other_send : res ct_msg * world := Eval vm_compute in w_encrypt toy bob_addr (str "adieu") alice1.
Definition other_msg : pk_msg := Eval vm_compute in the_pk (fst other_send).
Definition other_recv := Eval vm_compute in w_decrypt_message toy alice_addr other_msg [tseed x21] bob0.

Example C89_example_send : fst a_send1 = fst (w_encrypt toy bob_addr (str "hello") alice1) /\ fst other_send = fst (w_encrypt toy bob_addr (str "adieu") alice1) /\
  fine (fst a_send1) /\ fine (fst other_send) /\ fst a_send1 <> fst other_send.
Proof.
  split; [vm_compute; reflexivity|]. split; [vm_compute; reflexivity|]. split; [eexists; unfold a_send1; reflexivity|]. split; [eexists; unfold other_send; reflexivity|].
  intros H. apply (f_equal (fun o => match o with Ok (CPreKey p) => pk_message (pm_struct p) | _ => None end)) in H. vm_compute in H. discriminate H.
Qed.

Example C89_example_alike : alike_first msg1 other_msg.
Proof. vm_compute. repeat split. Qed.

Example C89_example_receive : fst (fst (w_decrypt_message toy alice_addr msg1 [tseed x21] bob0)) = fst (fst b_recv1) /\ fine (fst (fst b_recv1)) /\
  fst (fst (w_decrypt_message toy alice_addr other_msg [tseed x21] bob0)) = fst (fst other_recv) /\ fine (fst (fst other_recv)) /\
  same_readers toy (after_process toy (World.view_of bob0 alice_addr) msg1) (pm_message msg1) (pm_message other_msg).
Proof.
  split; [vm_compute; reflexivity|]. split; [eexists; unfold b_recv1; reflexivity|]. split; [vm_compute; reflexivity|]. split; [eexists; unfold other_recv; reflexivity|].
  left. vm_compute. reflexivity.
Qed.

(** A whole program of Alice's: two letters, with two pairs of texts. *)
Definition letters (t1 t2 : bytes) : list (address * call) := [(bob_addr, DoEncrypt t1); (bob_addr, DoEncrypt t2)].
Example C89_example_programs : twin_programs toy alice1 (letters (str "hello") (str "again")) (letters (str "adieu") (str "a text of more than one block")).
Proof.
  apply twin_next; [apply twin_encrypt; [exists (CPreKey msg1)|exists (CPreKey other_msg)]; vm_compute; reflexivity|].
  apply twin_next; [|apply twin_end]. apply twin_encrypt; vm_compute; eexists; reflexivity.
Qed.

(** Fifteen bytes and five are not told apart; sixteen are. *)
Definition wire_length (t : bytes) : nat :=
  match fst (w_encrypt toy bob_addr t alice1) with Ok c => match pack c with Ok k => length (on_wire k) | _ => 0 end | _ => 0 end.
Example C89_example_length : wire_length (str "hello") = wire_length (repeat x61 15) /\ wire_length (repeat x61 16) = (wire_length (str "hello") + 16)%nat.
Proof. vm_compute. split; reflexivity. Qed.

(** Groups: after one CreateSession, two texts encrypted. *)
Definition toy_group : option grecord := Eval vm_compute in snd (gw_create toy [Some [x21]; Some [x01; x02]; Some [x41]] None).
Example C89_example_group : fine (fst (gw_encrypt toy (str "hello") [] toy_group)) /\ fine (fst (gw_encrypt toy (str "adieu") [] toy_group)) /\
  fst (gw_encrypt toy (str "hello") [] toy_group) <> fst (gw_encrypt toy (str "adieu") [] toy_group).
Proof.
  split; [vm_compute; eexists; reflexivity|]. split; [vm_compute; eexists; reflexivity|].
  intros H. apply (f_equal (fun o => match o with Ok m => km_ct m | _ => None end)) in H. vm_compute in H. discriminate H.
Qed.
Example C89_example_group_programs : twin_gprograms toy toy_group [CEncrypt (str "hello") []; CEncrypt (str "again") []] [CEncrypt (str "adieu") []; CEncrypt (str "b") []].
Proof.
  apply gtwin_next; [apply gtwin_encrypt; vm_compute; eexists; reflexivity|].
  apply gtwin_next; [apply gtwin_encrypt; vm_compute; eexists; reflexivity|apply gtwin_end].
Qed.

Print Assumptions C89_encrypt.
Print Assumptions C89_envelope.
Print Assumptions C89_group_envelope.
Print Assumptions C89_decrypt.
Print Assumptions C89_decrypt_message.
Print Assumptions C89_programs.
Print Assumptions C89_group_encrypt.
Print Assumptions C89_group_decrypt.
Print Assumptions C89_group_programs.
Print Assumptions C89_packet_length.
Print Assumptions C89_group_length.
Print Assumptions C89_blocks.
