(** PropertiesGroupCut.v: C82, members of groups talking to each other while calls die midway. The vocabulary is in GroupCutSpec.v: [gxrun] (the code run on a
    schedule in which calls may die after their first writes), [gxspec] (what must come out), [gxprescribed], [no_forgery], [gx_used], [gx_returned]. *)
From Verif Require Import Base Labels Crypto Bytehelper Ecc Cbc Messages SessionState Group Address GroupSpec GroupStoreSpec GroupConvSpec GroupThreadSpec GroupCutSpec
  GroupProofs GroupProofs2 GroupConvProofs GroupCutProofs Toy ToySession PropertiesGroupConv.
From Coq Require Import Lia ZifyBool ZifyN ZifyNat.

(** ** C82 *)

(** Any number of members and groups, any schedule as in C66, any call of which may die after any number of its writes: every call that returns has the outcome
    the reference prescribes, and a Decrypt that dies has stored the record exactly when the reference says so, up to the first injected message that is accepted. *)
Theorem C82_group_conversation_with_crashes : forall C, crypto_laws C -> forall addr, (forall i j, addr i = addr j -> i = j) -> forall evs,
  (N.of_nat (sends_in (map gevent_of evs)) < 4294967296)%N -> (joins_in (map gevent_of evs) < 2000)%nat -> Forall (proper C) (map gevent_of evs) ->
  gxprescribed (gxrun C addr evs quiet) (gxspec evs gx_start).
Proof.
  intros C L addr HA evs H1 H2 H3. apply (gx_conversation C L addr HA evs 0 0 quiet quiet gx_start); auto.
  - exact (inv_quiet C addr).
  - apply gx_quiet.
  - intros c. apply le_n.
Qed.

(** No member uses up a message twice: once its plaintext was returned, or lost in a death after the record was stored, it is never returned (again). *)
Theorem C82_at_most_once : forall C, crypto_laws C -> forall addr, (forall i j, addr i = addr j -> i = j) -> forall evs,
  (N.of_nat (sends_in (map gevent_of evs)) < 4294967296)%N -> (joins_in (map gevent_of evs) < 2000)%nat -> Forall (proper C) (map gevent_of evs) ->
  no_forgery (gxrun C addr evs quiet) (gxspec evs gx_start) ->
  NoDup (gx_used C addr evs quiet).
Proof.
  intros C L addr HA evs H1 H2 H3 H4. apply (gx_once C L addr HA evs 0 0 quiet quiet gx_start []); auto.
  - exact (inv_quiet C addr).
  - apply gx_quiet.
  - intros c. apply le_n.
  - apply gx_wired.
  - constructor.
Qed.

(** Calls that die before they write anything change nothing: every call that returns gives exactly the same answer without them. *)
Theorem C82_early_crash_harmless : forall C addr evs n,
  gx_returned (gxrun C addr evs n) = gx_returned (gxrun C addr (filter (fun x => negb (gx_early x)) evs) n).
Proof. intros C addr evs n. apply early_harmless. split; [|split]; reflexivity. Qed.

(** Member 0's first Create dies after storing its record, and a second one hands out the same sender key; its second Encrypt dies after storing. Member 1's
    first Process dies before storing. The first message is lost in a Decrypt that dies late; the third (the second on the wire) is read at the second attempt. *)
Definition ex_crashes : list gxevent :=
  [GCut (MCreate ex_a ex_g1) 1; GDo (MCreate ex_a ex_g2); GCut (MJoin ex_a 1 0) 0; GDo (MJoin ex_a 1 0); GCut (MJoin ex_a 2 0) 1;
   GDo (MSend ex_a [x61] []); GCut (MSend ex_a [x62] []) 1; GCut (MSend ex_a [x64] []) 0; GDo (MSend ex_a [x63] []);
   GCut (MDeliver ex_a 1 0) 1; GDo (MDeliver ex_a 1 0); GCut (MDeliver ex_a 1 1) 0; GDo (MDeliver ex_a 1 1); GDo (MDeliver ex_a 1 2);
   GDo (MDeliver ex_a 2 1); GCut (MInject ex_a 2 [x33; x00]) 1; GDo (MDeliver ex_a 2 0)].

Example C82_hypotheses_met :
  (N.of_nat (sends_in (map gevent_of ex_crashes)) < 4294967296)%N /\ (joins_in (map gevent_of ex_crashes) < 2000)%nat /\ Forall (proper toy) (map gevent_of ex_crashes).
Proof.
  split; [vm_compute; reflexivity|]. split; [apply Nat.ltb_lt; reflexivity|].
  cbn [map gevent_of ex_crashes]. repeat (constructor; [first [exact I | vm_compute; reflexivity | do 2 eexists; vm_compute; reflexivity]|]). constructor.
Qed.
Definition ex_crash_run : list moutcome := [MDied true; MReturned (Err EGroupOldCounter); MDied false; MReturned (Ok [x63]); MReturned (Ok [x63]); MDied false; MReturned (Ok [x61])].
Definition ex_crash_spec : list gxexpected := [XDied true; XE ERefused; XDied false; XE (EPlain [x63]); XE (EPlain [x63]); XInjected; XE (EPlain [x61])].
Example C82_run : gxrun toy ex_addr ex_crashes quiet = ex_crash_run.
Proof. vm_compute. reflexivity. Qed.
Example C82_spec : gxspec ex_crashes gx_start = ex_crash_spec.
Proof. vm_compute. reflexivity. Qed.
Example C82_no_forgery : no_forgery (gxrun toy ex_addr ex_crashes quiet) (gxspec ex_crashes gx_start).
Proof. rewrite C82_run, C82_spec. unfold ex_crash_run, ex_crash_spec, no_forgery. repeat (constructor; [split; intros D; try discriminate D; intros; discriminate|]). constructor. Qed.
Example C82_used : gx_used toy ex_addr ex_crashes quiet = [(ex_a, 1%nat, 0%nat); (ex_a, 1%nat, 1%nat); (ex_a, 2%nat, 1%nat); (ex_a, 2%nat, 0%nat)].
Proof. vm_compute. reflexivity. Qed.

Print Assumptions C82_group_conversation_with_crashes.
Print Assumptions C82_at_most_once.
Print Assumptions C82_early_crash_harmless.
