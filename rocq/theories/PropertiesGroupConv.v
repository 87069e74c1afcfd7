(** PropertiesGroupConv.v: C66, members of groups talking to each other. *)
From Verif Require Import Base Labels Crypto Bytehelper Ecc Cbc Messages SessionState Group Address GroupSpec GroupConvSpec GroupProofs GroupProofs2
  GroupConvProofs Toy ToySession.
From Coq Require Import Lia ZifyBool ZifyN ZifyNat.

(** ** C66 *)

(** Any number of members, any number of groups, each member with its own store, all empty at first. Under every
    schedule of Create, distribution, Encrypt, delivery (any loss, duplication, delay, reordering, per recipient) and
    injection of any bytes, every call has the outcome that the reference [rspec] prescribes, up to the first
    injected message that is accepted. *)
Theorem C66_group_conversation : forall C, crypto_laws C -> forall addr, (forall i j, addr i = addr j -> i = j) -> forall evs,
  (N.of_nat (sends_in evs) < 4294967296)%N -> (joins_in evs < 2000)%nat -> Forall (proper C) evs ->
  as_prescribed (mrun C addr evs quiet) (rspec evs (fun _ => fresh_chan)).
Proof.
  intros C L addr HA evs H1 H2 H3. apply (conversation C L addr HA evs 0 0 quiet (fun _ => fresh_chan)); auto.
  - apply inv_quiet.
  - intros c. apply le_n.
Qed.

(** In particular, when every injected message is refused, all the rest is as prescribed. *)
Corollary C66_refused_injections_disturb_nothing : forall C, crypto_laws C -> forall addr, (forall i j, addr i = addr j -> i = j) -> forall evs,
  (N.of_nat (sends_in evs) < 4294967296)%N -> (joins_in evs < 2000)%nat -> Forall (proper C) evs ->
  Forall2 (fun o x => x = EInjected -> forall pt, o <> Ok pt) (mrun C addr evs quiet) (rspec evs (fun _ => fresh_chan)) ->
  Forall2 meets (mrun C addr evs quiet) (rspec evs (fun _ => fresh_chan)).
Proof.
  intros C L addr HA evs H1 H2 H3. pose proof (C66_group_conversation C L addr HA evs H1 H2 H3) as H.
  induction H as [|o x os xs H _ IH|pt os xs]; intros HF; [constructor| |].
  - inversion HF; subst. constructor; [exact H|apply IH; assumption].
  - inversion HF as [|a b c d E]; subst. exfalso. exact (E eq_refl pt eq_refl).
Qed.

(** Three members, two groups: member 0 sends in both, member 2 in the first. Member 1 joins after one message and gets the
    rest out of order and twice; member 2 has not joined the second group; the sender cannot read its own message; bytes
    injected anywhere are refused. *)
Definition ex_addr (i : nat) : address := {| a_name := [x6d]; a_device := N.of_nat i |}.
Definition ex_a : channel := ([x67], 0%nat).
Definition ex_b : channel := ([x68], 0%nat).
Definition ex_c : channel := ([x67], 2%nat).
Definition ex_g1 : rng := [Some [x21]; Some [x01; x02]; Some [x41]].
Definition ex_g2 : rng := [Some [x22]; Some [x05; x02]; Some [x42]].
Definition ex_schedule : list mevent :=
  [MCreate ex_a ex_g1; MJoin ex_a 2 0; MSend ex_a [x61] []; MCreate ex_a ex_g1; MJoin ex_a 1 1; MJoin ex_a 2 1;
   MSend ex_a [x62] []; MSend ex_a [x63] []; MCreate ex_c ex_g2; MSend ex_c [x64] []; MCreate ex_b ex_g2; MSend ex_b [x65] [];
   MDeliver ex_a 1 2; MDeliver ex_a 1 1; MDeliver ex_a 1 1; MDeliver ex_a 1 0; MInject ex_a 1 [x33; x00];
   MDeliver ex_a 2 0; MDeliver ex_a 2 2; MDeliver ex_a 2 1; MDeliver ex_a 0 0; MDeliver ex_b 2 0; MDeliver ex_c 0 0; MJoin ex_c 0 0; MDeliver ex_c 0 0].

Example C66_hypotheses_met :
  (N.of_nat (sends_in ex_schedule) < 4294967296)%N /\ (joins_in ex_schedule < 2000)%nat /\ Forall (proper toy) ex_schedule /\
  mrun toy ex_addr ex_schedule quiet =
    [Ok [x63]; Ok [x62]; Err EGroupOldCounter; Err EGroupOldCounter; Err EInputTooSmall;
     Ok [x61]; Ok [x63]; Ok [x62]; Err EGroupOldCounter; Panic; Panic; Ok [x64]] /\
  rspec ex_schedule (fun _ => fresh_chan) =
    [EPlain [x63]; EPlain [x62]; ERefused; ERefused; EInjected;
     EPlain [x61]; EPlain [x63]; EPlain [x62]; ERefused; ECrash; ECrash; EPlain [x64]].
Proof.
  split; [vm_compute; reflexivity|]. split; [apply Nat.ltb_lt; reflexivity|]. split.
  - repeat (constructor; [first [exact I | vm_compute; reflexivity | do 2 eexists; vm_compute; reflexivity]|]). constructor.
  - split; vm_compute; reflexivity.
Qed.

(** A member who joined when the sender was at some iteration never reads an earlier message, whatever happens later. *)
Theorem C66_no_reading_before_joining : forall C, crypto_laws C -> forall r0 d r1 es r2 m o m' r3 es3,
  greachable C g_no_wrap r0 -> (N.of_nat (length r0) < 2000)%N -> (forall s, In s r0 -> gs_id s <> dm_id d) -> (dm_iter d < 4294967296)%N ->
  group_process (Some r0) d = (r1, es) -> gsteps C g_no_wrap r1 r2 ->
  km_id m = dm_id d -> (km_iter m < dm_iter d)%N ->
  group_decrypt C (Some r2) m = (o, m', r3, es3) -> (forall pt, o <> Ok pt) /\ es3 = [].
Proof.
  intros C L r0 d r1 es r2 m o m' r3 es3 HR Hl HN Hi HP HS Hid Hit HD.
  assert (W := reachable_gwf C L _ HR).
  unfold group_process, g_add_state in HP. apply (f_equal fst) in HP. cbn [fst] in HP.
  match type of HP with context [max_group_keys <? ?n] => assert (E : (max_group_keys <? n)%nat = false) end.
  { apply Nat.ltb_ge. rewrite app_length. cbn [length]. unfold max_group_keys. lia. }
  rewrite E in HP. clear E.
  set (s0 := new_gstate (dm_id d) (dm_iter d) (match dm_chain d with Some c => c | None => [] end) {| kp_pub := dm_sigkey d; kp_priv := None |}) in HP.
  assert (W1 : Forall gwf r1).
  { rewrite <- HP. apply Forall_app. split; [exact W|]. constructor; [apply new_gstate_wf; exact Hi|constructor]. }
  assert (HB : by_id (km_id m) r1 = Some s0).
  { rewrite <- HP, Hid. clear - HN. induction r0 as [|x r IH].
    - cbn [by_id find app]. unfold by_id. cbn [find app]. change (gs_id s0) with (dm_id d). rewrite N.eqb_refl. reflexivity.
    - unfold by_id. cbn [find app]. destruct (N.eqb_spec (gs_id x) (dm_id d)) as [E|_]; [destruct (HN x (or_introl eq_refl) E)|].
      apply IH. intros s Hs. apply HN. right. exact Hs. }
  assert (HSp : spent (km_iter m) s0). { split; [exact Hit|intros []]. }
  destruct (steps_wf C L _ _ HS W1) as [W2 K2]. destruct (K2 _ _ HB) as (s2 & HB2 & _ & KS). specialize (KS _ HSp).
  destruct r3 as [r3|].
  2:{ exfalso. unfold group_decrypt in HD. destruct r2 as [|x r2]; [discriminate HB2|].
      rewrite by_id_spec, HB2 in HD. destruct (negb _); [discriminate HD|]. rewrite (spent_blocks C _ _ KS) in HD. discriminate HD. }
  apply (group_decrypt_cases C) in HD. destruct HD as [(HF & _ & _ & E2)|(t & t' & ok2 & HB3 & _ & HG2 & _ & HO)]; [split; assumption|].
  assert (t = s2) by congruence. subst t. rewrite (spent_blocks C _ _ KS) in HG2. injection HG2 as <- <-.
  destruct HO as [(HF & E2)|(k2 & p2 & HE & _)]; [split; assumption|discriminate].
Qed.

(** The hypotheses hold when member 1 of the example joins: an empty record, the second distribution message (iteration 1). *)
Definition ex_late : skd := new_skd 33947137 1 (repeat x44 32) (zero_arr 32).
Example C66_joining_hypotheses_met : greachable toy g_no_wrap [] /\ (forall s, In s (@nil gstate) -> gs_id s <> dm_id ex_late) /\
  (dm_iter ex_late < 4294967296)%N /\
  (exists m, km_id m = dm_id ex_late /\ (km_iter m < dm_iter ex_late)%N) /\
  gsteps toy g_no_wrap (fst (group_process (Some []) ex_late)) (greload (fst (group_process (Some []) ex_late))).
Proof.
  split; [constructor|]. split; [intros s []|]. split; [reflexivity|]. split.
  - exists {| km_id := 33947137; km_iter := 0; km_ct := None; km_version := 3; km_sig := None |}. split; reflexivity.
  - eapply GH_step; [apply GS_reload|apply GH_none].
Qed.

Print Assumptions C66_group_conversation.
Print Assumptions C66_refused_injections_disturb_nothing.
Print Assumptions C66_no_reading_before_joining.
