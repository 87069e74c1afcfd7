(** PropertiesJoint.v: groups set up over pairwise sessions (C86). The vocabulary is in JointSpec.v: [framing] (how the application writes texts and
    distribution messages into pairwise plaintexts), [jevent] (what may happen), [jrun] (the code run on any such schedule, each party with one set of stores),
    [jspec] and [jconforms] (what must come out), [jfair] (hypotheses), [contents_of], [heard], [hears], [jtame]; [well_cast] is that of ManySpec.v,
    [credulous], [first_use] and [knows_no_other] those of TrustSpec.v, [as_prescribed] that of GroupConvSpec.v. *)
From Coq Require Import String List Lia.
From Verif Require Import Base Labels Crypto Bytehelper Ecc Keys X3dh Messages SessionState SessionRecord SessionBuilder
  SessionCipher Group Address World GroupSpec ConvSpec ConvProofs3 ManySpec TrustSpec GroupConvSpec JointSpec JointProofs Toy ToySession PropertiesConv PropertiesMany PropertiesTrust.
Import ListNotations.
Local Open Scope list_scope.

(** * C86 *)

(** Every ProcessBundle succeeds; every delivery in a conversation gives the text that was sent, or makes the receiver a member of the sender's group, or is
    refused, as ConvSpec.v prescribes; every delivery in a group gives what GroupConvSpec.v prescribes for members that joined when they read their
    invitations. *)
Theorem C86_groups_over_sessions : forall C, crypto_laws C -> forall F T n w evs, well_cast C T n (fun j => credulous (w j)) -> jfair C F T n evs ->
  (forall c p, (c < n)%nat -> first_use (w_policy (w (who T c p))) /\ knows_no_other (w (who T c p)) (address_in T c (other p)) (w (who T c (other p)))) ->
  jconforms (jrun C F T w (fun _ _ => []) quiet evs) (jspec T (fun _ => None) (fun _ => fresh_chan) evs).
Proof. exact joint_start. Qed.

(** The outcomes in the groups, on their own. *)
Theorem C86_group_outcomes : forall C, crypto_laws C -> forall F T n w evs, well_cast C T n (fun j => credulous (w j)) -> jfair C F T n evs ->
  (forall c p, (c < n)%nat -> first_use (w_policy (w (who T c p))) /\ knows_no_other (w (who T c p)) (address_in T c (other p)) (w (who T c (other p)))) ->
  let x := jspec T (fun _ => None) (fun _ => fresh_chan) evs in jtame x ->
  as_prescribed (heard (jrun C F T w (fun _ _ => []) quiet evs)) (hears x).
Proof. intros C L F T n w evs HW HF HU x HT. apply jconforms_heard_all; [exact (joint_start C L F T n w evs HW HF HU)|exact HT]. Qed.

(** No text and no invitation is read twice. *)
Theorem C86_at_most_once : forall C, crypto_laws C -> forall F T n w evs, well_cast C T n (fun j => credulous (w j)) -> jfair C F T n evs ->
  (forall c p, (c < n)%nat -> first_use (w_policy (w (who T c p))) /\ knows_no_other (w (who T c p)) (address_in T c (other p)) (w (who T c (other p)))) ->
  let x := jspec T (fun _ => None) (fun _ => fresh_chan) evs in jtame x -> ~ In EInjected (hears x) ->
  forall c, NoDup (contents_of c (jrun C F T w (fun _ _ => []) quiet evs)).
Proof.
  intros C L F T n w evs HW HF HU x HT HN c. rewrite (jconforms_contents c _ _ (joint_start C L F T n w evs HW HF HU) HT HN).
  apply reads_once_at; [reflexivity|]. rewrite <- (begun_pairs F). exact (proj1 (proj1 HF)).
Qed.

(** * A concrete run

    The parties and conversations of PropertiesMany.v, with trust on first use. The application writes a text as 0 and the text, an invitation as 1, the
    length of the group id in unary, the group id and the distribution message. *)

Fixpoint unary (n : nat) (rest : bytes) : bytes := match n with O => x00 :: rest | S k => x01 :: unary k rest end.
Fixpoint ununary (l : bytes) : option (nat * bytes) :=
  match l with
  | x00 :: rest => Some (O, rest)
  | x01 :: rest => match ununary rest with Some (k, r) => Some (S k, r) | None => None end
  | _ => None
  end.
Definition plain_wrap (x : content) : bytes := match x with Text t => x00 :: t | Invitation gid d => x01 :: unary (length gid) (gid ++ d) end.
Definition plain_unwrap (b : bytes) : option content :=
  match b with
  | x00 :: t => Some (Text t)
  | x01 :: r => match ununary r with Some (k, r') => Some (Invitation (firstn k r') (skipn k r')) | None => None end
  | _ => None
  end.
Lemma plain_ok : forall x, plain_unwrap (plain_wrap x) = Some x.
Proof.
  assert (H : forall k r, ununary (unary k r) = Some (k, r)) by (induction k as [|k IH]; intros r; [reflexivity|cbn; rewrite IH; reflexivity]).
  intros [t|gid d]; [reflexivity|]. cbn [plain_wrap plain_unwrap]. rewrite H, firstn_app, skipn_app, Nat.sub_diag, firstn_all, skipn_all. cbn [firstn skipn app]. rewrite app_nil_r. reflexivity.
Qed.
Definition plain_framing : framing := {| wrap := plain_wrap; unwrap := plain_unwrap; unwrap_wrap := plain_ok |}.

Definition joint_world (n : nat) : world := trusting test_store_policy (many_world n).
Definition jg0 : channel := (str "club", 0%nat).
Definition jg1 : channel := (str "club", 1%nat).
(** Party 0 opens a group and speaks in it before anybody has joined; it invites 1 in conversation 0 and, once 2 has called, 2 in conversation 2; 1 opens its
    own sender key for the group and invites 0. A second delivery of an invitation is refused; 2 hears a message before it has read its invitation, which
    ends in a nil dereference; everybody reads what was sent after the invitation was made. *)
Definition joint_evs : list jevent :=
  [JInvite 0 Alice (str "club") 0; JBegin 0 [tseed x11; tseed x12]; JGroup (MCreate jg0 [Some [x21]; Some [x01; x02]; Some [x41]]); JGroup (MSend jg0 (str "early") []);
   JGroup (MCreate jg0 [Some [x23]; Some [x09; x02]; Some [x43]]); JSay 0 Alice (str "hello"); JInvite 0 Alice (str "club") 1; JGroup (MSend jg0 (str "one") []); JDeliver 0 Bob 1 [tseed x21]; JDeliver 0 Bob 0 [tseed x22];
   JGroup (MDeliver jg0 1 1); JGroup (MDeliver jg0 1 0); JDeliver 0 Bob 1 [tseed x23]; JGroup (MCreate jg1 [Some [x22]; Some [x05; x02]; Some [x42]]);
   JInvite 0 Bob (str "club") 0; JDeliver 0 Alice 0 [tseed x24]; JGroup (MSend jg1 (str "two") []); JGroup (MDeliver jg1 0 0);
   JBegin 2 [tseed x17; tseed x18]; JSay 2 Alice (str "may I"); JDeliver 2 Bob 0 [tseed x25]; JInvite 2 Bob (str "club") 0; JGroup (MDeliver jg0 2 0);
   JDeliver 2 Alice 0 [tseed x26]; JGroup (MDeliver jg0 2 0); JGroup (MDeliver jg0 2 1)].

Example joint_cast_trust : forall c p, (c < 4)%nat ->
  first_use (w_policy (joint_world (who many_cast c p))) /\ knows_no_other (joint_world (who many_cast c p)) (address_in many_cast c (other p)) (joint_world (who many_cast c (other p))).
Proof. exact tofu_cast_trust. Qed.

Example joint_spec_run : jspec many_cast (fun _ => None) (fun _ => fresh_chan) joint_evs =
  [JBegins 0; JReads 0 Bob 1 (NInvite (str "club") 1); JReads 0 Bob 0 (NText (str "hello")); JHears (EPlain (str "one")); JHears ERefused; JRefuses 0 Bob 1;
   JReads 0 Alice 0 (NInvite (str "club") 0); JHears (EPlain (str "two")); JBegins 2; JReads 2 Bob 0 (NText (str "may I")); JHears ECrash;
   JReads 2 Alice 0 (NInvite (str "club") 0); JHears (EPlain (str "early")); JHears (EPlain (str "one"))].
Proof. vm_compute. reflexivity. Qed.

Example joint_fair : jfair toy plain_framing many_cast 4 joint_evs.
Proof.
  split; [|split; [|split; [vm_compute; reflexivity|split]]].
  - split; [cbn; repeat constructor; cbn; intuition discriminate|]. split; [repeat constructor; cbn; lia|].
    intros c g H. cbn in H.
    assert (G : forall s1 s2 r, exists eph ratchet, generate_key_pair toy (tseed s1 :: tseed s2 :: r) = (Ok eph, tseed s2 :: r) /\ generate_key_pair toy (tseed s2 :: r) = (Ok ratchet, r) /\
      ratchet = match fst (generate_key_pair toy [tseed s2]) with Ok p => p | _ => pair_of toy (zero_arr 32) end).
    { intros s1 s2 r. do 2 eexists. split; [reflexivity|]. split; reflexivity. }
    assert (FA : forall s2 c, In (c, s2) [(0, x12); (2, x18)]%nat ->
      fair toy (tkey x72) (match fst (generate_key_pair toy [tseed s2]) with Ok p => p | _ => pair_of toy (zero_arr 32) end) (talk_of c (pair_events plain_framing joint_evs))).
    { intros s2 d HI. cbn in HI. repeat (destruct HI as [HI|HI]; [injection HI as <- <-|]); [| |destruct HI];
        (split; [apply nodup_by; vm_compute; reflexivity|]; split; [|split; [reflexivity|]]).
      all: intros h Hh; vm_compute in Hh; repeat (destruct Hh as [Hh|Hh]; [rewrite <- Hh; first [reflexivity|vm_compute; discriminate]|]); destruct Hh. }
    repeat (destruct H as [H|H]; [first [discriminate H|injection H as <- <-]|]); [| |destruct H].
    + destruct (G x11 x12 []) as (e & r & G1 & G2 & G3). exists e, [tseed x12], r, []. split; [exact G1|]. split; [exact G2|]. rewrite G3. apply FA. cbn. auto.
    + destruct (G x17 x18 []) as (e & r & G1 & G2 & G3). exists e, [tseed x18], r, []. split; [exact G1|]. split; [exact G2|]. rewrite G3. apply FA. cbn. auto.
  - cbn [group_events joint_evs flat_map app]. repeat (constructor; [first [exact I | vm_compute; reflexivity | do 2 eexists; vm_compute; reflexivity]|]). constructor.
  - rewrite joint_spec_run. apply Nat.ltb_lt. reflexivity.
  - intros c p gid k b H HB. assert (E : gid = str "club") by (cbn in H; repeat (destruct H as [H|H]; [first [discriminate H|injection H; intros; subst; reflexivity]|]); destruct H).
    subst gid. cbn [plain_framing wrap plain_wrap]. change (length (str "club")) with 4%nat. cbn [unary length app str]. rewrite ?app_length. cbn. lia.
Qed.

Example joint_tame : jtame (jspec many_cast (fun _ => None) (fun _ => fresh_chan) joint_evs) /\ ~ In EInjected (hears (jspec many_cast (fun _ => None) (fun _ => fresh_chan) joint_evs)).
Proof.
  rewrite joint_spec_run. split; [intros c p i H|intros H]; vm_compute in H; repeat (destruct H as [H|H]; [discriminate H|]); destruct H.
Qed.

(** What the results show, without the bytes of the distribution messages. *)
Definition shown (y : jresult) : jresult := match y with JGot c p i (Ok (Some (Invitation gid _))) => JGot c p i (Ok (Some (Invitation gid []))) | z => z end.
Example joint_run : map shown (jrun toy plain_framing many_cast joint_world (fun _ _ => []) quiet joint_evs) =
  [JBegan 0 (Ok tt); JGot 0 Bob 1 (Ok (Some (Invitation (str "club") []))); JGot 0 Bob 0 (Ok (Some (Text (str "hello")))); JHeard (Ok (str "one")); JHeard (Err EGroupOldCounter);
   JGot 0 Bob 1 (Err ENoValidSessions); JGot 0 Alice 0 (Ok (Some (Invitation (str "club") []))); JHeard (Ok (str "two")); JBegan 2 (Ok tt); JGot 2 Bob 0 (Ok (Some (Text (str "may I"))));
   JHeard Panic; JGot 2 Alice 0 (Ok (Some (Invitation (str "club") []))); JHeard (Ok (str "early")); JHeard (Ok (str "one"))].
Proof. vm_compute. reflexivity. Qed.

Print Assumptions C86_groups_over_sessions.
Print Assumptions C86_group_outcomes.
Print Assumptions C86_at_most_once.
