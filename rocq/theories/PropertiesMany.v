(** PropertiesMany.v: any number of parties and conversations (C84). The vocabulary is in ManySpec.v: [cast] (who starts which conversation with whom, with what
    bundle), [nrun] (the code run on any interleaving of the conversations, each party with one set of stores), [nspec] and [nconforms] (each conversation on its
    own as ConvSpec.v prescribes), [well_cast] and [fair_all] (hypotheses), [results_of], [read_in] (the results of one conversation), [only] (its events),
    [ntame]; [conforms], [cspec], [start_view], [accepted] and [delivered] are those of ConvSpec.v. *)
From Verif Require Import Base Labels Crypto Ecc Keys X3dh Messages SessionState SessionRecord SessionBuilder
  SessionCipher Address World GroupSpec ConvSpec ConvProofs3 ManySpec ManyProofs Toy ToySession PropertiesConv.
From Coq Require Import String List Lia.
Import ListNotations.
Local Open Scope list_scope.

(** * C84 *)

(** Every ProcessBundle succeeds, every delivery gives what the reference prescribes for its conversation. *)
Theorem C84_many_conversations : forall C, crypto_laws C -> forall T n w evs, well_cast C T n w -> fair_all C T n evs ->
  nconforms (nrun C T w (fun _ _ => []) evs) (nspec (fun _ => None) evs).
Proof. exact many_start. Qed.

(** Seen from one conversation: its deliveries give what ConvSpec.v prescribes for two parties alone (C06), from its ProcessBundle on. *)
Theorem C84_each_conversation : forall C, crypto_laws C -> forall T n w evs, well_cast C T n w -> fair_all C T n evs ->
  ntame (nspec (fun _ => None) evs) -> forall c,
  conforms (results_of c (nrun C T w (fun _ _ => []) evs)) (cspec start_view (fun _ => []) (talk_of c (after_begin c evs))).
Proof.
  intros C L T n w evs HW HF HT c. rewrite <- nspec_start by exact (proj1 HF). apply nconforms_one; [exact (many_start C L T n w evs HW HF)|exact HT].
Qed.

(** Its deliveries return what they return when nothing of the other conversations happens. *)
Theorem C84_no_interference : forall C, crypto_laws C -> forall T n w evs, well_cast C T n w -> fair_all C T n evs ->
  ntame (nspec (fun _ => None) evs) -> forall c,
  read_in c (nrun C T w (fun _ _ => []) evs) = read_in c (nrun C T w (fun _ _ => []) (only c evs)).
Proof.
  intros C L T n w evs HW HF HT c. pose proof (C84_each_conversation C L T n w evs HW HF HT c) as H1.
  pose proof (C84_each_conversation C L T n w (only c evs) HW (only_fair _ _ _ _ _ HF) (only_tame _ _ (proj1 HF) HT) c) as H2. rewrite only_after in H2.
  assert (HN : forall p i, ~ In (p, i, Forgotten) (cspec start_view (fun _ => []) (talk_of c (after_begin c evs)))).
  { intros p i HI. rewrite <- nspec_start in HI by exact (proj1 HF). apply verdicts_in in HI. exact (HT _ _ _ HI). }
  unfold read_in. rewrite (conforms_read _ _ H1 HN), (conforms_read _ _ H2 HN). reflexivity.
Qed.

(** No message of any conversation is read twice. *)
Theorem C84_at_most_once : forall C, crypto_laws C -> forall T n w evs, well_cast C T n w -> fair_all C T n evs ->
  ntame (nspec (fun _ => None) evs) -> forall c, NoDup (accepted (results_of c (nrun C T w (fun _ _ => []) evs))).
Proof.
  intros C L T n w evs HW HF HT c. rewrite (conforms_accepted _ _ (C84_each_conversation C L T n w evs HW HF HT c)); [apply once_start|].
  intros p i HI. rewrite <- nspec_start in HI by exact (proj1 HF). apply verdicts_in in HI. exact (HT _ _ _ HI).
Qed.

(** If each conversation delivers in order, without gaps or repetitions, in whatever interleaving, every delivery returns the plaintext that was sent. *)
Theorem C84_in_order : forall C, crypto_laws C -> forall T n w evs, well_cast C T n w -> fair_all C T n evs ->
  (forall c p, let x := cspec start_view (fun _ => []) (talk_of c (after_begin c evs)) in delivered p x = seq 0 (length (delivered p x))) -> forall c,
  map (fun y => match y with (p, i, Ok pt) => (p, i, Plain pt) | (p, i, _) => (p, i, Refused) end) (results_of c (nrun C T w (fun _ _ => []) evs)) =
    cspec start_view (fun _ => []) (talk_of c (after_begin c evs)) /\
  Forall (fun y => exists pt, snd y = Ok pt) (results_of c (nrun C T w (fun _ _ => []) evs)).
Proof.
  intros C L T n w evs HW HF HD c. cbv zeta in HD.
  assert (HT : ntame (nspec (fun _ => None) evs)).
  { intros d p i HI. apply verdicts_in in HI. rewrite nspec_start in HI by exact (proj1 HF).
    destruct (proj1 (Forall_forall _ _) (fifo_start _ (HD d)) _ HI) as [pt D]. discriminate D. }
  pose proof (fifo_start _ (HD c)) as HA. rewrite (conforms_plain _ _ (C84_each_conversation C L T n w evs HW HF HT c) HA).
  clear -HA. induction HA as [|[[p j] v] l [pt E] HA [IH1 IH2]]; [split; [reflexivity|constructor]|].
  cbn [snd] in E. subst v. cbn [map]. split; [f_equal; exact IH1|constructor; [exists pt; reflexivity|exact IH2]].
Qed.

(** * A concrete run

    Four parties; 0 starts with 1, 1 with 2, 2 with 0 and 3 with 1, so that party 1 hands out two bundles, with the one-time prekeys 7 and 8. *)

Definition many_id (n : nat) : byte := match n with O => xa0 | S O => xb0 | S (S O) => xc0 | _ => xd0 end.
Definition many_world (n : nat) : world :=
  {| w_sessions := fun _ => None; w_saved := fun _ => None;
     w_prekeys := fun i => if (i =? 7)%N then Some (pair_of toy (tkey x71)) else if (i =? 8)%N then Some (pair_of toy (tkey x73)) else None;
     w_signed := fun i => if (i =? 9)%N then Some (pair_of toy (tkey x72)) else None;
     w_self := tid (many_id n); w_reg := 42%N; w_policy := fun _ _ _ => true |}.
Definition many_cast : cast :=
  {| who := fun c p => match c, p with
                       | 0, Alice => 0 | 0, Bob => 1 | 1, Alice => 1 | 1, Bob => 2 | 2, Alice => 2 | 2, Bob => 0 | _, Alice => 3 | _, Bob => 1
                       end%nat;
     name := fun n => {| a_name := repeat x61 n; a_device := 1%N |};
     kit := fun c => let b := many_id (match c with 0 => 1 | 1 => 2 | 2 => 0 | _ => 1 end)%nat in
       {| b_reg := 42%N; b_prekey_id := Some (ou_some (match c with 3%nat => 8%N | _ => 7%N end)); b_prekey := Some (tkey (match c with 3%nat => x73 | _ => x71 end));
          b_signed_id := 9%N; b_signed := Some (tkey x72); b_sig := xed_sign toy (tkey b) (ser_pub (tkey x72)) (zero_arr 64); b_identity := tkey b |};
     pid := fun c => match c with 3%nat => 8%N | _ => 7%N end; sid := fun _ => 9%N; skey := fun _ => tkey x72;
     otkey := fun c => tkey (match c with 3%nat => x73 | _ => x71 end) |}.

Example many_well_cast : well_cast toy many_cast 4 many_world.
Proof.
  constructor.
  - intros i j H. apply (f_equal (fun a => length (a_name a))) in H. cbn [name many_cast a_name] in H. rewrite !repeat_length in H. exact H.
  - intros c Hc. destruct c as [|[|[|[|c]]]]; [discriminate|discriminate|discriminate|discriminate|lia].
  - intros c d p q Hc Hd. destruct c as [|[|[|[|c]]]]; [| | | |lia]; (destruct d as [|[|[|[|d]]]]; [| | | |lia]); destruct p, q; cbn; intros H1 H2;
      first [reflexivity|discriminate H1|discriminate H2].
  - intros c d Hc Hd. destruct c as [|[|[|[|c]]]]; [| | | |lia]; (destruct d as [|[|[|[|d]]]]; [| | | |lia]); cbn; intros H1 H2; first [reflexivity|discriminate H1|discriminate H2].
  - intros c Hc. destruct c as [|[|[|[|c]]]]; [| | | |lia]; (split; try reflexivity; discriminate).
  - reflexivity.
  - intros c Hc. destruct c as [|[|[|[|c]]]]; [| | | |lia]; vm_compute; reflexivity.
Qed.

Definition many_evs : list nevent :=
  [Talk 0 (Send Alice (str "too early")); Begin 0 [tseed x11; tseed x12]; Begin 3 [tseed x13; tseed x14]; Talk 0 (Send Alice (str "zero")); Talk 3 (Send Alice (str "three"));
   Talk 3 (Deliver Bob 0 [tseed x21]); Begin 1 [tseed x15; tseed x16]; Talk 0 (Deliver Bob 0 [tseed x22]); Talk 1 (Send Alice (str "one")); Talk 0 (Send Bob (str "yes"));
   Begin 2 [tseed x17; tseed x18]; Talk 1 (Deliver Bob 0 [tseed x23]); Talk 2 (Send Alice (str "two")); Talk 0 (Deliver Alice 0 [tseed x24]);
   Talk 2 (Deliver Bob 0 [tseed x25]); Talk 2 (Deliver Bob 0 [tseed x26]); Talk 3 (Send Bob (str "sure")); Talk 3 (Deliver Alice 0 [tseed x27])].

Example many_fair : fair_all toy many_cast 4 many_evs.
Proof.
  split; [cbn; repeat constructor; cbn; intuition discriminate|]. split; [repeat constructor; cbn; lia|].
  intros c g H. cbn in H.
  assert (G : forall s1 s2 r, exists eph ratchet, generate_key_pair toy (tseed s1 :: tseed s2 :: r) = (Ok eph, tseed s2 :: r) /\ generate_key_pair toy (tseed s2 :: r) = (Ok ratchet, r) /\
    ratchet = match fst (generate_key_pair toy [tseed s2]) with Ok p => p | _ => pair_of toy (zero_arr 32) end).
  { intros s1 s2 r. do 2 eexists. split; [reflexivity|]. split; reflexivity. }
  assert (F : forall s2 c, In (c, s2) [(0, x12); (3, x14); (1, x16); (2, x18)]%nat ->
    fair toy (tkey x72) (match fst (generate_key_pair toy [tseed s2]) with Ok p => p | _ => pair_of toy (zero_arr 32) end) (talk_of c many_evs)).
  { intros s2 d HI. cbn in HI. repeat (destruct HI as [HI|HI]; [injection HI as <- <-|]); [| | | |destruct HI];
      (split; [apply nodup_by; vm_compute; reflexivity|]; split; [|split; [reflexivity|]]).
    all: intros h Hh; vm_compute in Hh; repeat (destruct Hh as [Hh|Hh]; [rewrite <- Hh; first [reflexivity|vm_compute; discriminate]|]); destruct Hh. }
  repeat (destruct H as [H|H]; [first [discriminate H|injection H as <- <-]|]); [| | | |destruct H].
  - destruct (G x11 x12 []) as (e & r & G1 & G2 & G3). exists e, [tseed x12], r, []. split; [exact G1|]. split; [exact G2|]. rewrite G3. apply F. cbn. auto.
  - destruct (G x13 x14 []) as (e & r & G1 & G2 & G3). exists e, [tseed x14], r, []. split; [exact G1|]. split; [exact G2|]. rewrite G3. apply F. cbn. auto.
  - destruct (G x15 x16 []) as (e & r & G1 & G2 & G3). exists e, [tseed x16], r, []. split; [exact G1|]. split; [exact G2|]. rewrite G3. apply F. cbn. auto.
  - destruct (G x17 x18 []) as (e & r & G1 & G2 & G3). exists e, [tseed x18], r, []. split; [exact G1|]. split; [exact G2|]. rewrite G3. apply F. cbn. auto.
Qed.

Example many_tame : ntame (nspec (fun _ => None) many_evs).
Proof. intros c p i H. vm_compute in H. repeat (destruct H as [H|H]; [discriminate H|]). destruct H. Qed.

Example many_run : nrun toy many_cast many_world (fun _ _ => []) many_evs =
  [Began 0 (Ok tt); Began 3 (Ok tt); Got 3 Bob 0 (Ok (str "three")); Began 1 (Ok tt); Got 0 Bob 0 (Ok (str "zero")); Began 2 (Ok tt); Got 1 Bob 0 (Ok (str "one"));
   Got 0 Alice 0 (Ok (str "yes")); Got 2 Bob 0 (Ok (str "two")); Got 2 Bob 0 (Err ENoValidSessions); Got 3 Alice 0 (Ok (str "sure"))].
Proof. vm_compute. reflexivity. Qed.

Print Assumptions C84_many_conversations.
Print Assumptions C84_each_conversation.
Print Assumptions C84_no_interference.
Print Assumptions C84_at_most_once.
Print Assumptions C84_in_order.
