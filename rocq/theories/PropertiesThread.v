(** PropertiesThread.v: C65, calls running at the same time. *)
From Coq Require Import String.
From Verif Require Import Base Labels Crypto Bytehelper Ecc Cbc Keys X3dh Messages SessionState SessionRecord
  SessionBuilder SessionCipher Address World SessionSpec ConvSpec ThreadSpec ThreadProofs Toy ToySession.

(** ** C65 *)

(** Threads for different addresses, under every schedule of their store accesses: each gets, call by call, the
    answers it gets when it runs alone, and when it is done the stores hold for its address and its prekeys what
    they hold after running alone. *)
Theorem C65_threads_do_not_interfere : forall C w0 ps sched w ts, local_trust w0 -> apart ps ->
  interleave C sched w0 (map launch ps) = (w, ts) ->
  forall i t, nth_error ts i = Some t -> exists a prog, nth_error ps i = Some (a, prog) /\
    (exists rest, fst (alone C a prog w0) = th_outs t ++ rest)%list /\
    (finished t ->
       th_outs t = fst (alone C a prog w0) /\
       w_sessions w a = w_sessions (snd (alone C a prog w0)) a /\ w_saved w a = w_saved (snd (alone C a prog w0)) a /\
       (forall n, uses prog n -> w_prekeys w n = w_prekeys (snd (alone C a prog w0)) n)).
Proof.
  intros C w0 ps sched w ts HL HA H i t Hi.
  destruct (interleaved C sched ps w0 w ts i t HL HA H Hi) as ([a prog] & Ep & Ha & done & wg & H1 & _ & H2).
  cbn [fst snd] in *. exists a, prog. split; [exact Ep|]. split.
  - assert (HD : exists l, prog = (done ++ l)%list).
    { destruct (th_phase t); [destruct H2 as [H2 _]; eauto|destruct H2 as [H2 _]; eauto|]. destruct H2 as (c & _ & _ & _ & H2 & _). eauto. }
    destruct HD as (l & ->). rewrite alone_app, H1. destruct (alone C a l wg) as [o2 w2]. exists o2. reflexivity.
  - intros [F1 F2]. rewrite F2, F1 in H2. destruct H2 as [H2 (A1 & A2 & A3 & _)]. rewrite app_nil_r in H2. subst done. rewrite H1. cbn [fst snd]. auto.
Qed.

(** *** Concrete threads *)

Definition carol_addr : address := {| a_name := [x63]; a_device := 1 |}.

(** Start a call, make its five reads, compute; then [n] more accesses (its writes and the return). *)
Definition begin_call (i : nat) : list (nat * field) :=
  [(i, FSession); (i, FPrekey); (i, FTrust); (i, FSession); (i, FSigned); (i, FContains); (i, FTrust)].
Definition end_call (i n : nat) : list (nat * field) := repeat (i, FSession) n.

(** Two initiators, Alice and Carol; Bob has one-time prekeys 7 and 6. *)
Definition bob_two : world :=
  {| w_sessions := fun _ => None; w_saved := fun _ => None;
     w_prekeys := fun i => if (i =? 7)%N then Some (pair_of toy (tkey x71)) else if (i =? 6)%N then Some (pair_of toy (tkey x74)) else None;
     w_signed := w_signed bob0; w_self := w_self bob0; w_reg := 42; w_policy := w_policy bob0 |}.
Definition bundle6 : bundle :=
  {| b_reg := 42; b_prekey_id := Some (ou_some 6); b_prekey := Some (tkey x74); b_signed_id := 9;
     b_signed := Some (tkey x72); b_sig := b_sig bob_bundle; b_identity := tkey xb0 |}.
Definition packet_of (self : byte) (b : bundle) (pt : bytes) (r1 r2 : byte) : packet :=
  match fst (w_encrypt toy bob_addr pt (snd (fst (w_process_bundle toy bob_addr b [tseed r1; tseed r2] (toy_world self))))) with
  | Ok ct => match pack ct with Ok k => k | _ => PSignal [] end
  | _ => PSignal []
  end.
Definition from_alice : packet := Eval vm_compute in packet_of xa0 bob_bundle (str "from alice"%string) x11 x12.
Definition from_carol : packet := Eval vm_compute in packet_of xc0 bundle6 (str "from carol"%string) x31 x32.
Definition from_carol7 : packet := Eval vm_compute in packet_of xc0 bob_bundle (str "from carol"%string) x31 x32.

Definition two_threads : list (address * list call) :=
  [(alice_addr, [DoReceive from_alice [tseed x21]; DoEncrypt (str "hi alice"%string)]);
   (carol_addr, [DoReceive from_carol [tseed x22]; DoEncrypt (str "hi carol"%string)])].
Definition two_sched : list (nat * field) :=
  (begin_call 0 ++ begin_call 1 ++ end_call 1 2 ++ end_call 0 3 ++ end_call 1 2 ++ begin_call 1 ++ end_call 0 1 ++ begin_call 0 ++ end_call 0 3 ++ end_call 1 3)%list.

Definition brief (o : res answer) : res (option bytes) :=
  match o with Ok (APlain b) => Ok (Some b) | Ok _ => Ok None | Err e => Err e | Panic => Panic end.

Example C65_toy_hyps : local_trust bob_two /\ apart two_threads.
Proof.
  split; [intros a s s' k _; reflexivity|]. intros i j p q Hij Hi Hj.
  assert (N6 : forall c n, In c [DoReceive from_carol [tseed x22]; DoEncrypt (str "hi carol"%string)] -> names c n -> n = 6%N).
  { intros c n [<-|[<-|[]]] (b & g & m & o & E1 & E2 & E3 & E4); [|discriminate]. injection E1 as <- _. vm_compute in E2. injection E2 as <-. vm_compute in E3. injection E3 as <-. symmetry. exact E4. }
  assert (N7 : forall c n, In c [DoReceive from_alice [tseed x21]; DoEncrypt (str "hi alice"%string)] -> names c n -> n = 7%N).
  { intros c n [<-|[<-|[]]] (b & g & m & o & E1 & E2 & E3 & E4); [|discriminate]. injection E1 as <- _. vm_compute in E2. injection E2 as <-. vm_compute in E3. injection E3 as <-. symmetry. exact E4. }
  destruct i as [|[|i]], j as [|[|j]]; cbn [nth_error two_threads] in Hi, Hj; try (destruct i; discriminate); try (destruct j; discriminate).
  - exfalso. apply Hij. reflexivity.
  - injection Hi as <-. injection Hj as <-. split; [discriminate|]. cbn [snd]. intros c d n Hc Hd X Y. pose proof (N7 c n Hc X) as Z. rewrite (N6 d n Hd Y) in Z. discriminate.
  - injection Hi as <-. injection Hj as <-. split; [discriminate|]. cbn [snd]. intros c d n Hc Hd X Y. pose proof (N6 c n Hc X) as Z. rewrite (N7 d n Hd Y) in Z. discriminate.
  - exfalso. apply Hij. reflexivity.
Qed.

Example C65_toy_run : map (fun t => (map brief (th_outs t), th_todo t, match th_phase t with Idle => true | _ => false end))
    (snd (interleave toy two_sched bob_two (map launch two_threads))) =
  [([Ok (Some (str "from alice"%string)); Ok None], [], true); ([Ok (Some (str "from carol"%string)); Ok None], [], true)].
Proof. vm_compute. reflexivity. Qed.

(** Without those conditions the threads do interfere.

    Two first messages naming the same one-time prekey are both accepted when they race; one after the other, the
    second is refused. *)
Theorem C65_one_time_prekey_race_refuted : exists C, crypto_laws C /\ exists w0 sched p q,
  fst (fst p) <> fst (fst q) /\
  map (fun t => map brief (th_outs t)) (snd (interleave C sched w0 (map launch [fst p; fst q]))) = [[Ok (Some (snd p))]; [Ok (Some (snd q))]] /\
  (let w1 := snd (alone C (fst (fst p)) (snd (fst p)) w0) in
   map brief (fst (alone C (fst (fst q)) (snd (fst q)) w1)) = [Err ENilOneTimePreKey]).
Proof.
  exists toy. split; [exact toy_laws|]. exists bob0, (begin_call 0 ++ begin_call 1 ++ end_call 0 4 ++ end_call 1 4)%list,
    ((alice_addr, [DoReceive from_alice [tseed x21]]), str "from alice"%string), ((carol_addr, [DoReceive from_carol7 [tseed x22]]), str "from carol"%string).
  split; [discriminate|]. split; vm_compute; reflexivity.
Qed.

(** Two Encrypts at the same time for the same address return messages with the same ratchet key and counter, for
    different plaintexts. *)
Theorem C65_same_address_encrypts_refuted : exists C, crypto_laws C /\ exists w0 a sched pt1 pt2 m1 m2,
  pt1 <> pt2 /\
  map th_outs (snd (interleave C sched w0 (map launch [(a, [DoEncrypt pt1]); (a, [DoEncrypt pt2])]))) =
    [[Ok (ACipher (CSignal m1))]; [Ok (ACipher (CSignal m2))]] /\
  sm_ratchet m1 = sm_ratchet m2 /\ sg_counter (sm_struct m1) = sg_counter (sm_struct m2) /\ sg_ct (sm_struct m1) <> sg_ct (sm_struct m2).
Proof.
  exists toy. split; [exact toy_laws|]. exists alice4, bob_addr, (begin_call 0 ++ begin_call 1 ++ end_call 0 3 ++ end_call 1 3)%list, (str "one"%string), (str "two"%string).
  eexists. eexists. split; [discriminate|]. split; [vm_compute; reflexivity|]. split; [vm_compute; reflexivity|]. split; [vm_compute; reflexivity|vm_compute; discriminate].
Qed.

(** Two messages received at the same time for the same address: the record of one overwrites that of the other, and
    a message already read is read again. *)
Definition next1 : res ct_msg * world := Eval vm_compute in w_encrypt toy bob_addr (str "first"%string) alice4.
Definition next2 : res ct_msg * world := Eval vm_compute in w_encrypt toy bob_addr (str "second"%string) (snd next1).
Definition pk_of (o : res ct_msg) : packet := match o with Ok ct => match pack ct with Ok k => k | _ => PSignal [] end | _ => PSignal [] end.
Definition next_packet1 : packet := Eval vm_compute in pk_of (fst next1).
Definition next_packet2 : packet := Eval vm_compute in pk_of (fst next2).

Theorem C65_replay_after_race_refuted : exists C, crypto_laws C /\ exists w0 a sched k1 k2 g1 g2 g3 pt1 pt2,
  let '(w, ts) := interleave C sched w0 (map launch [(a, [DoReceive k1 g1]); (a, [DoReceive k2 g2])]) in
  map (fun t => map brief (th_outs t)) ts = [[Ok (Some pt1)]; [Ok (Some pt2)]] /\ fst (receive C a k1 g3 w) = Ok pt1.
Proof.
  exists toy. split; [exact toy_laws|]. exists bob2, alice_addr, (begin_call 0 ++ begin_call 1 ++ end_call 0 3 ++ end_call 1 3)%list, next_packet1, next_packet2,
    [tseed x41], [tseed x42], [tseed x43], (str "first"%string), (str "second"%string).
  vm_compute. split; reflexivity.
Qed.

Print Assumptions C65_threads_do_not_interfere.
Print Assumptions C65_one_time_prekey_race_refuted.
Print Assumptions C65_same_address_encrypts_refuted.
Print Assumptions C65_replay_after_race_refuted.
