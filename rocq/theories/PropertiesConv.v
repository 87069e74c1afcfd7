(** PropertiesConv.v: two parties talking through the wire (C05, C06). The vocabulary is in ConvSpec.v: [strangers]
    (the parties before the first message), [fair] (working randomness, distinct ratchet keys, no overflow),
    [crun] (the code run on a schedule), [cspec] (what must come out), [conforms], [matching]. *)
From Verif Require Import Base Labels Crypto Ecc Keys X3dh Messages SessionState SessionRecord SessionBuilder
  SessionCipher Address World GroupSpec ConvSpec ConvProofs3 Toy ToySession.
From Coq Require Import String List.
Import ListNotations.
Local Open Scope list_scope.

(** * C05 *)

(** Alice processes Bob's bundle, encrypts any plaintext and serializes it; Bob parses the bytes and decrypts with
    his stored keys: he obtains the plaintext, and both stores hold matching sessions. *)
Theorem C05_first_contact : forall C, crypto_laws C ->
  forall addr wa wb b i sid signed otk g g1 g2 eph ratchet wa1 g' pt g3,
  strangers C addr wa wb b i sid signed otk ->
  generate_key_pair C g = (Ok eph, g1) -> generate_key_pair C g1 = (Ok ratchet, g2) ->
  w_process_bundle C (addr Bob) b g wa = (Ok tt, wa1, g') ->
  fair C signed ratchet [Send Alice pt; Deliver Bob 0 g3] ->
  exists ct wa2 k wb2 sa sb,
    w_encrypt C (addr Bob) pt wa1 = (Ok ct, wa2) /\ pack ct = Ok k /\ receive C (addr Alice) k g3 wb = (Ok pt, wb2) /\
    w_sessions wa2 (addr Bob) = Some (record_from_state sa) /\ w_sessions wb2 (addr Alice) = Some (record_from_state sb) /\
    matching C sa sb.
Proof. intros C L. exact (first_contact C L). Qed.

(** * C06 *)

(** Any schedule of sends and deliveries, with loss, duplication and reordering: every delivery has the result the
    reference gives. *)
Theorem C06_any_schedule : forall C, crypto_laws C ->
  forall addr wa wb b i sid signed otk g g1 g2 eph ratchet wa1 g' evs,
  strangers C addr wa wb b i sid signed otk ->
  generate_key_pair C g = (Ok eph, g1) -> generate_key_pair C g1 = (Ok ratchet, g2) ->
  w_process_bundle C (addr Bob) b g wa = (Ok tt, wa1, g') ->
  fair C signed ratchet evs ->
  conforms (crun C addr (both wa1 wb) (fun _ => []) evs) (cspec start_view (fun _ => []) evs).
Proof. intros C L. exact (any_schedule C L). Qed.

(** No message is accepted twice, as long as no message of a forgotten chain is delivered. *)
Theorem C06_at_most_once : forall C, crypto_laws C ->
  forall addr wa wb b i sid signed otk g g1 g2 eph ratchet wa1 g' evs,
  strangers C addr wa wb b i sid signed otk ->
  generate_key_pair C g = (Ok eph, g1) -> generate_key_pair C g1 = (Ok ratchet, g2) ->
  w_process_bundle C (addr Bob) b g wa = (Ok tt, wa1, g') ->
  fair C signed ratchet evs ->
  (forall p j, ~ In (p, j, Forgotten) (cspec start_view (fun _ => []) evs)) ->
  NoDup (accepted (crun C addr (both wa1 wb) (fun _ => []) evs)).
Proof.
  intros C L addr wa wb b i sid signed otk g g1 g2 eph ratchet wa1 g' evs HS G1 G2 HP HF HN.
  rewrite (conforms_accepted _ _ (any_schedule C L _ _ _ _ _ _ _ _ _ _ _ _ _ _ _ _ HS G1 G2 HP HF) HN). apply once_start.
Qed.

(** When each party receives the other's messages in the order they were sent, without gaps or repetitions, every
    delivery returns the plaintext that was sent, whatever the interleaving of the two directions. *)
Theorem C06_in_order : forall C, crypto_laws C ->
  forall addr wa wb b i sid signed otk g g1 g2 eph ratchet wa1 g' evs,
  strangers C addr wa wb b i sid signed otk ->
  generate_key_pair C g = (Ok eph, g1) -> generate_key_pair C g1 = (Ok ratchet, g2) ->
  w_process_bundle C (addr Bob) b g wa = (Ok tt, wa1, g') ->
  fair C signed ratchet evs ->
  let run := crun C addr (both wa1 wb) (fun _ => []) evs in
  (forall p, delivered p (cspec start_view (fun _ => []) evs) = seq 0 (length (delivered p (cspec start_view (fun _ => []) evs)))) ->
  Forall (fun y => exists pt, snd y = Ok pt) run /\
  map (fun y => match y with (p, j, Ok pt) => (p, j, Plain pt) | (p, j, _) => (p, j, Refused) end) run = cspec start_view (fun _ => []) evs.
Proof.
  intros C L addr wa wb b i sid signed otk g g1 g2 eph ratchet wa1 g' evs HS G1 G2 HP HF run HD. subst run.
  pose proof (fifo_start evs HD) as HA.
  rewrite (conforms_plain _ _ (any_schedule C L _ _ _ _ _ _ _ _ _ _ _ _ _ _ _ _ HS G1 G2 HP HF) HA).
  clear -HA. induction HA as [|[[p j] v] l [pt E] HA [IH1 IH2]]; [split; [constructor|reflexivity]|].
  cbn [snd] in E. subst v. cbn [map]. split; [constructor; [exists pt; reflexivity|exact IH1]|f_equal; exact IH2].
Qed.

(** * A concrete conversation *)

Definition toy_addr (p : party) : address := match p with Alice => alice_addr | Bob => bob_addr end.

Example toy_strangers : strangers toy toy_addr alice0 bob0 bob_bundle 7 9 (tkey x72) (tkey x71).
Proof. split; try reflexivity; discriminate. Qed.

(** Alice sends three messages; Bob gets the third, then the first, then the third again; he answers; both go on. *)
Definition toy_evs : list cevent :=
  [Send Alice (str "one"); Send Alice (str "two"); Send Alice (str "three");
   Deliver Bob 2 [tseed x21]; Deliver Bob 0 [tseed x22]; Deliver Bob 2 [tseed x23];
   Send Bob (str "hi"); Send Bob (str "there"); Deliver Alice 1 [tseed x24]; Send Alice (str "four");
   Deliver Bob 3 [tseed x25]; Deliver Bob 1 [tseed x26]; Deliver Alice 0 [tseed x27]; Deliver Alice 0 [tseed x28]].

Definition toy_eph : ec_pair := match fst (generate_key_pair toy [tseed x11]) with Ok p => p | _ => pair_of toy (zero_arr 32) end.
Definition toy_ratchet : ec_pair := match fst (generate_key_pair toy [tseed x12]) with Ok p => p | _ => pair_of toy (zero_arr 32) end.

Lemma nodup_by : forall (l : list (option arr32)),
  (fix go (l : list (option arr32)) : bool := match l with [] => true | x :: r =>
     negb (existsb (fun y => match x, y with Some a, Some b => arr_eqb a b | None, None => true | _, _ => false end) r) && go r end) l = true -> NoDup l.
Proof.
  induction l as [|x r IH]; intros H; [constructor|]. apply Bool.andb_true_iff in H. destruct H as [H1 H2]. constructor; [|apply IH; exact H2].
  intros HI. apply Bool.negb_true_iff in H1. rewrite <- Bool.not_true_iff_false in H1. apply H1. apply existsb_exists. exists x. split; [exact HI|].
  destruct x; [apply arr_eqb_refl|reflexivity].
Qed.

Example toy_fair : fair toy (tkey x72) toy_ratchet toy_evs.
Proof.
  split; [apply nodup_by; vm_compute; reflexivity|]. split; [|split; [reflexivity|]].
  - intros g H. cbn in H. repeat (destruct H as [<-|H]; [vm_compute; discriminate|]). destruct H.
  - intros pt H. cbn in H. repeat (destruct H as [<-|H]; [reflexivity|]). destruct H.
Qed.

Example toy_hyps : generate_key_pair toy [tseed x11; tseed x12] = (Ok toy_eph, [tseed x12]) /\
  generate_key_pair toy [tseed x12] = (Ok toy_ratchet, []) /\
  fst (fst (w_process_bundle toy bob_addr bob_bundle [tseed x11; tseed x12] alice0)) = Ok tt.
Proof. split; [vm_compute; reflexivity|]. split; vm_compute; reflexivity. Qed.

Example toy_schedule : cspec start_view (fun _ => []) toy_evs =
  [(Bob, 2%nat, Plain (str "three")); (Bob, 0%nat, Plain (str "one")); (Bob, 2%nat, Refused); (Alice, 1%nat, Plain (str "there"));
   (Bob, 3%nat, Plain (str "four")); (Bob, 1%nat, Plain (str "two")); (Alice, 0%nat, Plain (str "hi")); (Alice, 0%nat, Refused)].
Proof. vm_compute. reflexivity. Qed.

Example toy_run : map snd (crun toy toy_addr (both alice1 bob0) (fun _ => []) toy_evs) =
  [Ok (str "three"); Ok (str "one"); Err ENoValidSessions; Ok (str "there"); Ok (str "four"); Ok (str "two"); Ok (str "hi"); Err ENoValidSessions].
Proof. vm_compute. reflexivity. Qed.

Print Assumptions C05_first_contact.
Print Assumptions C06_any_schedule.
Print Assumptions C06_at_most_once.
Print Assumptions C06_in_order.
