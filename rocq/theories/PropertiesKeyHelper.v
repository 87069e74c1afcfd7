(** PropertiesKeyHelper.v: what every call of the key helper gives, and what becomes of the last resort key (C88). Specification: KeyHelperSpec.v. *)
From Coq Require Import String.
From Verif Require Import Base Labels Crypto Bytehelper Ecc Cbc Keys X3dh Messages SessionState SessionRecord SessionBuilder SessionCipher Address World Group PreKeyRecords KeyHelper
  Toy ToySession GroupCallSpec KeyHelperSpec KeyHelperProofs PropertiesSession PropertiesMore.
From Coq Require Import List Arith NArith ZArith Lia.
Import ListNotations.
Local Open Scope list_scope.

(** GenerateIdentityKeyPair and GenerateKeyPair: one key drawn, or the error of the random source; nothing else can happen. *)
Theorem C88_identity : forall C g o g',
  generate_identity C g = (o, g') <-> one_key (fun priv => {| ip_pub := x_base C priv; ip_priv := priv |}) g o g'.
Proof. exact identity_iff. Qed.
Theorem C88_key_pair : forall C g o g', generate_key_pair C g = (o, g') <-> one_key (pair_with C) g o g'.
Proof. exact key_pair_iff. Qed.

(** GeneratePreKeys: the keys for start, start + 1, ..., count, or the error of the first failed read and no keys. *)
Theorem C88_prekeys : forall C start count g o g', generate_pre_keys C start count g = (o, g') <-> prekeys_fate C count start g o g'.
Proof. intros C start count g o g'. apply gen_iff. reflexivity. Qed.

(** GenerateSignedPreKey. *)
Theorem C88_signed_prekey : forall C ident id now g o g',
  generate_signed_pre_key C ident id now g = (o, g') <-> signed_fate C (ip_priv ident) id now g o g'.
Proof. exact signed_iff. Qed.

(** GenerateRegistrationID and GenerateSenderKeyID; GenerateSenderKey: they cannot fail, a failed read gives 0 and zeros. *)
Theorem C88_registration_id : forall g id g', generate_registration_id g = (id, g') <-> exists z, noise 4 g z g' /\ id = little_endian z.
Proof. exact registration_iff. Qed.
Theorem C88_sender_key : forall g k g', generate_sender_key g = (k, g') <-> noise 32 g k g'.
Proof. exact sender_key_iff. Qed.
Corollary C88_unnoticed : forall g, generate_registration_id (None :: g) = (0%N, g) /\ generate_sender_key (None :: g) = (repeat x00 32, g).
Proof. intros g. split; reflexivity. Qed.

(** NewPreKey and NewSignedPreKey: the record of that key pair, and a crash exactly for a key pair without a private key. *)
Theorem C88_new_prekey : forall C id priv, new_pkr id (pair_with C priv) = Ok (prekey_with C id priv).
Proof. reflexivity. Qed.
Theorem C88_new_prekey_panics : forall id p, new_pkr id p = Panic <-> kp_priv p = None.
Proof. exact new_pkr_panics. Qed.
Theorem C88_new_signed_prekey : forall C id now priv sig, new_skr id now (pair_with C priv) sig = Ok (signed_with C id now priv sig).
Proof. reflexivity. Qed.
Theorem C88_new_signed_prekey_panics : forall id now p sig, new_skr id now p sig = Panic <-> kp_priv p = None.
Proof. exact new_skr_panics. Qed.

(** GenerateLastResortKey: one key, with id 0. *)
Theorem C88_last_resort : forall C g o g', generate_last_resort C g = (o, g') <-> one_key (prekey_with C 0) g o g'.
Proof. exact last_resort_iff. Qed.

(** Whatever its id (0 for the last resort key too), the prekey of a first message that was read is gone from the store, and no first message of anyone that
    names it is read from then on, as long as nobody stores a prekey under that id again. *)
Theorem C88_used_once : forall C a m g w x w' g' id, w_decrypt_message C a m g w = (Ok x, w', g') ->
  has_session_state (pk_version (pm_struct m)) (ser_pub (pm_base m)) (v_load (view_of w a)) = false ->
  pk_prekey_id (pm_struct m) = Some (ou_some id) ->
  w_prekeys w' id = None /\
  forall w2 a2 m2 g2 x2, w_prekeys w2 id = None -> pk_prekey_id (pm_struct m2) = Some (ou_some id) ->
    has_session_state (pk_version (pm_struct m2)) (ser_pub (pm_base m2)) (v_load (view_of w2 a2)) = false ->
    fst (fst (w_decrypt_message C a2 m2 g2 w2)) <> Ok x2.
Proof.
  intros C a m g w x w' g' id H HS HI. split.
  - unfold w_decrypt_message in H. destruct (decrypt_message C (view_of w a) m g) as [[[o r'] es] g1] eqn:E.
    destruct (commit a es w) as [w1 ok] eqn:EC. destruct ok; cbn [seal] in H; [|discriminate H].
    assert (H1 := f_equal (fun q => fst (fst q)) H). assert (H2 := f_equal (fun q => snd (fst q)) H). cbn [fst snd] in H1, H2. subst o w1.
    destruct (C27_prekey_removed_after_session _ _ _ _ _ _ _ _ E) as (i & -> & _ & HN). destruct (HN HS) as (HP & _ & _).
    rewrite HI in HP. assert (HE := f_equal (fun q => match q with Some r => r | None => ou_none end) HP). cbn in HE. subst i.
    cbn [ou_empty ou_some ou_value commit] in EC.
    destruct (apply_effect a (SaveIdentity (pm_identity m)) w) as [wa|]; [|discriminate (f_equal snd EC)].
    destruct (apply_effect a (StoreSession r') wa) as [wb|]; [|discriminate (f_equal snd EC)].
    cbn [apply_effect] in EC. apply (f_equal fst) in EC. cbn [fst] in EC. rewrite <- EC. cbn [w_prekeys]. unfold upd_id. rewrite N.eqb_refl. reflexivity.
  - intros w2 a2 m2 g2 x2 HP HI2 HS2. unfold w_decrypt_message. destruct (decrypt_message C (view_of w2 a2) m2 g2) as [[[o r'] es] g1] eqn:E.
    destruct (commit a2 es w2) as [w3 ok]. cbn [fst]. destruct ok; cbn [seal]; [|discriminate].
    refine (C28_never_read C (view_of w2 a2) m2 g2 o r' es g1 HS2 _ E x2). right. exists (ou_some id). split; [exact HI2|]. right. exact HP.
Qed.

(** So the last resort key is not one: of two strangers who were both given it, each of whose first messages Bob would read, only the first is answered. *)
Definition last_key : pkr := Eval vm_compute in match generate_last_resort toy [tseed x73] with (Ok k, _) => k | _ => prekey_with toy 1 (tkey x00) end.
Definition bob_last : world :=
  {| w_sessions := fun _ => None; w_saved := fun _ => None; w_prekeys := fun i => if (i =? ks_id (kr_struct last_key))%N then Some (kr_pair last_key) else None;
     w_signed := w_signed bob0; w_self := w_self bob0; w_reg := 42; w_policy := w_policy bob0 |}.
Definition last_bundle : bundle :=
  {| b_reg := 42; b_prekey_id := Some (pkr_id last_key); b_prekey := Some (kp_pub (kr_pair last_key)); b_signed_id := 9;
     b_signed := Some (tkey x72); b_sig := b_sig bob_bundle; b_identity := tkey xb0 |}.
Definition first_message (self : byte) (pt : bytes) (r1 r2 : byte) : pk_msg :=
  the_pk (fst (w_encrypt toy bob_addr pt (snd (fst (w_process_bundle toy bob_addr last_bundle [tseed r1; tseed r2] (toy_world self)))))).
Definition carol_addr : address := {| a_name := [x63]; a_device := 1 |}.
Definition last_alice : pk_msg := Eval vm_compute in first_message xa0 (str "from alice"%string) x11 x12.
Definition last_carol : pk_msg := Eval vm_compute in first_message xc0 (str "from carol"%string) x31 x32.
Notation read_alice := (w_decrypt_message toy alice_addr last_alice [tseed x21] bob_last).
Definition no_plain : bytes * msg_keys := ([], {| mk_cipher := []; mk_mac := []; mk_iv := []; mk_index := 0 |}).
Definition alice_plain : bytes * msg_keys := Eval vm_compute in match fst (fst read_alice) with Ok p => p | _ => no_plain end.
Lemma run_three : forall A W G (f : A * W * G) x, fst (fst f) = x -> f = (x, snd (fst f), snd f).
Proof. intros A W G [[a w] g] x <-. reflexivity. Qed.
Lemma read_alice_ok : read_alice = (Ok alice_plain, snd (fst read_alice), snd read_alice).
Proof. apply run_three. vm_compute. reflexivity. Qed.

Theorem C88_last_resort_refuted : exists C, crypto_laws C /\ exists g k g' w m m2 g1 g2 p w' g1' p2,
  generate_last_resort C g = (Ok k, g') /\ w_prekeys w (ks_id (kr_struct k)) = Some (kr_pair k) /\
  w_decrypt_message C alice_addr m g1 w = (Ok (str "from alice"%string, p), w', g1') /\
  fst (fst (w_decrypt_message C carol_addr m2 g2 w)) = Ok (str "from carol"%string, p2) /\
  fst (fst (w_decrypt_message C carol_addr m2 g2 w')) = Err ENilOneTimePreKey.
Proof.
  exists toy. split; [exact toy_laws|].
  exists [tseed x73], last_key, [], bob_last, last_alice, last_carol, [tseed x21], [tseed x22], (snd alice_plain), (snd (fst read_alice)), (snd read_alice).
  eexists. split; [vm_compute; reflexivity|]. split; [reflexivity|]. split; [exact read_alice_ok|].
  split; vm_compute; reflexivity.
Qed.

Example C88_used_once_example : exists x w' g', w_decrypt_message toy alice_addr last_alice [tseed x21] bob_last = (Ok x, w', g') /\
  has_session_state (pk_version (pm_struct last_alice)) (ser_pub (pm_base last_alice)) (v_load (view_of bob_last alice_addr)) = false /\
  pk_prekey_id (pm_struct last_alice) = Some (ou_some 0).
Proof. exists alice_plain, (snd (fst read_alice)), (snd read_alice). split; [exact read_alice_ok|]. split; reflexivity. Qed.

(** Three keys asked for and the third read fails; one signed prekey whose signature gets no randomness. *)
Example C88_example :
  (exists g', prekeys_fate toy 7 5 [Some [x01]; Some [x02]; None; Some [x04]] (Err ERand) g' /\ g' = [Some [x04]]) /\
  (exists s, signed_fate toy (tkey xb0) 9 1000 [tseed x51; None; tseed x52] (Ok s) [tseed x52] /\ zs_id (zr_struct s) = 9%N /\ zs_time (zr_struct s) = 1000%Z) /\
  (exists l, prekeys_fate toy 4294967296 4294967295 [tseed x01; tseed x02] (Ok l) [] /\ map (fun k => ks_id (kr_struct k)) l = [4294967295%N; 0%N]).
Proof.
  split; [|split].
  - eexists. split; [|reflexivity]. apply C88_prekeys. vm_compute. reflexivity.
  - eexists. split; [apply (C88_signed_prekey toy (tid xb0)); vm_compute; reflexivity|]. split; reflexivity.
  - eexists. split; [apply C88_prekeys; vm_compute; reflexivity|]. reflexivity.
Qed.

Print Assumptions C88_identity.
Print Assumptions C88_key_pair.
Print Assumptions C88_prekeys.
Print Assumptions C88_signed_prekey.
Print Assumptions C88_registration_id.
Print Assumptions C88_sender_key.
Print Assumptions C88_unnoticed.
Print Assumptions C88_new_prekey.
Print Assumptions C88_new_prekey_panics.
Print Assumptions C88_new_signed_prekey.
Print Assumptions C88_new_signed_prekey_panics.
Print Assumptions C88_last_resort.
Print Assumptions C88_used_once.
Print Assumptions C88_last_resort_refuted.
