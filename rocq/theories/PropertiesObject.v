(** PropertiesObject.v: a cipher and its builder (C76). *)
From Verif Require Import Base Labels Crypto Ecc Keys X3dh Messages SessionState SessionRecord SessionBuilder SessionCipher Address World Toy ToySession
  SessionSpec SessionProofs SerialProofs CipherObject.
From Coq Require Import ZArith NArith List Lia String.
Import ListNotations.
Local Open Scope list_scope.

(** A cipher made with a builder for its own address behaves as C01-C75 say. *)
Lemma mixed_same : forall w a, mixed_view w a a = view_of w a.
Proof. intros w a. reflexivity. Qed.
Lemma commit_same : forall a es w, commit_mixed a a es w = commit a es w.
Proof. intros a es. induction es as [|e es IH]; intros w; [reflexivity|]. cbn [commit_mixed commit]. assert (E : target a a e = a) by (destruct e; reflexivity). rewrite E. destruct (apply_effect a e w); [apply IH|reflexivity]. Qed.
Theorem C76_same_address : forall C a m g w, o_decrypt_message C (new_cipher a a) m g w = w_decrypt_message C a m g w.
Proof. intros C a m g w. unfold o_decrypt_message, w_decrypt_message, new_cipher. cbn [co_builder co_address]. rewrite mixed_same. destruct (decrypt_message C (view_of w a) m g) as [[[o r] es] g']. rewrite commit_same. reflexivity. Qed.

(** A cipher made with NewCipherFromSession cannot read a first message: the call panics, and nothing has changed. *)
Theorem C76_without_builder : forall C a m g w, o_decrypt_message C (new_cipher_from_session a) m g w = (Panic, w, g).
Proof. reflexivity. Qed.
(** Otherwise it is as good as any other. *)
Theorem C76_without_builder_otherwise : forall C a b, (forall pt w, o_encrypt C (new_cipher_from_session a) pt w = o_encrypt C (new_cipher b a) pt w) /\
  (forall m g w, o_decrypt C (new_cipher_from_session a) m g w = o_decrypt C (new_cipher b a) m g w).
Proof. intros C a b. split; reflexivity. Qed.

(** With a builder for another address: the message must come from a key that is trusted for the builder's address, that address gets the key
    saved, the sessions of the cipher's address are the only ones that change, and no other saved key does. *)
Lemma apply_facts : forall a b e w w', apply_effect (target a b e) e w = Some w' ->
  w_policy w' = w_policy w /\ w_self w' = w_self w /\ (forall c, c <> a -> w_sessions w' c = w_sessions w c) /\ (forall c, c <> b -> w_saved w' c = w_saved w c) /\
  w_saved w' b = match e with SaveIdentity k => Some k | _ => w_saved w b end.
Proof.
  intros a b e w w' H. destruct e as [r|k|i]; cbn [apply_effect target] in H.
  - destruct (persist r) as [r'|x|]; [|discriminate H|discriminate H]. injection H as <-. cbn [w_policy w_self w_sessions w_saved]. split; [reflexivity|]. split; [reflexivity|]. split; [|split; reflexivity].
    intros c N. unfold upd_addr. destruct (address_eqb a c) eqn:E; [|reflexivity]. apply address_eqb_eq in E. exfalso. apply N. symmetry. exact E.
  - injection H as <-. cbn [w_policy w_self w_sessions w_saved]. split; [reflexivity|]. split; [reflexivity|]. split; [reflexivity|]. split.
    + intros c N. unfold upd_addr. destruct (address_eqb b c) eqn:E; [|reflexivity]. apply address_eqb_eq in E. exfalso. apply N. symmetry. exact E.
    + unfold upd_addr. rewrite (proj2 (address_eqb_eq b b) eq_refl). reflexivity.
  - injection H as <-. repeat split; reflexivity.
Qed.
Lemma commit_facts : forall a b es w w' ok, commit_mixed a b es w = (w', ok) ->
  w_policy w' = w_policy w /\ w_self w' = w_self w /\ (forall c, c <> a -> w_sessions w' c = w_sessions w c) /\ (forall c, c <> b -> w_saved w' c = w_saved w c).
Proof.
  intros a b es. induction es as [|e es IH]; intros w w' ok H; cbn [commit_mixed] in H; [injection H as <- _; repeat split; reflexivity|].
  destruct (apply_effect (target a b e) e w) as [w1|] eqn:E; [|injection H as <- _; repeat split; reflexivity].
  destruct (apply_facts _ _ _ _ _ E) as (A1 & A2 & A3 & A4 & _). destruct (IH _ _ _ H) as (B1 & B2 & B3 & B4).
  split; [rewrite B1; exact A1|]. split; [rewrite B2; exact A2|]. split; [intros c N; rewrite (B3 c N); exact (A3 c N)|intros c N; rewrite (B4 c N); exact (A4 c N)].
Qed.
Lemma commit_saved : forall a b es w w' ok, Forall (fun e => match e with SaveIdentity _ => False | _ => True end) es -> commit_mixed a b es w = (w', ok) -> w_saved w' b = w_saved w b.
Proof.
  intros a b es. induction es as [|e es IH]; intros w w' ok F H; cbn [commit_mixed] in H; [injection H as <- _; reflexivity|]. inversion F as [|? ? Fe Fl]; subst.
  destruct (apply_effect (target a b e) e w) as [w1|] eqn:E; [|injection H as <- _; reflexivity]. rewrite (IH _ _ _ Fl H). destruct (apply_facts _ _ _ _ _ E) as (_ & _ & _ & _ & A). rewrite A. destruct e; [reflexivity|destruct Fe|reflexivity].
Qed.
Theorem C76_builder_for_another_address : forall C a b m g w o w' g', o_decrypt_message C (new_cipher b a) m g w = (o, w', g') ->
  (forall x, o = Ok x -> w_policy w (w_saved w) b (pm_identity m) = true /\ w_saved w' b = Some (pm_identity m)) /\
  (forall c, c <> a -> w_sessions w' c = w_sessions w c) /\ (forall c, c <> b -> w_saved w' c = w_saved w c).
Proof.
  intros C a b m g w o w' g' H. unfold o_decrypt_message, new_cipher in H. cbn [co_builder co_address] in H. destruct (decrypt_message C (mixed_view w a b) m g) as [[[r rc] es] g1] eqn:D.
  destruct (commit_mixed a b es w) as [w1 ok] eqn:K. injection H as <- <- <-. destruct (commit_facts _ _ _ _ _ _ K) as (_ & _ & F3 & F4). split; [|split; assumption].
  intros x E. destruct ok; [|discriminate E]. cbn [seal] in E. subst r. unfold decrypt_message, process in D. cbn [mixed_view v_trusted view_of] in D.
  destruct (w_policy w (w_saved w) b (pm_identity m)); cbn [negb] in D; [|discriminate D]. split; [reflexivity|].
  destruct (process_v3 C (mixed_view w a b) (v_load (mixed_view w a b)) m) as [[id|e|] r1]; [|discriminate D|discriminate D].
  destruct (decrypt_with_record C r1 (pm_message m) g) as [[[y|e|] r2] g2]; [|discriminate D|discriminate D]. destruct id as [p|]; [|discriminate D]. injection D as _ _ <- _.
  cbn [app commit_mixed target] in K. destruct (apply_effect b (SaveIdentity (pm_identity m)) w) as [w2|] eqn:E2; [|discriminate E2].
  rewrite (commit_saved a b (StoreSession r2 :: (if ou_empty p then [] else [RemovePreKey (ou_value p)])) w2 w1 true ltac:(destruct (ou_empty p); repeat constructor) K). destruct (apply_facts a b (SaveIdentity (pm_identity m)) w w2 E2) as (_ & _ & _ & _ & A). exact A.
Qed.

(** Nothing else depends on the builder's address: when the key is as trusted for it as for the cipher's, the answer, the sessions and the
    one-time prekeys are those of a cipher with a builder for its own address. *)
Lemma commit_agrees : forall a b es w1 w2, (forall c, w_sessions w1 c = w_sessions w2 c) -> (forall i, w_prekeys w1 i = w_prekeys w2 i) ->
  snd (commit a es w1) = snd (commit_mixed a b es w2) /\
  (forall c, w_sessions (fst (commit a es w1)) c = w_sessions (fst (commit_mixed a b es w2)) c) /\
  (forall i, w_prekeys (fst (commit a es w1)) i = w_prekeys (fst (commit_mixed a b es w2)) i).
Proof.
  intros a b es. induction es as [|e es IH]; intros w1 w2 HS HP; cbn [commit commit_mixed]; [split; [reflexivity|split; assumption]|].
  destruct e as [r|k|i]; cbn [apply_effect target].
  - destruct (persist r) as [r'|x|]; [|split; [reflexivity|split; assumption]..]. apply IH; cbn [w_sessions w_prekeys]; [|exact HP]. intros c. unfold upd_addr. rewrite HS. reflexivity.
  - apply IH; cbn [w_sessions w_prekeys]; assumption.
  - apply IH; cbn [w_sessions w_prekeys]; [exact HS|]. intros j. unfold upd_id. rewrite HP. reflexivity.
Qed.
Lemma same_trust : forall C w a b m g, w_policy w (w_saved w) a (pm_identity m) = w_policy w (w_saved w) b (pm_identity m) ->
  decrypt_message C (mixed_view w a b) m g = decrypt_message C (view_of w a) m g.
Proof.
  intros C w a b m g T. unfold decrypt_message, process. cbn [mixed_view view_of v_trusted v_load]. rewrite T.
  destruct (w_policy w (w_saved w) b (pm_identity m)); reflexivity.
Qed.
Theorem C76_only_trust_depends_on_the_builder : forall C a b m g w o w' g', w_policy w (w_saved w) a (pm_identity m) = w_policy w (w_saved w) b (pm_identity m) ->
  o_decrypt_message C (new_cipher b a) m g w = (o, w', g') ->
  exists w1, w_decrypt_message C a m g w = (o, w1, g') /\ (forall c, w_sessions w' c = w_sessions w1 c) /\ (forall i, w_prekeys w' i = w_prekeys w1 i).
Proof.
  intros C a b m g w o w' g' T H. unfold o_decrypt_message, new_cipher in H. cbn [co_builder co_address] in H. rewrite (same_trust C w a b m g T) in H. unfold w_decrypt_message.
  destruct (decrypt_message C (view_of w a) m g) as [[[r rc] es] g1]. pose proof (commit_agrees a b es w w (fun c => eq_refl) (fun i => eq_refl)) as (A1 & A2 & A3).
  destruct (commit_mixed a b es w) as [w2 ok]. destruct (commit a es w) as [w1 ok']. cbn [fst snd] in A1, A2, A3. subst ok'. injection H as <- <- <-.
  exists w1. split; [reflexivity|]. split; [intros c; symmetry; apply A2|intros i; symmetry; apply A3].
Qed.

(** So the expectation that a cipher for an address only accepts first messages from keys trusted for that address does not hold of a cipher
    whose builder was made for another one: here the address has a saved key, a message with another key is accepted, and a session is stored. *)
Definition pinned (w : world) (a : address) (k : arr32) : world :=
  {| w_sessions := w_sessions w; w_saved := upd_addr (w_saved w) a (Some k); w_prekeys := w_prekeys w; w_signed := w_signed w; w_self := w_self w; w_reg := w_reg w;
     w_policy := fun saved x y => match saved x with None => true | Some z => bytes_eqb (abytes z) (abytes y) end |}.
Definition bob_pinned : world := pinned bob0 alice_addr (tkey x66).
Definition other_addr : address := {| a_name := str "other"%string; a_device := 1 |}.
Theorem C76_trust_of_own_address_refuted : exists C, crypto_laws C /\ exists w a b m g,
  w_policy w (w_saved w) a (pm_identity m) = false /\ w_decrypt_message C a m g w = (Err EUntrusted, w, g) /\
  exists pt w' g', o_decrypt_message C (new_cipher b a) m g w = (Ok pt, w', g') /\ w_sessions w' a <> None /\ w_saved w' a = w_saved w a.
Proof.
  exists toy. split; [exact toy_laws|]. exists bob_pinned, alice_addr, other_addr, msg1, [tseed x21].
  split; [vm_compute; reflexivity|]. split; [vm_compute; reflexivity|].
  assert (X : match o_decrypt_message toy (new_cipher other_addr alice_addr) msg1 [tseed x21] bob_pinned with (Ok _, w', _) => match w_sessions w' alice_addr with Some _ => true | None => false end | _ => false end = true) by (vm_compute; reflexivity).
  destruct (o_decrypt_message toy (new_cipher other_addr alice_addr) msg1 [tseed x21] bob_pinned) as [[[pt|e|] w'] g'] eqn:D; [|discriminate X|discriminate X]. exists pt, w', g'. split; [reflexivity|].
  split; [intros E; rewrite E in X; discriminate X|]. apply (C76_builder_for_another_address _ _ _ _ _ _ _ _ _ D). intros E. apply (f_equal (fun x : address => List.length (a_name x))) in E. discriminate E.
Qed.

Print Assumptions C76_same_address.
Print Assumptions C76_without_builder.
Print Assumptions C76_without_builder_otherwise.
Print Assumptions C76_builder_for_another_address.
Print Assumptions C76_trust_of_own_address_refuted.
Print Assumptions C76_only_trust_depends_on_the_builder.
