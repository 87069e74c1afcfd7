(** PropertiesCrash.v: C64, exactly when the session operations panic.

    [lived] (CrashSpec.v) are the stores of a party after any history. [crashes] lists the situations. *)
From Coq Require Import String.
From Verif Require Import Base Labels Crypto Bytehelper Ecc Cbc Keys X3dh Messages SessionState SessionRecord
  SessionBuilder SessionCipher Address World SessionSpec SerialProofs ConvSpec ReopenSpec CrashSpec CodecProofs2 CryptoProofs ReopenProofs2 CrashProofs
  Toy ToySession.

(** ** C64 *)

(** A panic while receiving a packet has one of the listed causes, whatever the random source does; and when the
    random source does not fail, each of them ends in a panic. *)
Theorem C64_receive_panics_only_if : forall C, crypto_laws C -> forall w, lived C w -> forall a k g,
  fst (receive C a k g w) = Panic -> crashes C a g w k.
Proof. intros C L w H a k g. apply (receive_panic C L a k g w (lived_owned C w H)). Qed.

Theorem C64_receive_panics_iff : forall C, crypto_laws C -> forall w, lived C w -> forall a k g, reads 41 g ->
  (fst (receive C a k g w) = Panic <-> crashes C a g w k).
Proof.
  intros C L w H a k g R. destruct (receive_panic C L a k g w (lived_owned C w H)) as [A B]. split; [exact A|]. intros X. exact (B R X).
Qed.

(** After a panic the sessions and prekeys are as before, except for a prekey message with id 16777215: the session
    is stored and the panic comes before the end of the call. *)
Theorem C64_after_panic : forall C, crypto_laws C -> forall w, lived C w -> forall a k g w', receive C a k g w = (Panic, w') ->
  w_prekeys w' = w_prekeys w /\ w_signed w' = w_signed w /\
  (w_sessions w' = w_sessions w \/
   exists b m, k = PPreKey b /\ pk_from_bytes b = Ok m /\ pk_prekey_id (pm_struct m) = Some (ou_some 16777215)).
Proof. intros C L w H a k g w'. exact (receive_panic_world C L a k g w w' (lived_owned C w H)). Qed.

(** Encrypt panics exactly when there is no session; otherwise it succeeds. *)
Theorem C64_encrypt_panics_iff : forall C, crypto_laws C -> forall w, lived C w -> forall a pt,
  (N.of_nat (length pt) + 16 < 9223372036854775808)%N ->
  (fst (w_encrypt C a pt w) = Panic <-> w_sessions w a = None) /\
  (w_sessions w a <> None -> exists ct w', w_encrypt C a pt w = (Ok ct, w')).
Proof. intros C L w H a pt. exact (encrypt_panic C L a pt w (lived_owned C w H)). Qed.

(** Serializing what Encrypt returned panics exactly when the session still awaits its first reply and was started
    from a bundle with a nil prekey id. *)
Theorem C64_serialize_panics_iff : forall C a pt w ct w', w_encrypt C a pt w = (Ok ct, w') ->
  (pack ct = Panic <-> exists r p, w_sessions w a = Some r /\ s_pending (r_cur r) = Some p /\ pp_id p = None) /\
  (pack ct <> Panic -> exists k, pack ct = Ok k).
Proof. exact pack_panic. Qed.

(** ProcessBundle never panics, whatever the bundle. *)
Theorem C64_process_bundle_never_panics : forall C, crypto_laws C -> forall w, lived C w -> forall a b g,
  fst (fst (w_process_bundle C a b g w)) <> Panic.
Proof. intros C L w H a b g. exact (bundle_no_panic C L a b g w (lived_owned C w H)). Qed.

Definition empty_inner : sig_msg :=
  {| sm_struct := {| sg_ratchet := Some (ser_pub (zero_arr 32)); sg_counter := 0; sg_prev := 0; sg_ct := Some [x00]; sg_version := 3;
                     sg_mac := Some (repeat x00 8) |}; sm_ratchet := zero_arr 32 |}.

(** So a receiver can be stopped by anyone: for every identity key, base key and signed prekey id there is a packet,
    made without any secret, on which every receiver panics that trusts that identity key at that address (as on
    first use), has no session with that base key and no signed prekey of that id. *)
Theorem C64_outsider_crashes_receiver : forall k base sid, (sid < 2 ^ 32)%N -> exists p, forall C w a g,
  w_policy w (w_saved w) a k = true -> unused_base w a base -> w_signed w sid = None -> receive C a p g w = (Panic, w).
Proof.
  intros k base sid Hs.
  destruct (prekey_message_roundtrip 0 0 sid base k empty_inner) as (_ & bs & _ & HB);
    [reflexivity|reflexivity|exact Hs|vm_compute; reflexivity|vm_compute; reflexivity|].
  exists (PPreKey bs). intros C w a g H1 H2 H3. cbn [receive]. rewrite HB. unfold w_decrypt_message, decrypt_message, process. cbn [pm_identity].
  change (v_trusted (view_of w a)) with (w_policy w (w_saved w) a). rewrite H1. cbn [negb].
  unfold process_v3. cbn [pm_struct pm_base pk_version pk_signed_id]. rewrite no_base_no_state.
  - cbn [v_signed view_of]. rewrite H3. reflexivity.
  - intros s Hin. cbn [v_load view_of] in Hin. destruct (w_sessions w a) as [r|] eqn:EW; [exact (H2 r s EW Hin)|].
    destruct Hin as [<-|[]]. discriminate.
Qed.

(** Operations keep [lived]: it is the invariant of a running program. *)
Theorem C64_histories : forall C,
  (forall w a pt, lived C w -> lived C (snd (w_encrypt C a pt w))) /\
  (forall w a b g, lived C w -> lived C (snd (fst (w_process_bundle C a b g w)))) /\
  (forall w a k g, lived C w -> lived C (snd (receive C a k g w))).
Proof.
  intros C.
  assert (HOp : forall w a r' es, lived C w -> session_op C u32_msg (view_of w a) r' es -> lived C (fst (commit a es w))).
  { intros w a r' es H HO. rewrite <- (firstn_all es). eapply Lived_op; eassumption. }
  split; [|split].
  - intros w a pt H. unfold w_encrypt. destruct (encrypt C (view_of w a) pt) as [[o r'] es] eqn:E.
    pose proof (HOp w a r' es H (Op_encrypt C u32_msg _ pt o r' es E)) as X. destruct (commit a es w) as [w' ok]. exact X.
  - intros w a b g H. unfold w_process_bundle. destruct (process_bundle C (view_of w a) b g) as [[[o r'] es] g'] eqn:E.
    pose proof (HOp w a r' es H (Op_process_bundle C u32_msg _ b g o r' es g' E)) as X. destruct (commit a es w) as [w' ok]. exact X.
  - intros w a k g H. destruct k as [b|b]; cbn [receive].
    + destruct (sig_from_bytes b) as [m|e|] eqn:EB; [|exact H|exact H]. unfold w_decrypt.
      destruct (decrypt_and_get_key C (view_of w a) m g) as [[[o r'] es] g'] eqn:E.
      pose proof (HOp w a r' es H (Op_decrypt C u32_msg _ m g o r' es g' (proj1 (parsed_bytes b m EB)) E)) as X. destruct (commit a es w) as [w' ok]. exact X.
    + destruct (pk_from_bytes b) as [m|e|] eqn:EB; [|exact H|exact H]. unfold w_decrypt_message.
      destruct (prekey_id_some b m EB) as (i & _ & HP).
      destruct (decrypt_message C (view_of w a) m g) as [[[o r'] es] g'] eqn:E.
      pose proof (HOp w a r' es H (Op_decrypt_message C u32_msg _ m g o r' es g' (proj1 HP) E)) as X. destruct (commit a es w) as [w' ok]. exact X.
Qed.

(** *** Concrete cases *)

Lemma toy_lived : forall self, lived toy (toy_world self).
Proof.
  intros self. apply Lived_start; [reflexivity|]. split; intros i p; cbn [w_prekeys w_signed toy_world]; destruct (_ =? _)%N; try discriminate;
    intros H; injection H as <-; discriminate.
Qed.

(** Bob after Alice's first message; Alice, who holds the session, sends a body of 17 bytes with the right MAC. *)
Definition packet1 : packet := Eval vm_compute in match pack (CPreKey msg1) with Ok k => k | _ => PSignal [] end.
Definition bob_opened : world := snd (receive toy alice_addr packet1 [tseed x21] bob0).
Definition ragged_packet : packet := Eval vm_compute in
  match w_sessions alice2 bob_addr with
  | Some r =>
      match s_sender (r_cur r) with
      | Some sc => match new_signal_message toy 3 (ck_index (ch_key sc)) 0 (mk_mac (message_keys toy (ch_key sc))) (kp_pub (ch_pair sc))
                           (repeat x61 17) (tkey xa0) (tkey xb0) with Ok m => PSignal (sig_msg_bytes m) | _ => PSignal [] end
      | None => PSignal []
      end
  | None => PSignal []
  end.

Example C64_toy_opened : lived toy bob_opened /\ w_sessions bob_opened alice_addr <> None.
Proof. split; [apply C64_histories, (toy_lived xb0)|vm_compute; discriminate]. Qed.
Example C64_toy_ragged : fst (receive toy alice_addr ragged_packet [] bob_opened) = Panic.
Proof. vm_compute. reflexivity. Qed.
Example C64_toy_ragged_cause : crashes toy alice_addr [] bob_opened ragged_packet.
Proof. apply (C64_receive_panics_only_if toy toy_laws); [apply C64_toy_opened|exact C64_toy_ragged]. Qed.

(** The same packet with a changed byte of the MAC is only refused. *)
Example C64_toy_ragged_forged : match ragged_packet with PSignal b => fst (receive toy alice_addr (PSignal (removelast b ++ [x00])%list) [] bob_opened) = Err ENoValidSessions | _ => False end.
Proof. vm_compute. reflexivity. Qed.

(** A prekey message naming signed prekey 8, unknown to Bob; and the hypotheses of the outsider theorem. *)
Example C64_toy_outsider : bob0.(w_policy) bob0.(w_saved) alice_addr (tkey xee) = true /\ unused_base bob0 alice_addr (tkey xef) /\ w_signed bob0 8 = None.
Proof. split; [reflexivity|]. split; [|reflexivity]. intros r s H. discriminate H. Qed.

(** Prekey id 16777215: Bob has published it and Alice uses it. *)
Definition bob_last : world :=
  {| w_sessions := w_sessions bob0; w_saved := w_saved bob0;
     w_prekeys := fun i => if (i =? 16777215)%N then Some (pair_of toy (tkey x71)) else None;
     w_signed := w_signed bob0; w_self := w_self bob0; w_reg := w_reg bob0; w_policy := w_policy bob0 |}.
Definition last_bundle : bundle :=
  {| b_reg := 42; b_prekey_id := Some (ou_some 16777215); b_prekey := Some (tkey x71); b_signed_id := 9;
     b_signed := Some (tkey x72); b_sig := xed_sign toy (tkey xb0) (ser_pub (tkey x72)) (zero_arr 64);
     b_identity := tkey xb0 |}.
Definition last_packet : packet := Eval vm_compute in
  match fst (w_encrypt toy bob_addr (str "hello"%string) (snd (fst (w_process_bundle toy bob_addr last_bundle [tseed x11; tseed x12] alice0)))) with
  | Ok ct => match pack ct with Ok k => k | _ => PSignal [] end
  | _ => PSignal []
  end.
Example C64_toy_last : lived toy bob_last /\ fst (receive toy alice_addr last_packet [tseed x21] bob_last) = Panic /\
  w_sessions (snd (receive toy alice_addr last_packet [tseed x21] bob_last)) alice_addr <> None.
Proof.
  split; [|split; vm_compute; [reflexivity|discriminate]]. apply Lived_start; [reflexivity|]. split; intros i p; cbn [w_prekeys w_signed bob_last bob0 toy_world];
    destruct (_ =? _)%N; try discriminate; intros H; injection H as <-; discriminate.
Qed.

(** A nil prekey id in the bundle. *)
Definition nil_bundle : bundle :=
  {| b_reg := 42; b_prekey_id := None; b_prekey := None; b_signed_id := 9;
     b_signed := Some (tkey x72); b_sig := xed_sign toy (tkey xb0) (ser_pub (tkey x72)) (zero_arr 64);
     b_identity := tkey xb0 |}.
Example C64_toy_nil : match fst (w_encrypt toy bob_addr (str "hello"%string) (snd (fst (w_process_bundle toy bob_addr nil_bundle [tseed x11; tseed x12] alice0)))) with
  | Ok ct => pack ct = Panic | _ => False end.
Proof. vm_compute. reflexivity. Qed.

Example C64_toy_reads : reads 41 (repeat (tseed x01) 41).
Proof. cbn [reads repeat]. repeat (eexists; eexists; split; [reflexivity|]). exact I. Qed.

Print Assumptions C64_receive_panics_only_if.
Print Assumptions C64_receive_panics_iff.
Print Assumptions C64_after_panic.
Print Assumptions C64_encrypt_panics_iff.
Print Assumptions C64_serialize_panics_iff.
Print Assumptions C64_process_bundle_never_panics.
Print Assumptions C64_outsider_crashes_receiver.
Print Assumptions C64_histories.
