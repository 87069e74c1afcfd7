(** PropertiesJson.v: C60 (records stored as JSON), C61 (messages sent as JSON). *)
From Coq Require Import String.
From Verif Require Import Base Itoa Crypto Ecc Keys Messages SessionState SessionRecord SessionBuilder SessionCipher Address World Group PreKeyRecords Toy SerialProofs ToySession PropertiesSerial
  Json JsonSpec JsonProofs JsonProofs2 JsonProofs3 JsonRecords JsonMessages JsonStorageSpec JsonRecordProofs JsonTextProofs
  JsonStringSpec JsonStringProofs JsonStringProofs2 JsonValueSpec JsonValueProofs.
Open Scope list_scope.
Local Open Scope N_scope.

(** ** C60: the bytes a store keeps *)
(** [go_record], [go_state], [go_gstate], [u32_ok], [int_ok] (JsonStorageSpec.v): the numbers fit the Go types of their fields. *)

(** Serialize succeeds exactly on records that have a session in every state, and loading the bytes gives the record back
    (with the fresh flag cleared). *)
Theorem C60_session_roundtrip : forall r, go_record r -> has_session (r_cur r) -> Forall has_session (r_prev r) ->
  exists b, save_session r = Ok b /\ load_session b = Ok {| r_cur := r_cur r; r_prev := r_prev r; r_fresh := false |}.
Proof.
  intros r G H1 H2. destruct (record_structure_ok r H1 H2) as (t & E). exists (marshal session_ty (record_val t)).
  assert (S : save_session r = Ok (marshal session_ty (record_val t))) by (unfold save_session; rewrite E; reflexivity). split; [exact S|]. exact (session_roundtrip r _ G S).
Qed.
Theorem C60_session_uninitialised_panics : forall r, ~ (has_session (r_cur r) /\ Forall has_session (r_prev r)) -> save_session r = Panic.
Proof.
  intros r H. pose proof (persist_panic r H) as P. unfold persist in P. unfold save_session. destruct (record_structure r) as [t|e|] eqn:E; [|discriminate P|reflexivity].
  exfalso. cbn [bind] in P. unfold record_structure in E. destruct (map_res state_structure (r_prev r)) as [ps|e|] eqn:Ep; try discriminate E. cbn [bind] in E.
  destruct (state_structure (r_cur r)) as [c|e|] eqn:Ec; try discriminate E. cbn [bind] in E. injection E as <-. unfold record_from_structure in P. cbn [rs_prev rs_cur] in P.
  rewrite (map_res_comp _ _ state_structure state_from_structure _ _ state_roundtrip Ep) in P. cbn [bind] in P. rewrite (state_roundtrip _ _ Ec) in P. discriminate P.
Qed.
(** So the byte-level store is the [persist] used in the session theorems (C29 and those that follow from it). *)
Theorem C60_session_is_persist : forall r, go_record r -> (b <- save_session r ;; load_session b) = persist r.
Proof. exact session_persist. Qed.
(** Different records are stored as different bytes. *)
Corollary C60_session_injective : forall r1 r2 b, go_record r1 -> go_record r2 -> save_session r1 = Ok b -> save_session r2 = Ok b ->
  r_cur r1 = r_cur r2 /\ r_prev r1 = r_prev r2.
Proof.
  intros r1 r2 b G1 G2 S1 S2. pose proof (session_roundtrip r1 b G1 S1) as L1. pose proof (session_roundtrip r2 b G2 S2) as L2. rewrite L1 in L2. unfold unfresh in L2. injection L2 as A B. split; assumption.
Qed.
(** Whatever bytes are accepted, the record read from them can be saved, and reading that gives the same record. *)
Theorem C60_session_reload : forall s r, load_session s = Ok r -> go_record r /\ exists b, save_session r = Ok b /\ load_session b = Ok r.
Proof.
  intros s r H. split; [|exact (load_session_again s r H)]. destruct (load_session_loaded s r H) as (A & B & _). split; [exact (proj2 A)|]. eapply Forall_impl; [|exact B]. intros x X. exact (proj2 X).
Qed.
Theorem C60_state_roundtrip : forall s b, go_state s -> save_state s = Ok b -> load_state b = Ok s.
Proof. exact state_json_roundtrip. Qed.

(** The stored bytes are a JSON text (RFC 8259), and the text is the documented one. *)
Theorem C60_session_is_json : forall r b, save_session r = Ok b -> exists j, json_text j b.
Proof. intros r b H. unfold save_session in H. destruct (record_structure r) as [t|e|]; try discriminate H. cbn [bind] in H. injection H as <-. eexists. apply marshal_text. exact wf_session. Qed.
Theorem C60_state_text : forall s li ri bk rk sc, s_local_id s = Some li -> s_remote_id s = Some ri -> s_base s = Some bk -> s_root s = Some rk -> s_sender s = Some sc -> s_pending_kx s = None ->
  save_state s = Ok (state_text li ri bk rk sc s).
Proof.
  intros s li ri bk rk sc H1 H2 H3 H4 H5 H6. destruct (state_print s li ri bk rk sc H1 H2 H3 H4 H5 H6) as (t & E & P). unfold save_state. rewrite E. cbn [bind]. unfold marshal. rewrite P. reflexivity.
Qed.
(** A session record is the object of the texts of its states. *)
Theorem C60_session_text : forall r cur prevs, save_state (r_cur r) = Ok cur -> Forall2 (fun s b => save_state s = Ok b) (r_prev r) prevs ->
  save_session r = Ok (session_text cur prevs).
Proof.
  intros r cur prevs H1 H2. unfold save_session, record_structure. unfold save_state in H1. destruct (state_structure (r_cur r)) as [c|e|]; try discriminate H1. cbn [bind] in H1. injection H1 as <-.
  assert (P : exists ts, map_res state_structure (r_prev r) = Ok ts /\ map (fun t => marshal state_ty (state_val t)) ts = prevs).
  { induction H2 as [|s b l l' E _ IH]; [exists []; split; reflexivity|]. destruct IH as (ts & E1 & E2). unfold save_state in E. destruct (state_structure s) as [t|e|] eqn:Es; try discriminate E. cbn [bind] in E. injection E as <-.
    exists (t :: ts). cbn [map_res]. rewrite Es. cbn [bind]. rewrite E1. cbn [bind map]. rewrite E2. split; reflexivity. }
  destruct P as (ts & -> & <-). cbn [bind]. unfold marshal at 1. rewrite print_obj. unfold record_val, session_ty. cbn [print_members rs_cur rs_prev]. rewrite print_arr, map_map. reflexivity.
Qed.

(** A write cut short is never accepted: no proper beginning of the stored bytes can be loaded. *)
Theorem C60_truncated_session_rejected : forall r b s rest, save_session r = Ok b -> b = s ++ rest -> rest <> [] -> load_session s = Err EDecode.
Proof.
  intros r b s rest H E N. unfold save_session in H. destruct (record_structure r) as [t|e|]; try discriminate H. cbn [bind] in H. injection H as <-. unfold load_session.
  rewrite (truncated session_ty (record_val t) s rest wf_session E N). reflexivity.
Qed.
(** Nor is a shorter record written over a longer one: anything but space after the stored bytes is an error. *)
Theorem C60_trailing_bytes_rejected : forall r b rest, save_session r = Ok b -> ~ ws rest -> load_session (b ++ rest) = Err EDecode.
Proof.
  intros r b rest H N. unfold save_session in H. destruct (record_structure r) as [t|e|]; try discriminate H. cbn [bind] in H. injection H as <-.
  apply load_session_not_json. intros j. apply suffix_not_json; [exact wf_session|exact N].
Qed.
(** Bytes that are not JSON are refused with an error, never with a panic. *)
Theorem C60_not_json_rejected : forall s, (forall j, ~ json_text j s) -> load_session s = Err EDecode.
Proof. exact load_session_not_json. Qed.
(** But some JSON texts make the loader panic: an object without SessionState, and null. *)
Theorem C60_load_never_panics_refuted : exists s1 s2, s1 <> s2 /\ load_session s1 = Panic /\ load_session s2 = Panic.
Proof. exists (str "{}"), (str "null"). split; [discriminate|]. split; vm_compute; reflexivity. Qed.

(** The parser is exactly the grammar, and base64 is RFC 4648. *)
Theorem C60_parser_exact : forall s j, json_parse s = Some j <-> json_text j s.
Proof. exact parse_iff. Qed.
Corollary C60_parse_unique : forall s j1 j2, json_text j1 s -> json_text j2 s -> j1 = j2.
Proof. intros s j1 j2 H1 H2. apply parse_iff in H1. apply parse_iff in H2. rewrite H1 in H2. injection H2 as E. exact E. Qed.
Theorem C60_base64 : forall l, base64 l (b64_encode l) /\ b64_decode (b64_encode l) = Some l.
Proof. intros l. split; [apply b64_spec|apply b64_roundtrip]. Qed.
(** What the reader makes of base64 texts, strings and member names, exactly (JsonStringSpec.v). Every string the parser
    accepts satisfies [chars] (C60_parser_exact). *)
Theorem C60_base64_exact : forall s l, b64_decode s = Some l <-> base64_read l s.
Proof. exact b64_decode_exact. Qed.
Theorem C60_string_exact : forall raw out, chars raw -> (unquote raw = out <-> reads raw out).
Proof. exact unquote_exact. Qed.
Theorem C60_string_is_utf8 : forall raw, chars raw -> utf8_text (unquote raw).
Proof. intros raw H. apply (reads_utf8 raw). apply unquote_exact; [exact H|reflexivity]. Qed.
Theorem C60_member_exact : forall key fs i t,
  find_field key fs = Some (i, t) <-> member_field key (map fst fs) i /\ option_map snd (nth_error fs i) = Some t.
Proof. exact find_field_exact. Qed.
Example C60_example_strings :
  base64_read [xff] [x2f; x0a; x78; x3d; x3d] /\ (* the last four bits of x are ignored, and so is the line break *)
  ~ (exists l, base64_read l [x2f; x77; x3d; x3d; x2f]) /\
  unquote (str "a\u00e9\ud83d\ude00\udc00\n") = str "a" ++ [xc3; xa9; xf0; x9f; x98; x80; xef; xbf; xbd; x0a] /\
  unquote [xc0; x80; x41] = [xef; xbf; xbd; xef; xbf; xbd; x41] /\
  member_field (str "PRIVATE" ++ [xe2; x84; xaa] ++ str "ey") [str "ID"; str "PublicKey"; str "PrivateKey"] 2.
Proof.
  split; [apply b64_decode_exact; vm_compute; reflexivity|]. split; [intros (l & H); apply b64_decode_exact in H; vm_compute in H; discriminate H|].
  split; [vm_compute; reflexivity|]. split; [vm_compute; reflexivity|].
  refine (proj1 (proj1 (find_field_exact _ [(str "ID", TU32); (str "PublicKey", TBytes); (str "PrivateKey", TBytes)] 2 TBytes) _)). vm_compute. reflexivity.
Qed.
(** Unmarshal and Marshal are inverse on every structure type of the library and more generally on any type with distinct
    plain field names. *)
Theorem C60_unmarshal_marshal : forall fs vs, wf_ty (TPtr fs) -> have_tys vs fs -> unmarshal fs (marshal fs vs) = Ok vs.
Proof. exact unmarshal_marshal. Qed.
Theorem C60_unmarshal_total : forall fs s, (exists vs, unmarshal fs s = Ok vs /\ have_tys vs fs) \/ exists e, unmarshal fs s = Err e.
Proof.
  intros fs s. destruct (unmarshal fs s) as [vs|e|] eqn:E; [left; exists vs; split; [reflexivity|exact (unmarshal_typed _ _ _ E)]|right; exists e; reflexivity|exfalso; exact (unmarshal_no_panic _ _ E)].
Qed.

(** What the reader makes of any bytes for any structure, exactly (JsonValueSpec.v): unknown members are skipped, a field that is not named stays
    unset, a repeated member is read over the earlier one, null empties pointers and slices and leaves numbers as they are. *)
Theorem C60_values_exact : forall fs s vs, unmarshal fs s = Ok vs <-> structure_read fs s vs.
Proof. exact unmarshal_exact. Qed.
Theorem C60_values_otherwise : forall fs s, (forall vs, ~ structure_read fs s vs) -> unmarshal fs s = Err EDecode.
Proof.
  intros fs s H. destruct (unmarshal fs s) as [vs|e|] eqn:E; [exfalso; exact (H vs (proj1 (unmarshal_exact fs s vs) E))|rewrite (unmarshal_err _ _ _ E); reflexivity|exfalso; exact (unmarshal_no_panic _ _ E)].
Qed.
Definition point_ty : fields := [(str "N", TU32); (str "Z", TInt); (str "B", TBytes); (str "P", TPtr [(str "N", TU32); (str "F", TBool)])].
Example C60_example_values :
  structure_read point_ty (str "{}") [VU32 0; VInt 0; VBytes None; VPtr None] /\
  structure_read point_ty (str "{""n"":7,""Q"":[],""Z"":-0,""N"":null,""B"":[255,null],""P"":{""N"":1},""P"":{""F"":true}}") [VU32 7; VInt 0; VBytes (Some [xff; x00]); VPtr (Some [VU32 1; VBool true])] /\
  unmarshal point_ty (str "{""N"":1.0}") = Err EDecode /\ unmarshal point_ty (str "{""N"":4294967296}") = Err EDecode.
Proof. split; [|split; [|split]]; [apply unmarshal_exact; vm_compute; reflexivity..| |]; vm_compute; reflexivity. Qed.

(** Sender key records: everything survives, except that a record without a signing private key (a receiver's) comes back
    with the all-zero key (as in C31). *)
Theorem C60_sender_key_roundtrip : forall r, Forall go_gstate r ->
  load_sender_key (save_sender_key r) = Ok (map (fun s => {| gs_keys := gs_keys s; gs_id := gs_id s; gs_chain := gs_chain s;
     gs_signing := {| kp_pub := kp_pub (gs_signing s); kp_priv := Some (match kp_priv (gs_signing s) with Some k => k | None => zero_arr 32 end) |} |}) r).
Proof. exact sender_key_roundtrip. Qed.
Theorem C60_sender_key_same_as_structure : forall r, Forall go_gstate r -> load_sender_key (save_sender_key r) = grecord_from_structure (grecord_structure r).
Proof. intros r G. rewrite grecord_from_structure_eq. exact (sender_key_roundtrip r G). Qed.
Theorem C60_sender_key_text : forall r, save_sender_key r = sender_key_text r.
Proof. exact sender_key_print. Qed.
Theorem C60_truncated_sender_key_rejected : forall r s rest, save_sender_key r = s ++ rest -> rest <> [] -> load_sender_key s = Err EDecode.
Proof. intros r s rest E N. unfold save_sender_key in E. unfold load_sender_key. rewrite (truncated sender_key_ty _ s rest wf_sender_key E N). reflexivity. Qed.

(** Prekeys: the bytes determine the stored structure, but NewPreKeyFromStruct misreads the public key (C30). *)
Theorem C60_prekey_text : forall id p k r, kp_priv p = Some k -> new_pkr id p = Ok r -> save_prekey r = prekey_text id (kp_pub p) k.
Proof. intros id p k r Hk H. exact (prekey_print id p r H k Hk). Qed.
Theorem C60_prekey_roundtrip : forall r, u32_ok (ks_id (kr_struct r)) ->
  exists r', load_prekey (save_prekey r) = Ok r' /\ kr_struct r' = kr_struct r /\ save_prekey r' = save_prekey r.
Proof. intros r G. exists (pkr_from_struct (kr_struct r)). split; [exact (prekey_roundtrip r G)|]. split; reflexivity. Qed.
Theorem C60_signed_prekey_text : forall id time p k sig r, kp_priv p = Some k -> new_skr id time p sig = Ok r -> save_signed_prekey r = signed_prekey_text id (kp_pub p) k sig time.
Proof. intros id time p k sig r Hk H. exact (signed_prekey_print id time p sig r H k Hk). Qed.
Theorem C60_signed_prekey_roundtrip : forall r, u32_ok (zs_id (zr_struct r)) -> int_ok (zs_time (zr_struct r)) ->
  exists r', load_signed_prekey (save_signed_prekey r) = Ok r' /\ zr_struct r' = zr_struct r /\ save_signed_prekey r' = save_signed_prekey r.
Proof. intros r G G2. exists (skr_from_struct (zr_struct r)). split; [exact (signed_prekey_roundtrip r G G2)|]. split; reflexivity. Qed.
(** The private key and the signature do come back right. *)
Theorem C60_loaded_private_keys : forall id p k r, kp_priv p = Some k -> new_pkr id p = Ok r -> u32_ok id ->
  exists r', load_prekey (save_prekey r) = Ok r' /\ kp_priv (kr_pair r') = Some k /\ pkr_id r' = pkr_id r.
Proof.
  intros id p k r Hk H G. unfold new_pkr in H. rewrite Hk in H. injection H as <-. eexists. split; [apply prekey_roundtrip; exact G|]. cbn. rewrite to_arr_abytes. split; reflexivity.
Qed.

Example C60_example_session : go_record alice_rec4 /\ has_session (r_cur alice_rec4) /\ Forall has_session (r_prev alice_rec4) /\
  exists b, save_session alice_rec4 = Ok b /\ (1000 <? N.of_nat (List.length b))%N = true /\ load_session b = Ok alice_rec4.
Proof.
  assert (P : (b <- save_session alice_rec4 ;; load_session b) = Ok alice_rec4) by (vm_compute; reflexivity).
  assert (L : match save_session alice_rec4 with Ok b => (1000 <? N.of_nat (List.length b))%N | _ => false end = true) by (vm_compute; reflexivity).
  assert (Q : persist alice_rec4 = Ok alice_rec4) by (vm_compute; reflexivity). apply C29_record_roundtrip in Q. destruct Q as (Q1 & Q2 & _).
  destruct (save_session alice_rec4) as [b|e|]; [|discriminate L|discriminate L]. cbn [bind] in P.
  split; [exact (proj1 (C60_session_reload b alice_rec4 P))|]. split; [exact Q1|]. split; [exact Q2|]. exists b. split; [reflexivity|]. split; [exact L|exact P].
Qed.
Example C60_example_prekey_text :
  prekey_text 7 (to_arr 32 [x01; x02; x03]) (to_arr 32 [xff]) =
  str "{""ID"":7,""PublicKey"":""BQECAwAAAAAAAAAAAAAAAAAAAAAAAAAAAAAAAAAAAAAA"",""PrivateKey"":""/wAAAAAAAAAAAAAAAAAAAAAAAAAAAAAAAAAAAAAAAAA=""}".
Proof. vm_compute. reflexivity. Qed.
(** A text in another order, spaced and escaped differently is read all the same; unknown members are skipped. *)
Example C60_example_lenient :
  exists r, load_prekey (str " { ""privatekey"" : ""\/w=="" , ""Extra"":[1.5e3,{}], ""ID"":7 } ") = Ok r /\ kr_struct r = {| ks_id := 7; ks_pub := []; ks_priv := [xff] |}.
Proof. eexists. split; vm_compute; reflexivity. Qed.
Example C60_example_sender_key :
  exists b, save_sender_key [new_gstate 5 0 [x01; x02] {| kp_pub := to_arr 32 [x09]; kp_priv := None |}] = b /\
  b = str "{""SenderKeyStates"":[{""Keys"":[],""KeyID"":5,""SenderChainKey"":{""Iteration"":0,""ChainKey"":""AQI=""},""SigningKeyPrivate"":null,""SigningKeyPublic"":""BQkAAAAAAAAAAAAAAAAAAAAAAAAAAAAAAAAAAAAAAAAA""}]}" /\
  load_sender_key b <> Panic.
Proof. eexists. split; [reflexivity|]. split; [vm_compute; reflexivity|vm_compute; discriminate]. Qed.

(** ** C61: messages with the JSON serializer *)
Theorem C61_signal_message_text : forall m, sig_msg_json m = signal_message_text (sm_struct m).
Proof. intros m. apply sig_print. Qed.
Theorem C61_prekey_message_text : forall m, pk_msg_json m = prekey_message_text (pm_struct m).
Proof. intros m. apply pk_print. Qed.
Theorem C61_sender_key_message_text : forall m, skm_signed_json m = sender_message_text m.
Proof. intros m. apply skm_print. Qed.
Theorem C61_distribution_message_text : forall m,
  skd_json m = distribution_message_text {| ds_id := dm_id m; ds_iter := dm_iter m; ds_chain := dm_chain m; ds_signing := Some (pub (dm_sigkey m)); ds_version := 3 |}.
Proof. intros m. apply skd_print. Qed.

(** Any message the constructor accepted is read back as it was. Unlike the protobuf encoding (C16) this includes
    version 2 messages. *)
Theorem C61_signal_message_roundtrip : forall m, u32_ok (sg_counter (sm_struct m)) -> u32_ok (sg_prev (sm_struct m)) -> sig_from_struct (sm_struct m) = Ok m ->
  sig_from_json (sig_msg_json m) = Ok m.
Proof.
  intros m H1 H2 H. unfold sig_from_json, sig_msg_json. rewrite sig_json; [exact H|]. split; [exact H1|]. split; [exact H2|].
  unfold sig_from_struct in H. destruct (sg_version (sm_struct m) <=? unsupported_version)%Z eqn:V1; [discriminate H|]. destruct (sg_version (sm_struct m) >? current_version)%Z eqn:V2; [discriminate H|].
  unfold unsupported_version, current_version in *. unfold int_ok. lia.
Qed.
(** A message made by NewSignalMessage verifies at the receiver after the trip. *)
Theorem C61_new_message_verifies : forall C v c p key rk ct a b m, u32_ok c -> u32_ok p ->
  new_signal_message_json C v c p key rk ct a b = Ok m ->
  exists m', sig_from_json (sig_msg_json m) = Ok m' /\ m' = m /\ verify_mac_json C m' v a b key = Ok tt.
Proof. intros C v c p key rk ct a b m Hc Hp H. exists m. destruct (new_message_json_verifies C v c p key rk ct a b m H Hc Hp) as (A & B). split; [exact A|]. split; [reflexivity|exact B]. Qed.
(** What the MAC covers: the version, and the JSON text of the four fields, which determines them. *)
Theorem C61_mac_covers_every_field : forall s1 s2, go_sig s1 -> go_sig s2 ->
  (sg_version s1 = 2 \/ sg_version s1 = 3)%Z -> (sg_version s2 = 2 \/ sg_version s2 = 3)%Z ->
  itoa (sg_version s1) ++ sig_to_json (strip_struct s1) = itoa (sg_version s2) ++ sig_to_json (strip_struct s2) ->
  sg_version s1 = sg_version s2 /\ sg_ratchet s1 = sg_ratchet s2 /\ sg_counter s1 = sg_counter s2 /\ sg_prev s1 = sg_prev s2 /\ sg_ct s1 = sg_ct s2.
Proof.
  intros s1 s2 (A1 & A2 & A3) (B1 & B2 & B3) V1 V2 H.
  assert (E : sg_version s1 = sg_version s2 /\ sig_to_json (strip_struct s1) = sig_to_json (strip_struct s2)).
  { assert (I2 : itoa 2 = [x32]) by reflexivity. assert (I3 : itoa 3 = [x33]) by reflexivity.
    destruct V1 as [V1|V1]; destruct V2 as [V2|V2]; rewrite V1, V2 in H; rewrite ?I2, ?I3 in H; cbn [app] in H; rewrite V1, V2;
      try (split; [reflexivity|]; exact (f_equal (@tl byte) H)); exfalso; pose proof (f_equal (hd x00) H) as K; cbn [hd] in K; discriminate K. }
  destruct E as (E & F). split; [exact E|]. assert (G : forall s, go_sig s -> go_sig (strip_struct s)). { intros s (X & Y & _). split; [exact X|]. split; [exact Y|]. unfold int_ok. cbn. lia. }
  pose proof (sig_json _ (G s1 (conj A1 (conj A2 A3)))) as J1. rewrite F, (sig_json _ (G s2 (conj B1 (conj B2 B3)))) in J1. unfold strip_struct in J1. injection J1 as -> -> -> ->. repeat split.
Qed.
Theorem C61_verify_mac_exact : forall C m v a b key, (forall k x, List.length (hmac C k x) = 32%nat) -> sig_from_struct (sm_struct m) = Ok m ->
  (verify_mac_json C m v a b key = Ok tt <->
   match sg_mac (sm_struct m) with Some x => x | None => [] end =
   firstn 8 (hmac C key ((if (v >=? 3)%Z then pub a ++ pub b else []) ++ itoa (sg_version (sm_struct m)) ++ signal_message_text
     {| sg_ratchet := sg_ratchet (sm_struct m); sg_counter := sg_counter (sm_struct m); sg_prev := sg_prev (sm_struct m); sg_ct := sg_ct (sm_struct m); sg_version := 0; sg_mac := None |}))).
Proof.
  intros C m v a b key L H. unfold verify_mac_json. rewrite H. cbn [bind]. rewrite sig_print.
  change (strip_struct (sm_struct m)) with {| sg_ratchet := sg_ratchet (sm_struct m); sg_counter := sg_counter (sm_struct m); sg_prev := sg_prev (sm_struct m); sg_ct := sg_ct (sm_struct m); sg_version := 0; sg_mac := None |}.
  unfold get_mac, mac_input. change (ser_pub a ++ ser_pub b) with (pub a ++ pub b). set (h := hmac C key _). assert (Lh : List.length h = 32%nat) by apply L. clearbody h.
  assert (T : Bytehelper.trim h mac_length = Ok (firstn 8 h)).
  { unfold Bytehelper.trim. rewrite Lh. reflexivity. }
  rewrite T. cbn [bind]. destruct (bytes_eqb (firstn 8 h) _) eqn:D.
  - apply bytes_eqb_eq in D. split; [intros _; symmetry; exact D|reflexivity].
  - split; [discriminate|]. intros Q. rewrite Q in D. assert (E : bytes_eqb (firstn 8 h) (firstn 8 h) = true) by (apply bytes_eqb_eq; reflexivity). rewrite E in D. discriminate D.
Qed.
(** Prekey messages; the optional one-time prekey id survives, present or empty (the protobuf encoding turns an empty one
    into 0, C17). *)
Theorem C61_prekey_message_roundtrip : forall v reg id sid base ident m pm, go_sig (sm_struct m) -> u32_ok reg -> u32_ok sid -> (forall o, id = Some o -> u32_ok (ou_value o)) ->
  sig_from_struct (sm_struct m) = Ok m -> (v = 2 \/ v = 3)%Z ->
  new_prekey_message_json v reg id sid base ident m = Ok pm ->
  pk_from_json (pk_msg_json pm) = Ok pm /\ pm_message pm = m /\ pm_base pm = base /\ pm_identity pm = ident /\ pk_prekey_id (pm_struct pm) = id.
Proof.
  intros v reg id sid base ident m pm (G1 & G2 & G3) Hr Hs Ho Hm Hv H. unfold new_prekey_message_json in H.
  assert (S : pm = {| pm_struct := {| pk_reg := reg; pk_prekey_id := id; pk_signed_id := sid; pk_base := Some (ser_pub base); pk_identity := Some (ser_pub ident); pk_message := Some (sig_msg_json m); pk_version := v |};
                      pm_base := base; pm_identity := ident; pm_message := m |}).
  { unfold pk_from_struct_json in H. cbn [pk_version pk_base pk_identity pk_message] in H. destruct (v <=? unsupported_version)%Z; [discriminate H|]. destruct (v >? current_version)%Z; [discriminate H|].
    rewrite !CodecProofs.decode_ser_pub, (C61_signal_message_roundtrip m G1 G2 Hm) in H. cbn [bind] in H. injection H as <-. reflexivity. }
  rewrite S. split; [|repeat split]. unfold pk_from_json, pk_msg_json. cbn [pm_struct]. rewrite pk_json; [rewrite <- S; exact H|].
  split; [exact Hr|]. split; [exact Hs|]. split; [|exact Ho]. unfold int_ok. cbn [pk_version]. lia.
Qed.
(** Group messages: the receiver gets the message, and what it verifies the signature over is what the sender signed. *)
Theorem C61_sender_key_message_roundtrip : forall C id iter ct k g m g', u32_ok id -> u32_ok iter ->
  new_sender_key_message_json C id iter ct (Some k) g = (Ok m, g') ->
  exists m', skm_from_json (skm_signed_json m) = Ok m' /\ m' = m /\
    calculate_signature C k (skm_unsigned_json m') g = (skm_signature m', g').
Proof.
  intros C id iter ct k g m g' H1 H2 H. unfold new_sender_key_message_json in H. destruct (calculate_signature C k _ g) as [sig g1] eqn:E. injection H as <- <-. eexists. split; [|split; [reflexivity|]].
  - unfold skm_from_json, skm_signed_json. rewrite skm_json; [reflexivity|]. split; [exact H1|]. split; [exact H2|]. reflexivity.
  - unfold skm_unsigned_json. cbn [km_id km_iter km_ct km_version]. unfold skm_unsigned_json in E. cbn [km_id km_iter km_ct km_version] in E. rewrite E. unfold skm_signature. cbn [km_sig]. rewrite to_arr_abytes. reflexivity.
Qed.
Theorem C61_signed_bytes_determine_message : forall m1 m2, go_skm m1 -> go_skm m2 -> skm_unsigned_json m1 = skm_unsigned_json m2 ->
  km_id m1 = km_id m2 /\ km_iter m1 = km_iter m2 /\ km_ct m1 = km_ct m2 /\ km_version m1 = km_version m2.
Proof.
  intros m1 m2 (A1 & A2 & A3) (B1 & B2 & B3) H. unfold skm_unsigned_json in H.
  match type of H with skm_to_json ?x = skm_to_json ?y => assert (J1 : skm_of_json (skm_to_json x) = Ok x) by (apply skm_json; split; [exact A1|]; split; assumption);
    assert (J2 : skm_of_json (skm_to_json y) = Ok y) by (apply skm_json; split; [exact B1|]; split; assumption) end.
  rewrite H, J2 in J1. injection J1 as -> -> -> ->. repeat split.
Qed.
Theorem C61_distribution_message_roundtrip : forall m, u32_ok (dm_id m) -> u32_ok (dm_iter m) -> dm_chain m <> None ->
  skd_from_json (skd_json m) = Ok {| dm_id := dm_id m; dm_iter := dm_iter m; dm_chain := dm_chain m; dm_version := 3; dm_sigkey := dm_sigkey m |}.
Proof.
  intros m H1 H2 H3. unfold skd_from_json, skd_json. rewrite skd_json_rt; [|split; [exact H1|]; split; [exact H2|]; reflexivity]. cbn [bind]. unfold skd_from_struct. cbn [ds_version ds_signing ds_chain].
  destruct (dm_chain m) as [ck|]; [|contradiction]. rewrite CodecProofs.decode_ser_pub. reflexivity.
Qed.
(** Bytes that are not JSON, and any proper beginning of a message, are refused with an error. *)
Theorem C61_truncated_message_rejected : forall m s rest, sig_msg_json m = s ++ rest -> rest <> [] -> sig_from_json s = Err EDecode.
Proof. intros m s rest E N. unfold sig_msg_json, sig_to_json in E. unfold sig_from_json, sig_of_json. rewrite (truncated sig_ty _ s rest wf_sig E N). reflexivity. Qed.
(** The text itself is not authenticated: two different texts of one message are both read as that message (so both verify). *)
Definition sample_message : sig_msg :=
  {| sm_struct := {| sg_ratchet := Some (ser_pub (to_arr 32 [x01])); sg_counter := 5; sg_prev := 2; sg_ct := Some [x61]; sg_version := 3; sg_mac := Some [x00] |}; sm_ratchet := to_arr 32 [x01] |}.
Theorem C61_text_malleable : exists m t, t <> sig_msg_json m /\ sig_from_json (sig_msg_json m) = Ok m /\ sig_from_json t = Ok m.
Proof.
  exists sample_message, (x20 :: sig_msg_json sample_message). split; [intros E; apply (f_equal (hd x00)) in E; vm_compute in E; discriminate E|]. split; vm_compute; reflexivity.
Qed.
(** An empty RatchetKey string panics the reader (as in C19/C20: DecodePoint indexes its input). *)
Theorem C61_message_never_panics_refuted : exists s, sig_from_json s = Panic.
Proof. exists (str "{""RatchetKey"":"""",""CipherText"":"""",""Version"":3}"). vm_compute. reflexivity. Qed.
Example C61_example : exists m, new_signal_message_json toy 3 4 1 [x01] (to_arr 32 [x02]) [x61; x62] (to_arr 32 [x03]) (to_arr 32 [x04]) = Ok m /\
  firstn 72 (sig_msg_json m) = str "{""RatchetKey"":""BQIAAAAAAAAAAAAAAAAAAAAAAAAAAAAAAAAAAAAAAAAA"",""Counter"":4" /\
  verify_mac_json toy m 3 (to_arr 32 [x03]) (to_arr 32 [x04]) [x01] = Ok tt.
Proof. eexists. split; [vm_compute; reflexivity|]. split; vm_compute; reflexivity. Qed.

Print Assumptions C60_values_exact.
Print Assumptions C60_values_otherwise.
Print Assumptions C60_session_roundtrip.
Print Assumptions C60_session_uninitialised_panics.
Print Assumptions C60_session_is_persist.
Print Assumptions C60_session_injective.
Print Assumptions C60_session_reload.
Print Assumptions C60_state_roundtrip.
Print Assumptions C60_session_is_json.
Print Assumptions C60_state_text.
Print Assumptions C60_session_text.
Print Assumptions C60_truncated_session_rejected.
Print Assumptions C60_trailing_bytes_rejected.
Print Assumptions C60_not_json_rejected.
Print Assumptions C60_load_never_panics_refuted.
Print Assumptions C60_parser_exact.
Print Assumptions C60_parse_unique.
Print Assumptions C60_base64.
Print Assumptions C60_base64_exact.
Print Assumptions C60_string_exact.
Print Assumptions C60_string_is_utf8.
Print Assumptions C60_member_exact.
Print Assumptions C60_unmarshal_marshal.
Print Assumptions C60_unmarshal_total.
Print Assumptions C60_sender_key_roundtrip.
Print Assumptions C60_sender_key_same_as_structure.
Print Assumptions C60_sender_key_text.
Print Assumptions C60_truncated_sender_key_rejected.
Print Assumptions C60_prekey_text.
Print Assumptions C60_prekey_roundtrip.
Print Assumptions C60_signed_prekey_text.
Print Assumptions C60_signed_prekey_roundtrip.
Print Assumptions C60_loaded_private_keys.
Print Assumptions C61_signal_message_text.
Print Assumptions C61_prekey_message_text.
Print Assumptions C61_sender_key_message_text.
Print Assumptions C61_distribution_message_text.
Print Assumptions C61_signal_message_roundtrip.
Print Assumptions C61_new_message_verifies.
Print Assumptions C61_mac_covers_every_field.
Print Assumptions C61_verify_mac_exact.
Print Assumptions C61_prekey_message_roundtrip.
Print Assumptions C61_sender_key_message_roundtrip.
Print Assumptions C61_signed_bytes_determine_message.
Print Assumptions C61_distribution_message_roundtrip.
Print Assumptions C61_truncated_message_rejected.
Print Assumptions C61_text_malleable.
Print Assumptions C61_message_never_panics_refuted.
