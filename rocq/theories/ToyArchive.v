(** ToyArchive.v: concrete conversations with several sessions, forged messages and absent prekeys, in the toy
    instance; the witnesses of the refuted expectations. Every value is computed with the model's operations. *)
From Verif Require Import Base Labels Crypto Bytehelper Ecc Cbc Keys X3dh Messages SessionState SessionRecord
  SessionBuilder SessionCipher Address World Toy ToySession.
From Coq Require Import String.
Local Open Scope string_scope.

(** Bob with three one-time prekeys 7, 8 and 10. *)
Definition bobx0 : world :=
  {| w_sessions := fun _ => None; w_saved := fun _ => None;
     w_prekeys := fun i => if (i =? 7)%N then Some (pair_of toy (tkey x71)) else
                           if (i =? 8)%N then Some (pair_of toy (tkey x81)) else
                           if (i =? 10)%N then Some (pair_of toy (tkey x91)) else None;
     w_signed := fun i => if (i =? 9)%N then Some (pair_of toy (tkey x72)) else None;
     w_self := tid xb0; w_reg := 42; w_policy := fun _ _ _ => true |}.

Definition bundle_with (id : N) (k : byte) : bundle :=
  {| b_reg := 42; b_prekey_id := Some (ou_some id); b_prekey := Some (tkey k); b_signed_id := 9;
     b_signed := Some (tkey x72); b_sig := xed_sign toy (tkey xb0) (ser_pub (tkey x72)) (zero_arr 64);
     b_identity := tkey xb0 |}.

Definition enc (w : world) (s : string) : res ct_msg * world := w_encrypt toy bob_addr (str s) w.

(** Alice's first session: three messages. Second session: three. Third: one. *)
Definition ax1 : world := Eval vm_compute in snd (fst (w_process_bundle toy bob_addr (bundle_with 7 x71) [tseed x11; tseed x12] alice0)).
Definition ax2 := Eval vm_compute in enc ax1 "one".
Definition ax3 := Eval vm_compute in enc (snd ax2) "two".
Definition ax4 := Eval vm_compute in enc (snd ax3) "three".
Definition m1 : pk_msg := Eval vm_compute in the_pk (fst ax2).
Definition m2 : pk_msg := Eval vm_compute in the_pk (fst ax3).
Definition m3 : pk_msg := Eval vm_compute in the_pk (fst ax4).
Definition ax5 : world := Eval vm_compute in snd (fst (w_process_bundle toy bob_addr (bundle_with 8 x81) [tseed x21; tseed x22] (snd ax4))).
Definition ax6 := Eval vm_compute in enc ax5 "four".
Definition ax7 := Eval vm_compute in enc (snd ax6) "five".
Definition ax8 := Eval vm_compute in enc (snd ax7) "six".
Definition n1 : pk_msg := Eval vm_compute in the_pk (fst ax6).
Definition n2 : pk_msg := Eval vm_compute in the_pk (fst ax7).
Definition n3 : pk_msg := Eval vm_compute in the_pk (fst ax8).
Definition ax9 : world := Eval vm_compute in snd (fst (w_process_bundle toy bob_addr (bundle_with 10 x91) [tseed x31; tseed x32] (snd ax8))).
Definition ax10 := Eval vm_compute in enc ax9 "seven".
Definition o1 : pk_msg := Eval vm_compute in the_pk (fst ax10).

Definition recv (m : pk_msg) (b : byte) (w : world) := w_decrypt_message toy alice_addr m [tseed b; tseed b; tseed b; tseed b] w.
Definition text (x : res (bytes * msg_keys) * world * rng) : res bytes := plain_of (fst (fst x)).
Definition after (x : res (bytes * msg_keys) * world * rng) : world := snd (fst x).

(** Bob receives m1 (session 1) and n1 (session 2): session 1 is archived. *)
Definition bx1 : world := Eval vm_compute in after (recv m1 x41 bobx0).
Definition bx2 : world := Eval vm_compute in after (recv n1 x42 bx1).
(** The late message m2 of session 1. *)
Definition bx3 : world := Eval vm_compute in after (recv m2 x43 bx2).

Example late_read : text (recv m1 x41 bobx0) = Ok (str "one") /\ text (recv n1 x42 bx1) = Ok (str "four") /\ text (recv m2 x43 bx2) = Ok (str "two").
Proof. vm_compute. repeat split. Qed.

(** Bob reads n2 and answers; Alice tries to read the answer; with and without the late message in between. *)
Definition answer (w : world) : sig_msg := the_sig (fst (w_encrypt toy alice_addr (str "answer") (after (recv n2 x44 w)))).
Definition with_late : sig_msg := Eval vm_compute in answer bx3.
Definition without_late : sig_msg := Eval vm_compute in answer bx2.
Definition alice_reads (m : sig_msg) : res bytes := plain_of (fst (fst (w_decrypt toy bob_addr m [tseed x51; tseed x52; tseed x53; tseed x54] (snd ax8)))).

Example n2_read_both : text (recv n2 x44 bx3) = Ok (str "five") /\ text (recv n2 x44 bx2) = Ok (str "five").
Proof. vm_compute. repeat split. Qed.
Example answer_without : alice_reads without_late = Ok (str "answer").
Proof. vm_compute. reflexivity. Qed.
Example answer_with : alice_reads with_late = Err ENoValidSessions.
Proof. vm_compute. reflexivity. Qed.

(** After the late m2, m3 is accepted by the current session, then again by the stale copy. *)
Definition bx4 : world := Eval vm_compute in after (recv m3 x45 bx3).
Definition bx5 := Eval vm_compute in recv m3 x46 bx4.
Example m3_twice : text (recv m3 x45 bx3) = Ok (str "three") /\ text bx5 = Ok (str "three").
Proof. vm_compute. repeat split. Qed.

(** Three sessions: a late message of the second duplicates the first, and m2 is then accepted twice in a row. *)
Definition by3 : world := Eval vm_compute in after (recv o1 x43 bx2).
Definition by4 : world := Eval vm_compute in after (recv n2 x44 by3).
Definition by5 : world := Eval vm_compute in after (recv m2 x45 by4).
Example m2_twice_in_a_row : text (recv o1 x43 bx2) = Ok (str "seven") /\ text (recv n2 x44 by3) = Ok (str "five") /\
  text (recv m2 x45 by4) = Ok (str "two") /\ text (recv m2 x46 by5) = Ok (str "two").
Proof. vm_compute. repeat split. Qed.

(** * Forged messages against a reference store *)

(** [m] with its MAC replaced; with its ratchet key replaced too. *)
Definition bad_mac (m : sig_msg) : sig_msg :=
  {| sm_struct := {| sg_ratchet := sg_ratchet (sm_struct m); sg_counter := sg_counter (sm_struct m); sg_prev := sg_prev (sm_struct m);
                     sg_ct := sg_ct (sm_struct m); sg_version := sg_version (sm_struct m); sg_mac := Some (repeat x00 8) |};
     sm_ratchet := sm_ratchet m |}.
Definition bad_key (m : sig_msg) : sig_msg :=
  {| sm_struct := {| sg_ratchet := Some (ser_pub (tkey x66)); sg_counter := 0; sg_prev := 0;
                     sg_ct := sg_ct (sm_struct m); sg_version := sg_version (sm_struct m); sg_mac := Some (repeat x00 8) |};
     sm_ratchet := tkey x66 |}.
Definition bob_view : view := view_of bob2 alice_addr.
Definition genuine (v : view) : res bytes := plain_of (fst (fst (run_ref_decrypt toy v msg3 [tseed x61]))).
Definition forged1 := Eval vm_compute in run_ref_decrypt toy bob_view (bad_mac msg3) [tseed x62].
Definition forged2 := Eval vm_compute in run_ref_decrypt toy bob_view (bad_key msg3) [tseed x62].
Example forged_then_genuine : genuine bob_view = Ok (str "third") /\
  fst (fst forged1) = Err ENoValidSessions /\ genuine (snd (fst forged1)) = Err ENoValidSessions /\
  fst (fst forged2) = Err ENoValidSessions /\ genuine (snd (fst forged2)) = Err ENoValidSessions.
Proof. vm_compute. repeat split. Qed.

(** * No usable one-time prekey *)

Definition bundle_none : bundle :=
  {| b_reg := 42; b_prekey_id := None; b_prekey := None; b_signed_id := 9;
     b_signed := Some (tkey x72); b_sig := xed_sign toy (tkey xb0) (ser_pub (tkey x72)) (zero_arr 64);
     b_identity := tkey xb0 |}.
Definition bundle_empty : bundle :=
  {| b_reg := 42; b_prekey_id := Some ou_none; b_prekey := None; b_signed_id := 9;
     b_signed := Some (tkey x72); b_sig := xed_sign toy (tkey xb0) (ser_pub (tkey x72)) (zero_arr 64);
     b_identity := tkey xb0 |}.
Definition first_to (b : bundle) : res ct_msg := fst (enc (snd (fst (w_process_bundle toy bob_addr b [tseed x11; tseed x12] alice0))) "hi").
Definition pk_none : pk_msg := Eval vm_compute in the_pk (first_to bundle_none).
Definition pk_empty : pk_msg := Eval vm_compute in the_pk (first_to bundle_empty).
