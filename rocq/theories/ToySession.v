(** ToySession.v: a concrete conversation in the toy instance, used by examples and counterexamples.
    Nothing here models code; every value is computed with the model's operations. *)
From Verif Require Import Base Labels Crypto Bytehelper Ecc Cbc Keys X3dh Messages SessionState SessionRecord
  SessionBuilder SessionCipher Address World Toy.
From Coq Require Import String.
Local Open Scope string_scope.

Definition tkey (b : byte) : arr32 := to_arr 32 [b; x01; b].
Definition tseed (b : byte) : option bytes := Some [b; x33; b].
Definition tid (b : byte) : id_pair := {| ip_pub := tkey b; ip_priv := tkey b |}.

Definition alice_addr : address := {| a_name := [x61]; a_device := 1 |}.
Definition bob_addr : address := {| a_name := [x62]; a_device := 1 |}.

Definition toy_world (self : byte) : world :=
  {| w_sessions := fun _ => None; w_saved := fun _ => None;
     w_prekeys := fun i => if (i =? 7)%N then Some (pair_of toy (tkey x71)) else None;
     w_signed := fun i => if (i =? 9)%N then Some (pair_of toy (tkey x72)) else None;
     w_self := tid self; w_reg := 42; w_policy := fun _ _ _ => true |}.
Definition alice0 : world := toy_world xa0.
Definition bob0 : world := toy_world xb0.

(** Bob's bundle: registration id 42, one-time prekey 7, signed prekey 9. *)
Definition bob_bundle : bundle :=
  {| b_reg := 42; b_prekey_id := Some (ou_some 7); b_prekey := Some (tkey x71); b_signed_id := 9;
     b_signed := Some (tkey x72); b_sig := xed_sign toy (tkey xb0) (ser_pub (tkey x72)) (zero_arr 64);
     b_identity := tkey xb0 |}.

Definition sig0 : sig_msg :=
  {| sm_struct := {| sg_ratchet := None; sg_counter := 0; sg_prev := 0; sg_ct := None; sg_version := 0; sg_mac := None |};
     sm_ratchet := zero_arr 32 |}.
Definition pk0 : pk_msg :=
  {| pm_struct := {| pk_reg := 0; pk_prekey_id := None; pk_signed_id := 0; pk_base := None; pk_identity := None;
                     pk_message := None; pk_version := 0 |};
     pm_base := zero_arr 32; pm_identity := zero_arr 32; pm_message := sig0 |}.
Definition the_sig (r : res ct_msg) : sig_msg :=
  match r with Ok (CSignal m) => m | Ok (CPreKey p) => pm_message p | _ => sig0 end.
Definition the_pk (r : res ct_msg) : pk_msg := match r with Ok (CPreKey p) => p | _ => pk0 end.

(** Alice processes the bundle and sends two messages. *)
Definition alice1 : world := Eval vm_compute in snd (fst (w_process_bundle toy bob_addr bob_bundle [tseed x11; tseed x12] alice0)).
Definition a_send1 : res ct_msg * world := Eval vm_compute in w_encrypt toy bob_addr (str "hello") alice1.
Definition alice2 : world := snd a_send1.
Definition a_send2 : res ct_msg * world := Eval vm_compute in w_encrypt toy bob_addr (str "again") alice2.
Definition alice3 : world := snd a_send2.
Definition msg1 : pk_msg := Eval vm_compute in the_pk (fst a_send1).
Definition msg2 : pk_msg := Eval vm_compute in the_pk (fst a_send2).

(** Bob receives the first and answers. *)
Definition b_recv1 := Eval vm_compute in w_decrypt_message toy alice_addr msg1 [tseed x21] bob0.
Definition bob1 : world := snd (fst b_recv1).
Definition b_send1 : res ct_msg * world := Eval vm_compute in w_encrypt toy alice_addr (str "hi alice") bob1.
Definition bob2 : world := snd b_send1.
Definition reply1 : sig_msg := Eval vm_compute in the_sig (fst b_send1).

(** Alice receives the answer and sends a third message. *)
Definition a_recv1 := Eval vm_compute in w_decrypt toy bob_addr reply1 [tseed x13] alice3.
Definition alice4 : world := snd (fst a_recv1).
Definition a_send3 : res ct_msg * world := Eval vm_compute in w_encrypt toy bob_addr (str "third") alice4.
Definition msg3 : sig_msg := Eval vm_compute in the_sig (fst a_send3).
Definition alice5 : world := snd a_send3.

Definition rec_of (w : world) (a : address) : record := match w_sessions w a with Some r => r | None => new_record end.
Definition alice_rec3 : record := Eval vm_compute in rec_of alice3 bob_addr.
Definition alice_rec4 : record := Eval vm_compute in rec_of alice4 bob_addr.
Definition bob_rec1 : record := Eval vm_compute in rec_of bob1 alice_addr.
Definition bob_rec2 : record := Eval vm_compute in rec_of bob2 alice_addr.

Definition plain_of (r : res (bytes * msg_keys)) : res bytes := match r with Ok (p, _) => Ok p | Err e => Err e | Panic => Panic end.

Example toy_first : plain_of (fst (fst b_recv1)) = Ok (str "hello").
Proof. vm_compute. reflexivity. Qed.
Example toy_reply : plain_of (fst (fst a_recv1)) = Ok (str "hi alice").
Proof. vm_compute. reflexivity. Qed.
Example toy_third : plain_of (fst (fst (w_decrypt toy alice_addr msg3 [tseed x22] bob2))) = Ok (str "third").
Proof. vm_compute. reflexivity. Qed.
