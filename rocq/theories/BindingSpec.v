(** BindingSpec.v: which set-up a session stems from (C73), and the policy of trust on first use (C74). Nothing here is part of the
    code, except that the policy is the one of the stores of the test suite (tests/stores.go:36-43). *)
From Verif Require Import Base Labels Crypto Ecc Keys X3dh Messages SessionState SessionRecord SessionBuilder SessionCipher Address World SessionSpec.
From Coq Require Import ZArith NArith List.
Import ListNotations.

Section Binding.
Context (C : crypto).

(** The calls that can set a session up, with what they saw of the stores. *)
Inductive setup : Type :=
| Started (v : view) (b : bundle)      (* ProcessBundle *)
| Answered (v : view) (m : pk_msg).    (* DecryptMessage *)

(** A record object and the set-up calls made with it so far, whatever the results of all calls; it may have been saved and loaded
    in between, and everything else about the stores may have changed between calls. *)
Inductive history : list setup -> record -> Prop :=
| Hist_new : history [] new_record
| Hist_encrypt H v pt o r' es : history H (v_load v) -> encrypt C v pt = (o, r', es) -> history H r'
| Hist_decrypt H v m g o r' es g' : history H (v_load v) -> u32_msg m -> decrypt_and_get_key C v m g = (o, r', es, g') -> history H r'
| Hist_answer H v m g o r' es g' : history H (v_load v) -> u32_msg (pm_message m) -> decrypt_message C v m g = (o, r', es, g') -> history (Answered v m :: H) r'
| Hist_start H v b g o r' es g' : history H (v_load v) -> process_bundle C v b g = (o, r', es, g') -> history (Started v b :: H) r'
| Hist_saved H r r' : history H r -> persist r = Ok r' -> history H r'.

(** The session belongs to this set-up: the peer's identity key was trusted then (and had signed the prekey), and the session carries
    that key, our own of then, and the registration ids of both. *)
Definition bound_to (x : setup) (s : state) : Prop :=
  match x with
  | Started v b =>
      v_trusted v (b_identity b) = true /\
      (exists k, b_signed b = Some k /\ verify_signature C (b_identity b) (ser_pub k) (b_sig b) = true) /\
      s_remote_id s = Some (b_identity b) /\ s_remote_reg s = b_reg b /\
      s_local_id s = Some (ip_pub (v_identity v)) /\ s_local_reg s = v_reg v /\ s_version s = 3%Z
  | Answered v m =>
      v_trusted v (pm_identity m) = true /\
      s_remote_id s = Some (pm_identity m) /\ s_remote_reg s = pk_reg (pm_struct m) /\ s_base s = Some (pm_base m) /\
      s_local_id s = Some (ip_pub (v_identity v)) /\ s_local_reg s = v_reg v /\ s_version s = 3%Z
  end.
(** A session that was never set up. *)
Definition blank (s : state) : Prop := s_remote_id s = None /\ s_local_id s = None /\ s_base s = None /\ s_remote_reg s = 0%N /\ s_local_reg s = 0%N /\ s_version s = 0%Z.
End Binding.

(** Trust on first use: a key is trusted if none is saved for the address, or if it is the one saved. *)
Definition first_use (w : world) : Prop := forall saved a k, w_policy w saved a k = true <-> saved a = None \/ saved a = Some k.
