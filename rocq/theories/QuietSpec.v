(** QuietSpec.v: runs that differ only in the texts, used to state C89. Nothing here models code. *)
From Verif Require Import Base Crypto Messages SessionState SessionRecord SessionBuilder SessionCipher Address World Group ConvSpec ThreadSpec SessionCallSpec GroupSpec GroupStoreSpec.
From Coq Require Import List.
Import ListNotations.

Definition fine {A} (o : res A) : Prop := exists x, o = Ok x.

(** Two messages alike but for their contents: body, previous counter and MAC may differ in any way. *)
Definition alike (m1 m2 : sig_msg) : Prop :=
  sm_ratchet m1 = sm_ratchet m2 /\ sg_counter (sm_struct m1) = sg_counter (sm_struct m2) /\ sg_version (sm_struct m1) = sg_version (sm_struct m2).
Definition alike_first (p1 p2 : pk_msg) : Prop :=
  pm_identity p1 = pm_identity p2 /\ pm_base p1 = pm_base p2 /\ pk_version (pm_struct p1) = pk_version (pm_struct p2) /\ pk_reg (pm_struct p1) = pk_reg (pm_struct p2) /\
  pk_prekey_id (pm_struct p1) = pk_prekey_id (pm_struct p2) /\ pk_signed_id (pm_struct p1) = pk_signed_id (pm_struct p2) /\ alike (pm_message p1) (pm_message p2).
Definition alike_group (m1 m2 : skm) : Prop := km_id m1 = km_id m2 /\ km_iter m1 = km_iter m2.

Section Spec.
Context (C : crypto).

(** The record has one session only, or each of its sessions, current or archived, reads both messages or neither. *)
Definition same_readers (r : record) (m1 m2 : sig_msg) : Prop :=
  r_prev r = [] \/ forall s g, In s (r_cur r :: r_prev r) -> fine (fst (fst (decrypt_with_state C s m1 g))) <-> fine (fst (fst (decrypt_with_state C s m2 g))).
(** The record in which the message inside a first message is read: the one Process leaves. *)
Definition after_process (v : view) (p : pk_msg) : record := let '(_, r, _) := process C v (v_load v) p in r.

(** Two calls at the same moment that differ in texts only, and both succeed if they differ. *)
Inductive twin_calls (w : world) (a : address) : call -> call -> Prop :=
| twin_same : forall c, twin_calls w a c c
| twin_encrypt : forall t1 t2, fine (fst (w_encrypt C a t1 w)) -> fine (fst (w_encrypt C a t2 w)) -> twin_calls w a (DoEncrypt t1) (DoEncrypt t2)
| twin_signal : forall b1 b2 g m1 m2, sig_from_bytes b1 = Ok m1 -> sig_from_bytes b2 = Ok m2 -> alike m1 m2 ->
    fine (fst (fst (w_decrypt C a m1 g w))) -> fine (fst (fst (w_decrypt C a m2 g w))) -> same_readers (v_load (World.view_of w a)) m1 m2 ->
    twin_calls w a (DoReceive (PSignal b1) g) (DoReceive (PSignal b2) g)
| twin_first : forall b1 b2 g p1 p2, pk_from_bytes b1 = Ok p1 -> pk_from_bytes b2 = Ok p2 -> alike_first p1 p2 ->
    fine (fst (fst (w_decrypt_message C a p1 g w))) -> fine (fst (fst (w_decrypt_message C a p2 g w))) ->
    same_readers (after_process (World.view_of w a) p1) (pm_message p1) (pm_message p2) ->
    twin_calls w a (DoReceive (PPreKey b1) g) (DoReceive (PPreKey b2) g).
Inductive twin_programs : world -> list (address * call) -> list (address * call) -> Prop :=
| twin_end : forall w, twin_programs w [] []
| twin_next : forall w a c1 c2 l1 l2, twin_calls w a c1 c2 -> twin_programs (snd (call_alone C a c1 w)) l1 l2 -> twin_programs w ((a, c1) :: l1) ((a, c2) :: l2).

(** The same of one sender key store. *)
Inductive twin_gcalls (st : option grecord) : gcall -> gcall -> Prop :=
| gtwin_same : forall c, twin_gcalls st c c
| gtwin_encrypt : forall t1 t2 g1 g2, fine (fst (gw_encrypt C t1 g1 st)) -> fine (fst (gw_encrypt C t2 g2 st)) -> twin_gcalls st (CEncrypt t1 g1) (CEncrypt t2 g2)
| gtwin_decrypt : forall m1 m2, alike_group m1 m2 -> fine (fst (gw_decrypt C m1 st)) -> fine (fst (gw_decrypt C m2 st)) -> twin_gcalls st (CDecrypt m1) (CDecrypt m2).
Inductive twin_gprograms : option grecord -> list gcall -> list gcall -> Prop :=
| gtwin_end : forall st, twin_gprograms st [] []
| gtwin_next : forall st c1 c2 l1 l2, twin_gcalls st c1 c2 -> twin_gprograms (snd (gcall_run C c1 st)) l1 l2 -> twin_gprograms st (c1 :: l1) (c2 :: l2).
End Spec.

(** The bytes on the network, and the number of 16-byte blocks a text of [n] bytes is padded to. *)
Definition on_wire (k : packet) : bytes := match k with PSignal b => b | PPreKey b => b end.
Definition blocks_for (n : nat) : nat := n / 16 + 1.

(** A message without its body and its MAC, and a first message without the message in it. *)
Definition envelope (m : sig_struct) : sig_struct :=
  {| sg_ratchet := sg_ratchet m; sg_counter := sg_counter m; sg_prev := sg_prev m; sg_ct := None; sg_version := sg_version m; sg_mac := None |}.
Definition first_envelope (p : pk_struct) : pk_struct :=
  {| pk_reg := pk_reg p; pk_prekey_id := pk_prekey_id p; pk_signed_id := pk_signed_id p; pk_base := pk_base p; pk_identity := pk_identity p; pk_message := None; pk_version := pk_version p |}.
Definition same_envelope (c1 c2 : ct_msg) : Prop :=
  match c1, c2 with
  | CSignal m1, CSignal m2 => envelope (sm_struct m1) = envelope (sm_struct m2)
  | CPreKey p1, CPreKey p2 => first_envelope (pm_struct p1) = first_envelope (pm_struct p2) /\
      exists s1 s2, pk_message (pm_struct p1) = Some (sig_serialize s1) /\ pk_message (pm_struct p2) = Some (sig_serialize s2) /\ envelope s1 = envelope s2
  | _, _ => False
  end.
