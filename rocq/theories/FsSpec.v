(** FsSpec.v: the key derivations of a session in the symbolic reading (C51, C54). Nothing here models code.

    A key is a term: it says from which secrets, by which one-way derivations, it was made. *)
From Verif Require Import Base Labels Crypto Ecc Keys X3dh Messages SessionState SessionRecord SessionBuilder SessionCipher SessionSpec GroupSpec.
From Coq Require Import List.
Import ListNotations.
Local Open Scope list_scope.

Inductive term : Type :=
| Init (n : nat)                      (* a secret the session starts with *)
| Step (t : term)                     (* the next chain key *)
| Msg (t : term)                      (* the message keys of a chain key *)
| NextRoot (t : term) (dh : bytes)    (* the root key after a ratchet step with this Diffie-Hellman value *)
| NewChain (t : term) (dh : bytes).   (* the chain key made by that step *)

(** What an attacker can compute from the keys in [K]: the derivations can be run forwards, none backwards. [G] are the
    Diffie-Hellman values the attacker knows; in the forward secrecy theorem it is everything. *)
Inductive derivable (G : bytes -> Prop) (K : list term) : term -> Prop :=
| D_held : forall t, In t K -> derivable G K t
| D_step : forall t, derivable G K t -> derivable G K (Step t)
| D_msg : forall t, derivable G K t -> derivable G K (Msg t)
| D_root : forall t dh, derivable G K t -> G dh -> derivable G K (NextRoot t dh)
| D_chain : forall t dh, derivable G K t -> G dh -> derivable G K (NewChain t dh).

(** The bytes a term stands for: HMAC-SHA256 with 0x02 for the next chain key, HKDF of the HMAC with 0x01 for message keys (80
    bytes), HKDF of the Diffie-Hellman value salted with the root key (64 bytes) for a ratchet step. *)
Fixpoint value (C : crypto) (init : nat -> bytes) (t : term) : bytes :=
  match t with
  | Init n => init n
  | Step t => hmac C (value C init t) [x02]
  | Msg t => hkdf_bytes C (hmac C (value C init t) [x01]) None message_kdf_info 80
  | NextRoot t dh => firstn 32 (hkdf_bytes C dh (Some (value C init t)) root_kdf_info 64)
  | NewChain t dh => skipn 32 (hkdf_bytes C dh (Some (value C init t)) root_kdf_info 64)
  end.

Fixpoint steps (n : nat) (t : term) : term := match n with O => t | S n' => Step (steps n' t) end.

(** ** The Double Ratchet on terms

    A receiving chain: the sender's ratchet key, the chain key, the next counter, the message keys kept for skipped counters. *)
Record ychain : Type := { yc_pub : arr32; yc_key : term; yc_pos : N; yc_kept : list (N * term) }.
Record ysession : Type := { y_root : term; y_send : term; y_recv : list ychain }.

(** Every key the session holds. *)
Definition chain_held (c : ychain) : list term := yc_key c :: map snd (yc_kept c).
Definition held (y : ysession) : list term := y_root y :: y_send y :: flat_map chain_held (y_recv y).

(** The keys skipped on the way from counter [pos] to [pos + d]. *)
Definition skipped (t : term) (pos : N) (d : nat) : list (N * term) := map (fun i => (pos + N.of_nat i, Msg (steps i t))%N) (seq 0 d).

(** Using the key of message [n] on a chain: a kept key is taken out; a new one moves the chain beyond it, keeping the keys in
    between (the latest 2000). *)
Inductive yuse : ychain -> N -> term -> ychain -> Prop :=
| Y_kept : forall c n t a b, yc_kept c = a ++ (n, t) :: b ->
    yuse c n t {| yc_pub := yc_pub c; yc_key := yc_key c; yc_pos := yc_pos c; yc_kept := a ++ b |}
| Y_new : forall c d, let n := (yc_pos c + N.of_nat d)%N in (n < 2 ^ 32)%N ->
    yuse c n (Msg (steps d (yc_key c)))
      {| yc_pub := yc_pub c; yc_key := steps (S d) (yc_key c); yc_pos := ((n + 1) mod 2 ^ 32)%N;
         yc_kept := last_n (N.to_nat 2000) (yc_kept c ++ skipped (yc_key c) (yc_pos c) d) |}.

(** The Diffie-Hellman ratchet, on a message with the other side's new key [k]: [dh1] is between [k] and our current ratchet key
    and gives the new receiving chain, [dh2] between [k] and the key pair we generate now and gives the new sending chain. *)
Definition y_ratcheted (y : ysession) (k : arr32) (dh1 dh2 : bytes) : ysession :=
  {| y_root := NextRoot (NextRoot (y_root y) dh1) dh2;
     y_send := NewChain (NextRoot (y_root y) dh1) dh2;
     y_recv := last_n 5 (y_recv y ++ [{| yc_pub := k; yc_key := NewChain (y_root y) dh1; yc_pos := 0; yc_kept := [] |}]) |}.

(** A message key of a receiving chain in [y]: kept for it, or of the chain's present or a later position. *)
Definition of_chains (y : ysession) (t : term) : Prop :=
  exists c, In c (y_recv y) /\ (In t (map snd (yc_kept c)) \/ exists j, t = Msg (steps j (yc_key c))).

(** One step, with the message key it uses. *)
Inductive ystep : ysession -> list term -> ysession -> Prop :=
| Y_send : forall y, ystep y [Msg (y_send y)] {| y_root := y_root y; y_send := Step (y_send y); y_recv := y_recv y |}
| Y_receive : forall y a c b n t c', y_recv y = a ++ c :: b -> yuse c n t c' ->
    ystep y [t] {| y_root := y_root y; y_send := y_send y; y_recv := a ++ c' :: b |}
| Y_ratchet : forall y k dh1 dh2, ystep y [] (y_ratcheted y k dh1 dh2).

(** Any number of steps; the used message keys, oldest first. *)
Inductive yrun : ysession -> list term -> ysession -> Prop :=
| Y_nil : forall y, yrun y [] y
| Y_snoc : forall y u y1 v y2, yrun y u y1 -> ystep y1 v y2 -> yrun y (u ++ v) y2.

(** A session just set up: independent secrets, nothing received. *)
Record ystart (y : ysession) : Prop := {
  ys_root : y_root y = Init 0;
  ys_send : y_send y = Init 1;
  ys_recv : map yc_key (y_recv y) = map Init (seq 2 (length (y_recv y)));
  ys_kept : Forall (fun c => yc_kept c = []) (y_recv y);
  ys_few : (length (y_recv y) <= 5)%nat }.

(** ** The keys of a session state, read as terms *)
Section Reads.
Context (C : crypto) (init : nat -> bytes).

(** Message keys: cipher key, MAC key and IV are the three parts of the 80 bytes. *)
Definition reads_msg (x : N * term) (m : msg_keys) : Prop :=
  mk_index m = fst x /\ mk_cipher m ++ mk_mac m ++ mk_iv m = value C init (snd x) /\
  length (mk_cipher m) = 32%nat /\ length (mk_mac m) = 32%nat.
Definition reads_chain (y : ychain) (c : chain) : Prop :=
  kp_pub (ch_pair c) = yc_pub y /\ ck_key (ch_key c) = value C init (yc_key y) /\ ck_index (ch_key c) = yc_pos y /\
  Forall2 reads_msg (yc_kept y) (ch_msgs c).
Definition reads (y : ysession) (s : state) : Prop :=
  s_root s = Some (value C init (y_root y)) /\
  (exists sc, s_sender s = Some sc /\ ck_key (ch_key sc) = value C init (y_send y) /\ ch_msgs sc = []) /\
  Forall2 reads_chain (y_recv y) (s_recv s).
End Reads.

(** ** A life of one session state of the library: any sequence of decrypt attempts (accepted or rejected, any message, any
    randomness; a rejected one may leave the state changed), encryptions, saves and loads. [used] are the message keys with
    which messages were decrypted or encrypted, oldest first. *)
Inductive life (C : crypto) (s0 : state) : list msg_keys -> state -> Prop :=
| L_start : life C s0 [] s0
| L_decrypt : forall used s m g o s' g', life C s0 used s -> u32_msg m -> decrypt_with_state C s m g = (o, s', g') ->
    life C s0 (used ++ match o with Ok (_, mk) => [mk] | _ => [] end) s'
| L_encrypt : forall used v pt ct r' es sc, life C s0 used (r_cur (v_load v)) -> s_sender (r_cur (v_load v)) = Some sc ->
    encrypt C v pt = (Ok ct, r', es) -> life C s0 (used ++ [message_keys C (ch_key sc)]) (r_cur r')
| L_save : forall used s t s', life C s0 used s -> state_structure s = Ok t -> state_from_structure t = Ok s' -> life C s0 used s'.

(** A session state just set up: at most 5 receiver chains, no message keys kept. *)
Record just_set_up (s : state) : Prop := {
  js_root : s_root s <> None;
  js_sender : exists sc, s_sender s = Some sc /\ ch_msgs sc = [];
  js_recv : Forall (fun c => ch_msgs c = []) (s_recv s);
  js_few : (length (s_recv s) <= 5)%nat }.

(** [ts] are the derivations of the message keys [mks]. *)
Definition derived_by (C : crypto) (init : nat -> bytes) (ts : list term) (mks : list msg_keys) : Prop :=
  Forall2 (fun t mk => reads_msg C init (mk_index mk, t) mk) ts mks.
