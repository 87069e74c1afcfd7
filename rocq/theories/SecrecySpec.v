(** SecrecySpec.v: the keys of a whole conversation, who can compute them, and what a stolen store contains (C69).
    Nothing here models code. *)
From Coq Require Import String List.
From Verif Require Import Base Crypto Ecc Keys SessionState SessionRecord Messages SessionBuilder Cbc SessionCipher Address World ConvSpec.
Import ListNotations.
Local Open Scope list_scope.

(** * After a run (ConvSpec.v) *)

(** The stores of both parties and everything sent so far. *)
Fixpoint cafter (C : crypto) (addr : party -> address) (w : party -> world) (wire : party -> list packet) (evs : list cevent)
    : (party -> world) * (party -> list packet) :=
  match evs with
  | [] => (w, wire)
  | Send p pt :: rest =>
      if has_session (addr (other p)) (w p) then
        match w_encrypt C (addr (other p)) pt (w p) with
        | (Ok ct, w') => match pack ct with
                         | Ok k => cafter C addr (upd_party w p w') (upd_party wire p (wire p ++ [k])) rest
                         | _ => (w, wire)
                         end
        | _ => (w, wire)
        end
      else cafter C addr w wire rest
  | Deliver p i g :: rest =>
      match nth_error (wire (other p)) i with
      | None => cafter C addr w wire rest
      | Some k => let '(_, w') := receive C (addr (other p)) k g (w p) in cafter C addr (upd_party w p w') wire rest
      end
  end.

(** The reference: what each party can still do, and the epoch, number in the epoch and plaintext of everything sent. *)
Fixpoint vafter (v : party -> pview) (sent : party -> list (nat * N * bytes)) (evs : list cevent)
    : (party -> pview) * (party -> list (nat * N * bytes)) :=
  match evs with
  | [] => (v, sent)
  | Send p pt :: rest =>
      match pv_epoch (v p) with
      | O => vafter v sent rest
      | S _ => vafter (upd_party v p {| pv_epoch := pv_epoch (v p); pv_count := pv_count (v p) + 1; pv_chains := pv_chains (v p) |})
                      (upd_party sent p (sent p ++ [(pv_epoch (v p), pv_count (v p), pt)])) rest
      end
  | Deliver p i _ :: rest =>
      match nth_error (sent (other p)) i with
      | None => vafter v sent rest
      | Some (e, n, pt) => let '(_, v') := cdeliver (v p) e n pt in vafter (upd_party v p v') sent rest
      end
  end.

(** Deliveries of messages of a forgotten chain were refused (only a collision of the 8-byte MAC could make it otherwise). *)
Definition no_collision (o : list (party * nat * res bytes)) (x : list (party * nat * verdict)) : Prop :=
  forall k p j, nth_error x k = Some (p, j, Forgotten) -> exists e, nth_error o k = Some (p, j, Err e).

(** * Secrets and keys *)

(** The private keys of a conversation: identity keys, Alice's ephemeral key, Bob's one-time prekey, and the ratchet keys, one per epoch.
    Epoch 0 has Bob's signed prekey; Alice generates those of the odd epochs, Bob those of the even ones. *)
Inductive secret : Type := IdA | EphA | IdB | OneB | Ratchet (e : nat).

(** The symmetric keys: the root key of an epoch, the chain key of an epoch after [n] messages, the keys of message [n]. *)
Inductive key : Type := Root (e : nat) | Chain (e : nat) (n : N) | Mkey (e : nat) (n : N).

Section Values.
Context (C : crypto) (sk : secret -> arr32).

Definition dh (a b : secret) : bytes := abytes (x_mult C (sk a) (x_base C (sk b))).

(** X3DH: 32 bytes 0xff and the four Diffie-Hellman values, through HKDF with information "WhisperText". *)
Definition x3dh : bytes :=
  hkdf_bytes C (repeat xff 32 ++ dh IdA (Ratchet 0) ++ dh EphA IdB ++ dh EphA (Ratchet 0) ++ dh EphA OneB) None (str "WhisperText"%string) 64.

(** The 64 bytes that give root key (first half) and chain key (second half) of an epoch. *)
Fixpoint epoch_bytes (e : nat) : bytes :=
  match e with
  | O => x3dh
  | S e' => hkdf_bytes C (dh (Ratchet e) (Ratchet e')) (Some (firstn 32 (epoch_bytes e'))) (str "WhisperRatchet"%string) 64
  end.

Definition chain_at (e : nat) (n : N) : bytes := Nat.iter (N.to_nat n) (fun k => hmac C k [x02]) (skipn 32 (epoch_bytes e)).

Definition key_value (k : key) : bytes :=
  match k with
  | Root e => firstn 32 (epoch_bytes e)
  | Chain e n => chain_at e n
  | Mkey e n => hkdf_bytes C (hmac C (chain_at e n) [x01]) None (str "WhisperMessageKeys"%string) 80
  end.

(** * What is on the wire and in the stores *)

(** A packet from [p] carries message [n] of epoch [e]: the ratchet key and the counter say so, the MAC is keyed and the
    body encrypted with the message keys (cipher key, MAC key, IV). *)
Definition packet_message (k : packet) (m : sig_msg) : Prop :=
  match k with
  | PSignal b => sig_from_bytes b = Ok m
  | PPreKey b => exists pm, pk_from_bytes b = Ok pm /\ pm_message pm = m
  end.
Definition carries (from to : secret) (k : packet) (e : nat) (n : N) (pt : bytes) : Prop :=
  exists m cipher mac iv body, packet_message k m /\ sm_ratchet m = x_base C (sk (Ratchet e)) /\ sg_counter (sm_struct m) = n /\
    cipher ++ mac ++ iv = key_value (Mkey e n) /\ length cipher = 32%nat /\ length mac = 32%nat /\ length iv = 16%nat /\
    verify_mac C m 3 (x_base C (sk from)) (x_base C (sk to)) mac = Ok tt /\
    sg_ct (sm_struct m) = Some body /\ decrypt_cbc C (Some iv) cipher body = Ok pt.

(** All keys of a stored session: the root key and the chain key of its sending epoch with the private ratchet key, and for every
    receiving chain the chain key and the keys kept for skipped messages. *)
Definition session_keys_are (v : pview) (s : state) : Prop :=
  (exists root c, s_root s = Some root /\ root = key_value (Root (pv_epoch v)) /\
     s_sender s = Some c /\ kp_priv (ch_pair c) = Some (sk (Ratchet (pv_epoch v))) /\
     ck_key (ch_key c) = key_value (Chain (pv_epoch v) (pv_count v)) /\ ch_msgs c = []) /\
  Forall2 (fun c cv => kp_priv (ch_pair c) = None /\ ck_key (ch_key c) = key_value (Chain (cv_epoch cv) (cv_next cv)) /\
     Forall2 (fun k n => mk_cipher k ++ mk_mac k ++ mk_iv k = key_value (Mkey (cv_epoch cv) n)) (ch_msgs c) (cv_kept cv))
    (s_recv s) (pv_chains v) /\
  s_pending_kx s = None.
End Values.

(** * What an attacker can compute

    [K]: the private keys the attacker has; [H]: the symmetric keys the attacker has. All public keys are known. *)
Section Attack.
Context (K : secret -> Prop) (H : list key).

(** A Diffie-Hellman value needs one of the two private keys; X3DH needs all its four values. *)
Definition dh_known (a b : secret) : Prop := K a \/ K b.
Definition x3dh_known : Prop :=
  dh_known IdA (Ratchet 0) /\ dh_known EphA IdB /\ dh_known EphA (Ratchet 0) /\ dh_known EphA OneB.

(** Derivations can be run forwards, none backwards. *)
Inductive known : key -> Prop :=
| K_held : forall k, In k H -> known k
| K_root0 : x3dh_known -> known (Root 0)
| K_chain0 : x3dh_known -> known (Chain 0 0)
| K_root : forall e, known (Root e) -> dh_known (Ratchet e) (Ratchet (S e)) -> known (Root (S e))
| K_chain : forall e, known (Root e) -> dh_known (Ratchet e) (Ratchet (S e)) -> known (Chain (S e) 0)
| K_next : forall e n, known (Chain e n) -> known (Chain e (n + 1))
| K_message : forall e n, known (Chain e n) -> known (Mkey e n).
End Attack.

(** * Theft

    Everything secret a party has stored (the session, its identity key, its prekeys). Bob's one-time prekey is removed when he gets
    his session. *)
Definition stolen_keys (v : pview) : list key :=
  match pv_epoch v with
  | O => []
  | e => Root e :: Chain e (pv_count v) ::
         flat_map (fun c => Chain (cv_epoch c) (cv_next c) :: map (Mkey (cv_epoch c)) (cv_kept c)) (pv_chains v)
  end.
Definition stolen_secrets (p : party) (v : pview) (x : secret) : Prop :=
  match p with
  | Alice => x = IdA \/ x = Ratchet (pv_epoch v)
  | Bob => x = IdB \/ x = Ratchet 0 \/ (if Nat.eqb (pv_epoch v) 0 then x = OneB else x = Ratchet (pv_epoch v))
  end.

(** What the party itself can still send in this epoch or receive: later messages of its sending epoch; on a receiving chain the
    messages not yet reached and those skipped and kept; all messages of the other side's next epoch. *)
Definition to_come (v : pview) (e : nat) (n : N) : Prop :=
  (e = pv_epoch v /\ (pv_count v <= n)%N) \/
  (exists c, In c (pv_chains v) /\ cv_epoch c = e /\ ((cv_next c <= n)%N \/ In n (cv_kept c))) \/
  e = S (pv_epoch v).
