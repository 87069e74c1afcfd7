(** X3dh.v: ratchet/ratchet.go, ratchet/sender.go, ratchet/receiver.go, ratchet/symmetric.go. *)
From Verif Require Import Base Labels Crypto Ecc Keys.

(** ratchet/sender.go:38-46. A nil one-time prekey is [None]. (Nil for the other keys panics;
    the callers never pass nil, so they are plain fields here.) *)
Record sender_params : Type := {
  sp_our_identity : id_pair;
  sp_our_base : ec_pair;
  sp_their_identity : arr32;
  sp_their_signed : arr32;
  sp_their_ratchet : arr32;
  sp_their_one_time : option arr32 }.

(** ratchet/receiver.go:38-46. *)
Record receiver_params : Type := {
  rp_our_identity : id_pair;
  rp_our_signed : ec_pair;
  rp_our_one_time : option ec_pair;
  rp_our_ratchet : ec_pair;
  rp_their_base : arr32;
  rp_their_identity : arr32 }.

(** ratchet/symmetric.go:10-18. *)
Record symmetric_params : Type := {
  yp_our_base : ec_pair;
  yp_our_ratchet : ec_pair;
  yp_our_identity : id_pair;
  yp_their_base : arr32;
  yp_their_ratchet : arr32;
  yp_their_identity : arr32 }.

(** ratchet/ratchet.go:18-24 genDiscontinuity *)
Definition discontinuity : bytes := repeat xff 32.

(** .PrivateKey().Serialize() on a key pair: nil private key panics. *)
Definition priv_of (p : ec_pair) : res arr32 :=
  match kp_priv p with Some k => Ok k | None => Panic end.

Section X3dh.
Context (C : crypto).

(** Bytes fed to the KDF: discontinuity and the DH outputs in order. *)
Definition master_secret (d1 d2 d3 : arr32) (d4 : option arr32) : bytes :=
  discontinuity ++ abytes d1 ++ abytes d2 ++ abytes d3 ++
  match d4 with Some d => abytes d | None => [] end.

(** ratchet/ratchet.go:77-89 and 143-155 *)
Definition derive_session (ms : bytes) : res session_keys :=
  km <- derive_secrets C ms None x3dh_info root_secrets_size ;; Ok (derived_secrets km).

(** ratchet/ratchet.go:29-90 CalculateSenderSession *)
Definition calculate_sender_session (p : sender_params) : res session_keys :=
  let d1 := shared_secret C (sp_their_signed p) (ip_priv (sp_our_identity p)) in
  base <- priv_of (sp_our_base p) ;;
  let d2 := shared_secret C (sp_their_identity p) base in
  let d3 := shared_secret C (sp_their_signed p) base in
  let d4 := match sp_their_one_time p with
            | Some otk => Some (shared_secret C otk base)
            | None => None
            end in
  derive_session (master_secret d1 d2 d3 d4).

(** ratchet/ratchet.go:94-156 CalculateReceiverSession *)
Definition calculate_receiver_session (p : receiver_params) : res session_keys :=
  signed <- priv_of (rp_our_signed p) ;;
  let d1 := shared_secret C (rp_their_identity p) signed in
  let d2 := shared_secret C (rp_their_base p) (ip_priv (rp_our_identity p)) in
  let d3 := shared_secret C (rp_their_base p) signed in
  match rp_our_one_time p with
  | Some otk =>
      o <- priv_of otk ;;
      derive_session (master_secret d1 d2 d3 (Some (shared_secret C (rp_their_base p) o)))
  | None => derive_session (master_secret d1 d2 d3 None)
  end.

(** binary.BigEndian.Uint32: the first four bytes (panics on fewer; Serialize always yields 33). *)
Definition be_uint32 (l : bytes) : N :=
  match l with
  | a :: b :: c :: d :: _ => ((b2n a * 256 + b2n b) * 256 + b2n c) * 256 + b2n d
  | _ => 0
  end%N.

(** ratchet/ratchet.go:192-197 isSender *)
Definition is_sender (our their : arr32) : bool :=
  (be_uint32 (ser_pub our) <? be_uint32 (ser_pub their))%N.

(** ratchet/ratchet.go:161-187 CalculateSymmetricSession *)
Definition calculate_symmetric_session (p : symmetric_params) : res session_keys :=
  if is_sender (kp_pub (yp_our_base p)) (yp_their_base p) then
    calculate_sender_session
      {| sp_our_identity := yp_our_identity p; sp_our_base := yp_our_base p;
         sp_their_identity := yp_their_identity p; sp_their_signed := yp_their_base p;
         sp_their_ratchet := yp_their_ratchet p; sp_their_one_time := None |}
  else
    calculate_receiver_session
      {| rp_our_identity := yp_our_identity p; rp_our_signed := yp_our_base p;
         rp_our_one_time := None; rp_our_ratchet := yp_our_ratchet p;
         rp_their_base := yp_their_base p; rp_their_identity := yp_their_identity p |}.
End X3dh.
