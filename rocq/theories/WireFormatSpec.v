(** WireFormatSpec.v: key schedule and message format, written from RFC 5869, RFC 7748, the Double Ratchet and
    X3DH documents and the protocol buffer encoding, not from the Go code. Used by PropertiesKdf.v (C58). *)
From Verif Require Import Base Crypto.
From Coq Require Import String List.


Section Spec.
Context (C : crypto).

(** RFC 5869, section 2.3: T(0) is empty and T(i) = HMAC(PRK, T(i-1) | info | i). *)
Fixpoint rfc_T (prk info : bytes) (i : nat) : bytes :=
  match i with
  | O => []
  | S j => hmac C prk (rfc_T prk info j ++ info ++ [n2b (N.of_nat i)])
  end.

(** [okm] is the [n]-byte output of HKDF: the first [n] bytes of T(1) | T(2) | ... with PRK = HMAC(salt, ikm). *)
Definition hkdf_output (salt ikm info : bytes) (n : nat) (okm : bytes) : Prop :=
  length okm = n /\
  exists k rest, okm ++ rest = List.concat (map (rfc_T (hmac C salt ikm) info) (seq 1 k)).

Definition no_salt : bytes := repeat x00 32.

(** Double Ratchet, section 5.2 with the labels of the Signal protocol: the keys of one message. *)
Definition message_keys_of_chain (chain cipher mac iv : bytes) : Prop :=
  length cipher = 32%nat /\ length mac = 32%nat /\ length iv = 16%nat /\
  hkdf_output no_salt (hmac C chain [x01]) (str "WhisperMessageKeys"%string) 80 (cipher ++ mac ++ iv).

(** The chain key after [n] messages. *)
Fixpoint chain_after (n : nat) (chain : bytes) : bytes :=
  match n with O => chain | S k => hmac C (chain_after k chain) [x02] end.

(** The root step. *)
Definition root_step (root dh root' chain' : bytes) : Prop :=
  length root' = 32%nat /\ length chain' = 32%nat /\
  hkdf_output root dh (str "WhisperRatchet"%string) 64 (root' ++ chain').

(** X3DH: the secret is F | DH1 | DH2 | DH3 [| DH4] with F = 32 bytes 0xff. *)
Definition x3dh_secret (dh1 dh2 dh3 : arr32) (dh4 : option arr32) : bytes :=
  repeat xff 32 ++ abytes dh1 ++ abytes dh2 ++ abytes dh3 ++ match dh4 with Some d => abytes d | None => [] end.
Definition x3dh_output (secret root chain : bytes) : Prop :=
  length root = 32%nat /\ length chain = 32%nat /\
  hkdf_output no_salt secret (str "WhisperText"%string) 64 (root ++ chain).

(** Sender keys: the keys of one group message. *)
Definition group_keys_of_chain (chain iv cipher : bytes) : Prop :=
  length iv = 16%nat /\ length cipher = 32%nat /\
  hkdf_output no_salt (hmac C chain [x01]) (str "WhisperGroup"%string) 48 (iv ++ cipher).

(** CBC with PKCS#7 padding: the i-th ciphertext block is AES(key, p_i xor c_(i-1)), c_(-1) = iv. *)
Definition block (l : bytes) (i : nat) : bytes := firstn 16 (skipn (16 * i) l).
Definition xor_block (a b : bytes) : bytes :=
  map (fun p => n2b (N.lxor (b2n (fst p)) (b2n (snd p)))) (combine a b).
Definition cbc_ciphertext (key iv pt ct : bytes) : Prop :=
  exists n p, (1 <= p <= 16)%nat /\ length ct = (16 * n)%nat /\ (length pt + p = 16 * n)%nat /\
    forall i, (i < n)%nat ->
      block ct i = aes_enc C key (xor_block (block (pt ++ repeat (n2b (N.of_nat p)) p) i) (block (iv ++ ct) i)).

(** Base-128 varints: seven bits per byte, least significant first, high bit set on all but the last. *)
Inductive varint : N -> bytes -> Prop :=
| varint_last : forall n, (n < 128)%N -> varint n [n2b n]
| varint_more : forall n l, (128 <= n)%N -> varint (n / 128) l -> varint n (n2b (128 + n mod 128) :: l).

(** The protocol buffer SignalMessage: ratchetKey = 1, counter = 2, previousCounter = 3, ciphertext = 4; a key is
    the type byte 0x05 and 32 bytes. *)
Definition signal_proto (ratchet : arr32) (counter prev : N) (body l : bytes) : Prop :=
  exists vc vp vl, varint counter vc /\ varint prev vp /\ varint (N.of_nat (length body)) vl /\
    l = x0a :: x21 :: x05 :: abytes ratchet ++ x10 :: vc ++ x18 :: vp ++ x22 :: vl ++ body.

(** The message on the wire: version byte 0x33 (version 3 in both nibbles), protocol buffer, 8 MAC bytes; the MAC
    covers both identity keys, the sender's first, the version byte and the protocol buffer. *)
Definition signal_wire (mac_key : bytes) (sender receiver ratchet : arr32) (counter prev : N) (body wire : bytes) : Prop :=
  exists proto, signal_proto ratchet counter prev body proto /\
    wire = x33 :: proto ++
      firstn 8 (hmac C mac_key (x05 :: abytes sender ++ x05 :: abytes receiver ++ x33 :: proto)).

(** The protocol buffer PreKeySignalMessage after the version byte: preKeyId = 1 (when there is one), baseKey = 2,
    identityKey = 3, message = 4, registrationId = 5, signedPreKeyId = 6. *)
Definition prekey_wire (prekey_id : option N) (base identity : arr32) (inner : bytes) (reg signed : N) (wire : bytes) : Prop :=
  exists vi vl vr vs, match prekey_id with Some i => exists v, varint i v /\ vi = x08 :: v | None => vi = [] end /\
    varint (N.of_nat (length inner)) vl /\ varint reg vr /\ varint signed vs /\
    wire = x33 :: vi ++ x12 :: x21 :: x05 :: abytes base ++ x1a :: x21 :: x05 :: abytes identity ++
           x22 :: vl ++ inner ++ x28 :: vr ++ x30 :: vs.
End Spec.
