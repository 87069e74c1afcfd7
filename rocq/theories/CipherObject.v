(** CipherObject.v: the objects a program makes before it calls anything: a builder carries an address, and a cipher carries an address and
    a builder, which need not be for the same address, or no builder at all. World.v has one address per operation; this file has the
    general case. *)
From Verif Require Import Base Labels Crypto Ecc Keys X3dh Messages SessionState SessionRecord SessionBuilder SessionCipher Address World.

(** session/cipher.go:53-61 Cipher; session/session.go:71-78 Builder, of which only the address matters here: the stores are those of the
    same party. *)
Record cipher_obj : Type := { co_address : address; co_builder : option address }.
(** session/cipher.go:23-33 NewCipher *)
Definition new_cipher (builder a : address) : cipher_obj := {| co_address := a; co_builder := Some builder |}.
(** session/cipher.go:35-48 NewCipherFromSession: the builder field is not set *)
Definition new_cipher_from_session (a : address) : cipher_obj := {| co_address := a; co_builder := None |}.

Section Object.
Context (C : crypto).

(** What DecryptMessage sees: the record is the one of the cipher's address (session/cipher.go:169), the trust check is made for the
    builder's (session/session.go:87). *)
Definition mixed_view (w : world) (a b : address) : view :=
  {| v_load := v_load (view_of w a); v_contains := v_contains (view_of w a); v_trusted := v_trusted (view_of w b);
     v_identity := w_self w; v_reg := w_reg w; v_prekey := w_prekeys w; v_signed := w_signed w |}.
(** The identity key is saved for the builder's address (session/session.go:98), the record for the cipher's (session/cipher.go:179). *)
Definition target (a b : address) (e : effect) : address := match e with SaveIdentity _ => b | _ => a end.
Fixpoint commit_mixed (a b : address) (es : list effect) (w : world) : world * bool :=
  match es with
  | [] => (w, true)
  | e :: rest => match apply_effect (target a b e) e w with Some w' => commit_mixed a b rest w' | None => (w, false) end
  end.

(** session/cipher.go:167-184 DecryptMessageReturnKey. Without a builder, Process is called on a nil pointer and follows it
    (session/session.go:87). *)
Definition o_decrypt_message (o : cipher_obj) (m : pk_msg) (g : rng) (w : world) : res (bytes * msg_keys) * world * rng :=
  match co_builder o with
  | None => (Panic, w, g)
  | Some b =>
      let '(r, _, es, g') := decrypt_message C (mixed_view w (co_address o) b) m g in
      let '(w', ok) := commit_mixed (co_address o) b es w in (seal ok r, w', g')
  end.
(** session/cipher.go:65-128 Encrypt and 140-160 DecryptAndGetKey use the cipher's own fields only. *)
Definition o_encrypt (o : cipher_obj) (pt : bytes) (w : world) : res ct_msg * world := w_encrypt C (co_address o) pt w.
Definition o_decrypt (o : cipher_obj) (m : sig_msg) (g : rng) (w : world) : res (bytes * msg_keys) * world * rng := w_decrypt C (co_address o) m g w.
End Object.
