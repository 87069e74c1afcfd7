(** Provision.v: provision/cipher.go, after base64 and JSON decoding (lines 38-50). *)
From Verif Require Import Base Labels Crypto Ecc Cbc Keys.

(** provision/cipher.go:26-29 ProvisionEnvelope *)
Record envelope : Type := { en_public : bytes; en_body : bytes }.

Section Provision.
Context (C : crypto).

(** provision/cipher.go:31-35 verifyMAC *)
Definition verify_mac_full (key input mac : bytes) : bool := bytes_eqb (hmac C key input) mac.

(** provision/cipher.go:52-79. A DecodePoint error is ignored and the nil key then dereferenced (52-53);
    a wrong version byte dereferences a nil error (56); slice bounds panic below 49 bytes (59-62). *)
Definition provision_decrypt (our_priv : bytes) (e : envelope) : res bytes :=
  match decode_point (en_public e) with
  | Err _ => Panic
  | Panic => Panic
  | Ok pub =>
      let m := en_body e in
      match m with
      | [] => Panic
      | v :: _ =>
          if negb (Byte.eqb v x01) then Panic
          else if (length m <? 49)%nat then Panic
          else
            let iv := firstn 16 (skipn 1 m) in
            let mac := skipn (length m - 32) m in
            let authed := firstn (length m - 32) m in
            let ct := skipn 17 authed in
            secrets <- derive_secrets C (abytes (shared_secret C pub (to_arr 32 our_priv))) None
                         provision_info root_secrets_size ;;
            if verify_mac_full (skipn 32 secrets) authed mac
            then decrypt_cbc C (Some iv) (firstn 32 secrets) ct
            else Err EProvisionMac
      end
  end.
End Provision.
