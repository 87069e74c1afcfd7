(** PreKeyRecords.v: state/record/prekey.go, state/record/signed_prekey.go. *)
From Verif Require Import Base Crypto Ecc Messages.

(** state/record/prekey.go:60-64 PreKeyStructure *)
Record pkr_struct : Type := { ks_id : N; ks_pub : bytes; ks_priv : bytes }.
(** state/record/prekey.go:68-72 PreKey *)
Record pkr : Type := { kr_struct : pkr_struct; kr_pair : ec_pair }.

(** state/record/prekey.go:47-57 NewPreKey: stores Serialize() of the public key (33 bytes); nil private key panics. *)
Definition new_pkr (id : N) (p : ec_pair) : res pkr :=
  match kp_priv p with
  | None => Panic
  | Some k => Ok {| kr_struct := {| ks_id := id; ks_pub := ser_pub (kp_pub p); ks_priv := abytes k |};
                    kr_pair := p |}
  end.

(** state/record/prekey.go:29-43 NewPreKeyFromStruct: SliceToArray of the stored slices *)
Definition pkr_from_struct (t : pkr_struct) : pkr :=
  {| kr_struct := t;
     kr_pair := {| kp_pub := to_arr 32 (ks_pub t); kp_priv := Some (to_arr 32 (ks_priv t)) |} |}.

(** state/record/prekey.go:75-78 ID, 81-83 KeyPair, 87-90 Serialize *)
Definition pkr_id (r : pkr) : opt_u32 := ou_some (ks_id (kr_struct r)).
Definition pkr_serialize (r : pkr) : pkr_struct := kr_struct r.

(** state/record/signed_prekey.go:70-76 SignedPreKeyStructure *)
Record skr_struct : Type := {
  zs_id : N; zs_pub : bytes; zs_priv : bytes; zs_sig : bytes; zs_time : Z }.
(** state/record/signed_prekey.go:80-85 SignedPreKey *)
Record skr : Type := { zr_struct : skr_struct; zr_pair : ec_pair; zr_sig : arr64 }.

(** state/record/signed_prekey.go:51-66 NewSignedPreKey *)
Definition new_skr (id : N) (time : Z) (p : ec_pair) (sig : arr64) : res skr :=
  match kp_priv p with
  | None => Panic
  | Some k => Ok {| zr_struct := {| zs_id := id; zs_pub := ser_pub (kp_pub p); zs_priv := abytes k;
                                    zs_sig := abytes sig; zs_time := time |};
                    zr_pair := p; zr_sig := sig |}
  end.

(** state/record/signed_prekey.go:30-47 NewSignedPreKeyFromStruct *)
Definition skr_from_struct (t : skr_struct) : skr :=
  {| zr_struct := t;
     zr_pair := {| kp_pub := to_arr 32 (zs_pub t); kp_priv := Some (to_arr 32 (zs_priv t)) |};
     zr_sig := to_arr 64 (zs_sig t) |}.

(** state/record/signed_prekey.go:109-112 Serialize *)
Definition skr_serialize (r : skr) : skr_struct := zr_struct r.
