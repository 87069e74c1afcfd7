(** PropertiesStandard.v: C71, the laws assumed of cryptography hold for the standard primitives, so the conversation theorems hold for
    the library with no assumption about them. The primitives: Sha2.v, Aes.v, X25519.v, XedSpec.v (RFC 8032). *)
From Verif Require Import Base Labels Crypto Bytehelper Ecc Cbc Wire Keys X3dh Messages SessionState SessionRecord SessionBuilder SessionCipher Address World Group
  FieldSpec ScalarSpec Fp CurveSpec CurveGroup EdBase Edwards XEdDSA XedSpec XedProofs XedRef Sha2 Aes X25519 AesProofs LadderProofs
  SessionSpec ConvSpec PropertiesConv GroupSpec GroupConvSpec PropertiesGroupConv.
From Coq Require Import ZArith NArith List Lia.
Import ListNotations.

(** HMAC-SHA-256, X25519, AES, the library's XEdDSA over SHA-512 and Ed25519 verification. *)
Definition standard : crypto :=
  with_xeddsa {| hmac := hmac_sha256; x_base := x25519_base; x_mult := x25519; aes_enc := aes_encrypt; aes_dec := aes_decrypt;
                 xed_sign := fun _ _ _ => zero_arr 64; xed_verify := fun _ _ _ => false |} sha512 (ref_verify sha512).

(** X25519 as RFC 7748 computes it (the Montgomery ladder) is multiplication of points of the curve, for every scalar and every
    u-coordinate of a point; in particular for the points of small order and for unreduced u-coordinates. *)
Theorem C71_x25519_is_multiplication :
  (forall k u P, on_curve P -> ofZ (le_val (abytes u) mod 2 ^ 255) = mont_u P ->
    le_val (abytes (x25519 k u)) = fz (mont_u (zmul (scalar_of (abytes k)) P))) /\
  (forall k, le_val (abytes (x25519_base k)) = fz (mont_u (zmul (scalar_of (abytes k)) base_point))).
Proof. exact x25519_ok. Qed.

(** InvCipher undoes Cipher, whatever the key. *)
Theorem C71_aes_inverse : forall k b, length b = 16%nat -> aes_decrypt k (aes_encrypt k b) = b.
Proof. exact aes_inverse. Qed.

Theorem C71_standard_laws : crypto_laws standard.
Proof.
  apply laws_of_external. constructor; cbn [hmac aes_enc aes_dec x_mult x_base].
  - exact hmac_sha256_len.
  - intros k b _ H. exact (aes_encrypt_len k b H).
  - intros k b _ H. exact (aes_decrypt_len k b H).
  - intros k b _ H. exact (aes_inverse k b H).
  - exact x25519_ok.
  - exact (ref_verify_ok sha512).
Qed.

(** Two parties: any schedule of sends and deliveries gives what the reference prescribes (C06), here with nothing assumed. *)
Theorem C71_any_schedule : forall addr wa wb b i sid signed otk g g1 g2 eph ratchet wa1 g' evs,
  strangers standard addr wa wb b i sid signed otk ->
  generate_key_pair standard g = (Ok eph, g1) -> generate_key_pair standard g1 = (Ok ratchet, g2) ->
  w_process_bundle standard (addr Bob) b g wa = (Ok tt, wa1, g') ->
  fair standard signed ratchet evs ->
  conforms (crun standard addr (both wa1 wb) (fun _ => []) evs) (cspec start_view (fun _ => []) evs).
Proof. exact (C06_any_schedule standard C71_standard_laws). Qed.

(** Groups: the same (C66). *)
Theorem C71_group_conversation : forall addr, (forall i j, addr i = addr j -> i = j) -> forall evs,
  (N.of_nat (sends_in evs) < 4294967296)%N -> (joins_in evs < 2000)%nat -> Forall (proper standard) evs ->
  as_prescribed (mrun standard addr evs quiet) (rspec evs (fun _ => fresh_chan)).
Proof. exact (C66_group_conversation standard C71_standard_laws). Qed.

(** Test vectors (hashlib, openssl, RFC 5869 appendix A.1, RFC 7748 section 5.2), by evaluation. *)
Check (eq_refl ([xe3; xb0; xc4; x42; x98; xfc; x1c; x14; x9a; xfb; xf4; xc8; x99; x6f; xb9; x24; x27; xae; x41; xe4; x64; x9b; x93; x4c; xa4; x95; x99; x1b; x78; x52; xb8; x55]) <: sha256 [] = [xe3; xb0; xc4; x42; x98; xfc; x1c; x14; x9a; xfb; xf4; xc8; x99; x6f; xb9; x24; x27; xae; x41; xe4; x64; x9b; x93; x4c; xa4; x95; x99; x1b; x78; x52; xb8; x55]).
Check (eq_refl ([xba; x78; x16; xbf; x8f; x01; xcf; xea; x41; x41; x40; xde; x5d; xae; x22; x23; xb0; x03; x61; xa3; x96; x17; x7a; x9c; xb4; x10; xff; x61; xf2; x00; x15; xad]) <: sha256 [x61; x62; x63] = [xba; x78; x16; xbf; x8f; x01; xcf; xea; x41; x41; x40; xde; x5d; xae; x22; x23; xb0; x03; x61; xa3; x96; x17; x7a; x9c; xb4; x10; xff; x61; xf2; x00; x15; xad]).
Check (eq_refl ([xda; x2a; xe4; xd6; xb3; x67; x48; xf2; xa3; x18; xf2; x3e; x7a; xb1; xdf; xdf; x45; xac; xdc; x9d; x04; x9b; xd8; x0e; x59; xde; x82; xa6; x08; x95; xf5; x62]) <: sha256 [x00; x01; x02; x03; x04; x05; x06; x07; x08; x09; x0a; x0b; x0c; x0d; x0e; x0f; x10; x11; x12; x13; x14; x15; x16; x17; x18; x19; x1a; x1b; x1c; x1d; x1e; x1f; x20; x21; x22; x23; x24; x25; x26; x27; x28; x29; x2a; x2b; x2c; x2d; x2e; x2f; x30; x31; x32; x33; x34; x35; x36; x37] = [xda; x2a; xe4; xd6; xb3; x67; x48; xf2; xa3; x18; xf2; x3e; x7a; xb1; xdf; xdf; x45; xac; xdc; x9d; x04; x9b; xd8; x0e; x59; xde; x82; xa6; x08; x95; xf5; x62]).
Check (eq_refl ([xdd; xaf; x35; xa1; x93; x61; x7a; xba; xcc; x41; x73; x49; xae; x20; x41; x31; x12; xe6; xfa; x4e; x89; xa9; x7e; xa2; x0a; x9e; xee; xe6; x4b; x55; xd3; x9a; x21; x92; x99; x2a; x27; x4f; xc1; xa8; x36; xba; x3c; x23; xa3; xfe; xeb; xbd; x45; x4d; x44; x23; x64; x3c; xe8; x0e; x2a; x9a; xc9; x4f; xa5; x4c; xa4; x9f]) <: abytes (sha512 [x61; x62; x63]) = [xdd; xaf; x35; xa1; x93; x61; x7a; xba; xcc; x41; x73; x49; xae; x20; x41; x31; x12; xe6; xfa; x4e; x89; xa9; x7e; xa2; x0a; x9e; xee; xe6; x4b; x55; xd3; x9a; x21; x92; x99; x2a; x27; x4f; xc1; xa8; x36; xba; x3c; x23; xa3; xfe; xeb; xbd; x45; x4d; x44; x23; x64; x3c; xe8; x0e; x2a; x9a; xc9; x4f; xa5; x4c; xa4; x9f]).
Check (eq_refl ([xc5; xfb; xd7; x31; xd1; x9d; x2a; xe1; x18; x0f; x00; x1b; xe7; x2c; x2c; x1a; xab; xa1; xd7; xb0; x94; xb3; x74; x88; x80; xe2; x45; x93; xb8; xe1; x17; xa7; x50; xe1; x1c; x1b; xd8; x67; xcc; x2f; x96; xda; xce; x8c; x8b; x74; xab; xd2; xd5; xc4; xf2; x36; xbe; x44; x4e; x77; xd3; x0d; x19; x16; x17; x40; x70; xb9]) <: abytes (sha512 [x00; x01; x02; x03; x04; x05; x06; x07; x08; x09; x0a; x0b; x0c; x0d; x0e; x0f; x10; x11; x12; x13; x14; x15; x16; x17; x18; x19; x1a; x1b; x1c; x1d; x1e; x1f; x20; x21; x22; x23; x24; x25; x26; x27; x28; x29; x2a; x2b; x2c; x2d; x2e; x2f; x30; x31; x32; x33; x34; x35; x36; x37; x38; x39; x3a; x3b; x3c; x3d; x3e; x3f; x40; x41; x42; x43; x44; x45; x46; x47; x48; x49; x4a; x4b; x4c; x4d; x4e; x4f; x50; x51; x52; x53; x54; x55; x56; x57; x58; x59; x5a; x5b; x5c; x5d; x5e; x5f; x60; x61; x62; x63; x64; x65; x66; x67; x68; x69; x6a; x6b; x6c; x6d; x6e; x6f]) = [xc5; xfb; xd7; x31; xd1; x9d; x2a; xe1; x18; x0f; x00; x1b; xe7; x2c; x2c; x1a; xab; xa1; xd7; xb0; x94; xb3; x74; x88; x80; xe2; x45; x93; xb8; xe1; x17; xa7; x50; xe1; x1c; x1b; xd8; x67; xcc; x2f; x96; xda; xce; x8c; x8b; x74; xab; xd2; xd5; xc4; xf2; x36; xbe; x44; x4e; x77; xd3; x0d; x19; x16; x17; x40; x70; xb9]).
Check (eq_refl ([xb5; x9f; x11; x78; x1f; x13; xeb; xdd; xc6; xe2; x8e; x44; xba; x02; x14; xd7; x9f; x27; xe3; xfe; x1e; xc6; x43; xe0; x9a; x9f; xfe; x90; xee; xce; xff; x7b]) <: hmac_sha256 [x6b; x65; x79] [x77; x68; x61; x74] = [xb5; x9f; x11; x78; x1f; x13; xeb; xdd; xc6; xe2; x8e; x44; xba; x02; x14; xd7; x9f; x27; xe3; xfe; x1e; xc6; x43; xe0; x9a; x9f; xfe; x90; xee; xce; xff; x7b]).
Check (eq_refl ([xdf; xbf; xfe; xe4; x67; x1b; xad; x00; xed; x5d; x1e; x19; x99; xd5; x5e; xd3; xb0; xcc; x77; x4a; xc3; x57; xf9; xeb; xf6; x49; xc1; x61; x24; x14; xfc; xec]) <: hmac_sha256 [x00; x01; x02; x03; x04; x05; x06; x07; x08; x09; x0a; x0b; x0c; x0d; x0e; x0f; x10; x11; x12; x13; x14; x15; x16; x17; x18; x19; x1a; x1b; x1c; x1d; x1e; x1f; x20; x21; x22; x23; x24; x25; x26; x27; x28; x29; x2a; x2b; x2c; x2d; x2e; x2f; x30; x31; x32; x33; x34; x35; x36; x37; x38; x39; x3a; x3b; x3c; x3d; x3e; x3f; x40] [x61; x62; x63] = [xdf; xbf; xfe; xe4; x67; x1b; xad; x00; xed; x5d; x1e; x19; x99; xd5; x5e; xd3; xb0; xcc; x77; x4a; xc3; x57; xf9; xeb; xf6; x49; xc1; x61; x24; x14; xfc; xec]).
Check (eq_refl ([x69; xc4; xe0; xd8; x6a; x7b; x04; x30; xd8; xcd; xb7; x80; x70; xb4; xc5; x5a]) <: aes_encrypt [x00; x01; x02; x03; x04; x05; x06; x07; x08; x09; x0a; x0b; x0c; x0d; x0e; x0f] [x00; x11; x22; x33; x44; x55; x66; x77; x88; x99; xaa; xbb; xcc; xdd; xee; xff] = [x69; xc4; xe0; xd8; x6a; x7b; x04; x30; xd8; xcd; xb7; x80; x70; xb4; xc5; x5a]).
Check (eq_refl ([xdd; xa9; x7c; xa4; x86; x4c; xdf; xe0; x6e; xaf; x70; xa0; xec; x0d; x71; x91]) <: aes_encrypt [x00; x01; x02; x03; x04; x05; x06; x07; x08; x09; x0a; x0b; x0c; x0d; x0e; x0f; x10; x11; x12; x13; x14; x15; x16; x17] [x00; x11; x22; x33; x44; x55; x66; x77; x88; x99; xaa; xbb; xcc; xdd; xee; xff] = [xdd; xa9; x7c; xa4; x86; x4c; xdf; xe0; x6e; xaf; x70; xa0; xec; x0d; x71; x91]).
Check (eq_refl ([x8e; xa2; xb7; xca; x51; x67; x45; xbf; xea; xfc; x49; x90; x4b; x49; x60; x89]) <: aes_encrypt [x00; x01; x02; x03; x04; x05; x06; x07; x08; x09; x0a; x0b; x0c; x0d; x0e; x0f; x10; x11; x12; x13; x14; x15; x16; x17; x18; x19; x1a; x1b; x1c; x1d; x1e; x1f] [x00; x11; x22; x33; x44; x55; x66; x77; x88; x99; xaa; xbb; xcc; xdd; xee; xff] = [x8e; xa2; xb7; xca; x51; x67; x45; xbf; xea; xfc; x49; x90; x4b; x49; x60; x89]).
Check (eq_refl ([x3c; xb2; x5f; x25; xfa; xac; xd5; x7a; x90; x43; x4f; x64; xd0; x36; x2f; x2a; x2d; x2d; x0a; x90; xcf; x1a; x5a; x4c; x5d; xb0; x2d; x56; xec; xc4; xc5; xbf; x34; x00; x72; x08; xd5; xb8; x87; x18; x58; x65]) <: hkdf_bytes standard [x0b; x0b; x0b; x0b; x0b; x0b; x0b; x0b; x0b; x0b; x0b; x0b; x0b; x0b; x0b; x0b; x0b; x0b; x0b; x0b; x0b; x0b] (Some [x00; x01; x02; x03; x04; x05; x06; x07; x08; x09; x0a; x0b; x0c]) [xf0; xf1; xf2; xf3; xf4; xf5; xf6; xf7; xf8; xf9] 42 = [x3c; xb2; x5f; x25; xfa; xac; xd5; x7a; x90; x43; x4f; x64; xd0; x36; x2f; x2a; x2d; x2d; x0a; x90; xcf; x1a; x5a; x4c; x5d; xb0; x2d; x56; xec; xc4; xc5; xbf; x34; x00; x72; x08; xd5; xb8; x87; x18; x58; x65]).
Check (eq_refl ([xc3; xda; x55; x37; x9d; xe9; xc6; x90; x8e; x94; xea; x4d; xf2; x8d; x08; x4f; x32; xec; xcf; x03; x49; x1c; x71; xf7; x54; xb4; x07; x55; x77; xa2; x85; x52]) <: abytes (x25519 (to_arr 32 [xa5; x46; xe3; x6b; xf0; x52; x7c; x9d; x3b; x16; x15; x4b; x82; x46; x5e; xdd; x62; x14; x4c; x0a; xc1; xfc; x5a; x18; x50; x6a; x22; x44; xba; x44; x9a; xc4]) (to_arr 32 [xe6; xdb; x68; x67; x58; x30; x30; xdb; x35; x94; xc1; xa4; x24; xb1; x5f; x7c; x72; x66; x24; xec; x26; xb3; x35; x3b; x10; xa9; x03; xa6; xd0; xab; x1c; x4c])) = [xc3; xda; x55; x37; x9d; xe9; xc6; x90; x8e; x94; xea; x4d; xf2; x8d; x08; x4f; x32; xec; xcf; x03; x49; x1c; x71; xf7; x54; xb4; x07; x55; x77; xa2; x85; x52]).

Print Assumptions C71_x25519_is_multiplication.
Print Assumptions C71_aes_inverse.
Print Assumptions C71_standard_laws.
Print Assumptions C71_any_schedule.
Print Assumptions C71_group_conversation.
