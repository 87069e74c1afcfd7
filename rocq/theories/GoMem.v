(** GoMem.v: the byte slices of the caller. Go slices are windows into shared arrays; this file models the calls that take a caller's slice
    at the level of memory: which bytes they write, and which memory the slices they return occupy. *)
From Verif Require Import Base Labels Crypto Bytehelper Ecc Cbc Keys Messages SessionState SessionRecord SessionBuilder SessionCipher Address World Group.
From Coq Require Import List.
Import ListNotations.

(** A []byte: array, offset into it, length and capacity. The arrays are listed in the order of their allocation and are never freed. *)
Record slice : Type := { sl_arr : nat; sl_off : nat; sl_len : nat; sl_cap : nat }.
Definition heap : Type := list bytes.

Definition array_of (h : heap) (a : nat) : bytes := nth a h [].
(** The contents of a slice now. *)
Definition read (h : heap) (s : slice) : bytes := firstn (sl_len s) (skipn (sl_off s) (array_of h (sl_arr s))).
Definition overwrite (l : bytes) (i : nat) (b : bytes) : bytes := firstn i l ++ b ++ skipn (i + length b) l.
Fixpoint set_array (a : nat) (l : bytes) (h : heap) : heap :=
  match a, h with
  | O, _ :: h' => l :: h'
  | S a', x :: h' => x :: set_array a' l h'
  | _, [] => []
  end.
(** copy into the array [a] from index [i] on *)
Definition write (h : heap) (a i : nat) (b : bytes) : heap := set_array a (overwrite (array_of h a) i b) h.
(** make([]byte, len(b)), filled with [b] *)
Definition alloc (h : heap) (b : bytes) : heap * slice :=
  (h ++ [b], {| sl_arr := length h; sl_off := 0; sl_len := length b; sl_cap := length b |}).
(** The builtin append(s, b...): in place where the capacity allows. The capacity of a new array is not observable here (the result of the only
    append below is read and dropped), so it is its length. *)
Definition go_append (h : heap) (s : slice) (b : bytes) : heap * slice :=
  if (sl_len s + length b <=? sl_cap s)%nat
  then (write h (sl_arr s) (sl_off s + sl_len s) b, {| sl_arr := sl_arr s; sl_off := sl_off s; sl_len := sl_len s + length b; sl_cap := sl_cap s |})
  else alloc h (read h s ++ b).
(** s[:n] *)
Definition take (n : nat) (s : slice) : slice := {| sl_arr := sl_arr s; sl_off := sl_off s; sl_len := n; sl_cap := sl_cap s |}.
(** s[n:] *)
Definition drop (n : nat) (s : slice) : slice := {| sl_arr := sl_arr s; sl_off := sl_off s + n; sl_len := sl_len s - n; sl_cap := sl_cap s - n |}.

(** util/bytehelper/byte.go:92-97 CopySlice *)
Definition mem_copy (h : heap) (s : slice) : heap * slice := alloc h (read h s).

(** cipher/cbc.go:86-90 pad *)
Definition mem_pad (h : heap) (s : slice) (bs : nat) : heap * slice :=
  let p := (bs - sl_len s mod bs)%nat in go_append h s (repeat (n2b (N.of_nat p)) p).

(** cipher/cbc.go:92-101 unpad *)
Definition mem_unpad (h : heap) (s : slice) : res slice :=
  match rev (read h s) with
  | [] => Panic
  | b :: _ => let p := N.to_nat (b2n b) in if (sl_len s <? p)%nat then Err EPadTooLong else Ok (take (sl_len s - p) s)
  end.

Section Mem.
Context (C : crypto).

(** cipher/cbc.go:54-84 EncryptCbc. The IV is a value: crypto/cipher copies it, and every caller in this code derives it freshly. *)
Definition mem_encrypt_cbc (iv : option bytes) (key : bytes) (pt : slice) (g : rng) (h : heap) : res slice * heap * rng :=
  let '(h1, p) := mem_pad h pt 16 in
  if negb (sl_len p mod 16 =? 0)%nat then (Err EInvalidBlockSize, h1, g)
  else if negb (aes_key_ok key) then (Err EAesKeySize, h1, g)
  else match iv with
       | None =>
           match rng_read 16 g with
           | (Some v, g') => let '(h2, ct) := alloc h1 (abytes v ++ cbc_enc C (blocks (read h1 p)) key (abytes v) (read h1 p)) in (Ok ct, h2, g')
           | (None, g') => (Err ERand, fst (alloc h1 (repeat x00 (16 + sl_len p))), g')
           end
       | Some v =>
           if negb (length v =? 16)%nat then (Panic, fst (alloc h1 (repeat x00 (sl_len p))), g)
           else let '(h2, ct) := alloc h1 (cbc_enc C (blocks (read h1 p)) key v (read h1 p)) in (Ok ct, h2, g)
       end.

(** cipher/cbc.go:29-49 DecryptCbc: in place; the result is a part of the ciphertext slice. *)
Definition mem_decrypt_cbc (iv : option bytes) (key : bytes) (ct : slice) (h : heap) : res slice * heap :=
  if negb (aes_key_ok key) then (Err EAesKeySize, h)
  else if (sl_len ct <? 16)%nat then (Err ECipherTooShort, h)
  else
    let '(v, ct') := match iv with Some v => (v, ct) | None => (read h (take 16 ct), drop 16 ct) end in
    if negb (length v =? 16)%nat then (Panic, h)
    else if negb (sl_len ct' mod 16 =? 0)%nat then (Panic, h)
    else let h1 := write h (sl_arr ct') (sl_off ct') (cbc_dec C (blocks (read h ct')) key v (read h ct')) in (mem_unpad h1 ct', h1).

(** session/cipher.go:351-354 decrypt: works on a copy of the body. *)
Definition mem_decrypt_body (k : msg_keys) (body : slice) (h : heap) : res slice * heap :=
  let '(h1, b) := mem_copy h body in mem_decrypt_cbc (Some (mk_iv k)) (mk_cipher k) b h1.

(** session/cipher.go:65-128 Encrypt (358-361 encrypt), with the caller's plaintext slice. The fields of the new message are read out of the new
    ciphertext array. *)
Definition mem_encrypt (v : view) (pt : slice) (h : heap) : res ct_msg * record * list effect * heap :=
  let r := v_load v in
  let s := r_cur r in
  match s_sender s with
  | None => (Panic, r, [], h)
  | Some sc =>
      let ck := ch_key sc in
      let mk := message_keys C ck in
      let '(o, h1, _) := mem_encrypt_cbc (Some (mk_iv mk)) (mk_cipher mk) pt [] h in
      match o with
      | Err e => (Err e, r, [], h1)
      | Panic => (Panic, r, [], h1)
      | Ok ct =>
          let body := read h1 ct in
          match s_local_id s, s_remote_id s with
          | Some lid, Some rid =>
              match new_signal_message C (s_version s) (ck_index ck) (s_prev_counter s) (mk_mac mk) (kp_pub (ch_pair sc)) body lid rid with
              | Err e => (Err e, r, [], h1)
              | Panic => (Panic, r, [], h1)
              | Ok sm =>
                  match (match s_pending s with
                         | None => Ok (CSignal sm)
                         | Some p =>
                             pm <- new_prekey_message (s_version s) (s_local_reg s) (pp_id p) (pp_signed p) (pp_base p) lid sm ;;
                             Ok (CPreKey pm)
                         end) with
                  | Err e => (Err e, r, [], h1)
                  | Panic => (Panic, r, [], h1)
                  | Ok m =>
                      let r' := set_cur (set_sender_chain_key (next_key C ck) s) r in
                      (Ok m, r', [SaveIdentity rid; StoreSession r'], h1)
                  end
              end
          | _, _ => (Panic, r, [], h1)
          end
      end
  end.
(** The same over the stores of a party (World.v w_encrypt). *)
Definition mw_encrypt (a : address) (pt : slice) (w : world) (h : heap) : res ct_msg * world * heap :=
  let '(o, _, es, h1) := mem_encrypt (view_of w a) pt h in
  let '(w', ok) := commit a es w in (seal ok o, w', h1).

(** A sender key message object: its ciphertext is a slice (protocol/sender_key_message.go:109-116). *)
Record mskm : Type := { mm_id : N; mm_iter : N; mm_ct : slice; mm_version : N; mm_sig : option bytes }.
Definition skm_now (h : heap) (m : mskm) : skm :=
  {| km_id := mm_id m; km_iter := mm_iter m; km_ct := Some (read h (mm_ct m)); km_version := mm_version m; km_sig := mm_sig m |}.

(** groups/cipher.go:37-69 Encrypt: the message returned holds the new ciphertext array. *)
Definition mem_group_encrypt (load : option grecord) (pt : slice) (g : rng) (h : heap) : res mskm * option grecord * list geffect * rng * heap :=
  match load with
  | None => (Panic, None, [], g, h)
  | Some r =>
      match g_first r with
      | Err e => (Err e, Some r, [], g, h)
      | Panic => (Panic, Some r, [], g, h)
      | Ok s =>
          match g_message_key C (gs_chain s) with
          | Err e => (Err e, Some r, [], g, h)
          | Panic => (Panic, Some r, [], g, h)
          | Ok k =>
              let '(o, h1, _) := mem_encrypt_cbc (Some (gm_iv k)) (gm_cipher k) pt [] h in
              match o with
              | Err e => (Err e, Some r, [], g, h1)
              | Panic => (Panic, Some r, [], g, h1)
              | Ok ct =>
                  match new_sender_key_message C (gs_id s) (gm_iter k) (read h1 ct) (kp_priv (gs_signing s)) g with
                  | (Err e, g1) => (Err e, Some r, [], g1, h1)
                  | (Panic, g1) => (Panic, Some r, [], g1, h1)
                  | (Ok m, g1) =>
                      let r' := g_upd_first (gset_chain (g_next C (gs_chain s)) s) r in
                      (Ok {| mm_id := km_id m; mm_iter := km_iter m; mm_ct := ct; mm_version := km_version m; mm_sig := km_sig m |}, Some r', [StoreSenderKey r'], g1, h1)
                  end
              end
          end
      end
  end.

(** groups/cipher.go:73-107 Decrypt: decrypts the message's own ciphertext slice in place and returns a part of it. *)
Definition mem_group_decrypt (load : option grecord) (m : mskm) (h : heap) : res slice * option grecord * list geffect * heap :=
  match load with
  | None => (Panic, None, [], h)
  | Some [] => (Err ENoSenderKey, Some [], [], h)
  | Some r =>
      match g_by_id (mm_id m) r with
      | Err e => (Err e, Some r, [], h)
      | Panic => (Panic, Some r, [], h)
      | Ok s =>
          if negb (verify_signature C (kp_pub (gs_signing s)) (skm_unsigned (skm_now h m)) (skm_signature (skm_now h m)))
          then (Err EVerification, Some r, [], h)
          else
            match g_get_key C s (mm_iter m) with
            | (Err e, s') => (Err e, Some (g_upd_id (mm_id m) s' r), [], h)
            | (Panic, s') => (Panic, Some (g_upd_id (mm_id m) s' r), [], h)
            | (Ok k, s') =>
                let r' := g_upd_id (mm_id m) s' r in
                match mem_decrypt_cbc (Some (gm_iv k)) (gm_cipher k) (mm_ct m) h with
                | (Ok pt, h1) => (Ok pt, Some r', [StoreSenderKey r'], h1)
                | (Err e, h1) => (Err e, Some r', [], h1)
                | (Panic, h1) => (Panic, Some r', [], h1)
                end
            end
      end
  end.

(** cipher/cipher.go:34-48 Encrypt: pads in a new array. *)
Definition mem_cipher_encrypt (iv key : bytes) (pt : slice) (h : heap) : res slice * heap :=
  if negb (aes_key_ok key) then (Err EAesKeySize, h)
  else match pkcs7_pad (read h pt) 16 with
       | Ok p =>
           let '(h1, _) := alloc h p in
           if negb (length iv =? 16)%nat then (Panic, h1)
           else let '(h2, ct) := alloc h1 (cbc_enc C (blocks p) key iv p) in (Ok ct, h2)
       | Err e => (Err e, h)
       | Panic => (Panic, h)
       end.
(** cipher/cipher.go:13-30 Decrypt: in place. *)
Definition mem_cipher_decrypt (iv key : bytes) (ct : slice) (h : heap) : res slice * heap :=
  if negb (aes_key_ok key) then (Err EAesKeySize, h)
  else if (sl_len ct <? 16)%nat then (Err ECipherTooShort, h)
  else if negb (length iv =? 16)%nat then (Panic, h)
  else if negb (sl_len ct mod 16 =? 0)%nat then (Panic, h)
  else let h1 := write h (sl_arr ct) (sl_off ct) (cbc_dec C (blocks (read h ct)) key iv (read h ct)) in
       match pkcs7_unpad (read h1 ct) 16 with
       | Ok p => (Ok (take (length p) ct), h1)
       | Err e => (Err e, h1)
       | Panic => (Panic, h1)
       end.

(** provision/cipher.go:37-80 Decrypt is not here: it decrypts inside the envelope it has just decoded, and returns a string. *)

(** Encrypt calls of one party, one after the other, on slices of one memory. *)
Fixpoint mw_encrypts (a : address) (l : list slice) (w : world) (h : heap) : list (res ct_msg) * world * heap :=
  match l with
  | [] => ([], w, h)
  | s :: l' =>
      let '(o, w1, h1) := mw_encrypt a s w h in
      let '(os, w2, h2) := mw_encrypts a l' w1 h1 in (o :: os, w2, h2)
  end.
End Mem.
