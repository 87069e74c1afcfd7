(** Toy.v: a concrete, computable instance of [crypto] satisfying [crypto_laws].

    It is not secure. It shows that the laws are consistent (theorems with a [crypto_laws] hypothesis are
    not vacuous) and runs the examples and counterexamples. *)
From Verif Require Import Base Crypto Cbc.

(** A 64-bit polynomial hash with a 32-byte output. *)
Definition mask64 : N := 18446744073709551615.
Definition toy_step (h : N) (b : byte) : N := N.land (h * 1103515253 + b2n b * 40503 + 12345) mask64.
Definition toy_hash (l : bytes) : N := fold_left toy_step l 7046029254386353131%N.
Definition toy_out (h : N) : bytes :=
  map (fun i => n2b (N.shiftr (N.land (h * (2654435761 + 2 * N.of_nat i * 40503)) mask64) 40)) (seq 0 32).

Definition toy_hmac (k m : bytes) : bytes :=
  toy_out (toy_hash (k ++ n2b (N.of_nat (length k)) :: m)).

Definition toy_xor (a b : arr32) : arr32 := to_arr 32 (xor_bytes (abytes a) (abytes b)).

Definition toy_block (k b : bytes) : bytes := xor_bytes b (firstn 16 k).

Definition toy_tag (k : arr32) (m : bytes) : arr64 :=
  to_arr 64 (toy_hmac (abytes k) m ++ toy_hmac m (abytes k)).

Definition toy : crypto := {|
  hmac := toy_hmac;
  x_base := fun k => k;
  x_mult := toy_xor;
  aes_enc := toy_block;
  aes_dec := toy_block;
  xed_sign := fun k m _ => toy_tag k m;
  xed_verify := fun k m s => arr_eqb s (toy_tag k m) |}.

Lemma byte_xor_comm : forall a b, byte_xor a b = byte_xor b a.
Proof. intros a b. unfold byte_xor. rewrite N.lxor_comm. reflexivity. Qed.

Lemma lxor_lt_256 : forall a b, (a < 256 -> b < 256 -> N.lxor a b < 256)%N.
Proof.
  intros a b Ha Hb.
  destruct (N.eq_dec (N.lxor a b) 0) as [E|E]; [rewrite E; reflexivity|].
  apply (N.log2_lt_pow2 _ 8); [lia|].
  eapply N.le_lt_trans; [apply N.log2_lxor|].
  destruct (N.eq_dec a 0) as [->|Ea]; destruct (N.eq_dec b 0) as [->|Eb]; cbn [N.log2].
  - cbn in E; congruence.
  - apply N.max_lub_lt; [reflexivity|]. apply (N.log2_lt_pow2 b 8); [lia|exact Hb].
  - apply N.max_lub_lt; [|reflexivity]. apply (N.log2_lt_pow2 a 8); [lia|exact Ha].
  - apply N.max_lub_lt; [apply (N.log2_lt_pow2 a 8)|apply (N.log2_lt_pow2 b 8)]; try lia; assumption.
Qed.

Lemma byte_xor_cancel : forall a b, byte_xor (byte_xor a b) b = a.
Proof.
  intros a b. unfold byte_xor. rewrite b2n_n2b.
  rewrite N.mod_small by (apply lxor_lt_256; apply b2n_lt).
  rewrite N.lxor_assoc, N.lxor_nilpotent, N.lxor_0_r. apply n2b_b2n.
Qed.

Lemma xor_bytes_comm : forall a b, xor_bytes a b = xor_bytes b a.
Proof.
  induction a as [|x a IH]; intros [|y b]; cbn; try reflexivity.
  rewrite byte_xor_comm, IH. reflexivity.
Qed.

Lemma xor_bytes_length : forall a b, length (xor_bytes a b) = Nat.min (length a) (length b).
Proof. induction a as [|x a IH]; intros [|y b]; cbn; try reflexivity. rewrite IH. reflexivity. Qed.

Lemma xor_bytes_cancel : forall a b, (length a <= length b)%nat -> xor_bytes (xor_bytes a b) b = a.
Proof.
  induction a as [|x a IH]; intros [|y b] H; cbn in *; try reflexivity; try lia.
  rewrite byte_xor_cancel, IH by lia. reflexivity.
Qed.

Lemma aes_key_16 : forall k, aes_key_ok k = true -> length (firstn 16 k) = 16%nat.
Proof.
  intros k H. unfold aes_key_ok in H. rewrite firstn_length.
  apply orb_prop in H. destruct H as [H|H]; [apply orb_prop in H; destruct H as [H|H]|];
    apply Nat.eqb_eq in H; lia.
Qed.

Theorem toy_laws : crypto_laws toy.
Proof.
  constructor.
  - intros k m. cbn [hmac toy]. unfold toy_hmac, toy_out. rewrite map_length, seq_length. reflexivity.
  - intros a b. cbn. unfold toy_xor. rewrite xor_bytes_comm. reflexivity.
  - intros k b Hk Hb. cbn [aes_enc aes_dec toy]. unfold toy_block. rewrite xor_bytes_length, (aes_key_16 k Hk), Hb. reflexivity.
  - intros k b Hk Hb. cbn [aes_enc aes_dec toy]. unfold toy_block. rewrite xor_bytes_length, (aes_key_16 k Hk), Hb. reflexivity.
  - intros k b Hk Hb. cbn [aes_enc aes_dec toy]. unfold toy_block. apply xor_bytes_cancel. rewrite (aes_key_16 k Hk), Hb. lia.
  - intros k m r. cbn. apply arr_eqb_refl.
Qed.
