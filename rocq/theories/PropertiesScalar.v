(** PropertiesScalar.v: the scalar arithmetic behind signing (C55).

    Vocabulary: [le_val] (FieldSpec.v) the little-endian value of a byte string, [order_l] (ScalarSpec.v) the order of
    the base point. The model wraps every operation at 64 bits as Go does, so an overflow would falsify these. *)
From Verif Require Import Base Field25519 FieldSpec FieldProofs FieldProofs2 FieldProofs3 PropertiesField Scalar25519 ScalarSpec ScalarProofs ScalarProofs2.
From Coq Require Import ZArith Lia List.
Import ListNotations.
Local Open Scope list_scope.
Local Open Scope Z_scope.

(** ScReduce: every 64-byte string is reduced to its remainder modulo the order. *)
Theorem C55_reduce : forall s, le_val (abytes (sc_reduce s)) = le_val (abytes s) mod order_l.
Proof. exact sc_reduce_spec. Qed.
(** ScMulAdd: the remainder of a * b + c, for all 32-byte strings, reduced or not. *)
Theorem C55_mul_add : forall a b c,
  le_val (abytes (sc_mul_add a b c)) = (le_val (abytes a) * le_val (abytes b) + le_val (abytes c)) mod order_l.
Proof. exact sc_mul_add_spec. Qed.

(** Both results are the canonical representative, so the top three bits are clear: the signature's sign bit fits. *)
Theorem C55_canonical : forall s a b c,
  0 <= le_val (abytes (sc_reduce s)) < order_l /\ 0 <= le_val (abytes (sc_mul_add a b c)) < order_l.
Proof.
  intros s a b c. rewrite sc_reduce_spec, sc_mul_add_spec. split; apply Z.mod_pos_bound; reflexivity.
Qed.
Lemma le_val_last : forall l x, le_val (l ++ [x]) = le_val l + 256 ^ Z.of_nat (length l) * zb x.
Proof.
  induction l as [|y l IH]; intros x; [cbn [app length le_val]; change (256 ^ Z.of_nat 0) with 1; lia|].
  cbn [app le_val length]. rewrite IH. rewrite Nat2Z.inj_succ, Z.pow_succ_r by lia. ring.
Qed.
Lemma le_val_nonneg : forall l, 0 <= le_val l.
Proof. induction l as [|y l IH]; cbn [le_val]; [lia|]. pose proof (zb_range y). lia. Qed.
Lemma last_split : forall l : bytes, length l = 32%nat -> l = firstn 31 l ++ [nth 31 l Byte.x00].
Proof. intros l H. do 32 (destruct l as [|? l]; [discriminate|]). destruct l; [reflexivity|discriminate]. Qed.
Lemma small_top : forall (a : arr32), le_val (abytes a) < order_l -> zb (nth 31 (abytes a) Byte.x00) < 32.
Proof.
  intros a H. assert (L := arr_length 32 a). rewrite (last_split _ L), le_val_last in H. pose proof (le_val_nonneg (firstn 31 (abytes a))).
  rewrite firstn_length, L in H. change (256 ^ Z.of_nat (Nat.min 31 32)) with (2 ^ 248) in H. unfold order_l in H. lia.
Qed.
Theorem C55_top_bits : forall s a b c,
  zb (nth 31 (abytes (sc_reduce s)) Byte.x00) < 32 /\ zb (nth 31 (abytes (sc_mul_add a b c)) Byte.x00) < 32.
Proof. intros s a b c. destruct (C55_canonical s a b c) as [A B]. split; apply small_top; [apply A|apply B]. Qed.

(** Reducing twice, or adding a multiple of the order, changes nothing: equal residues have equal bytes. *)
Theorem C55_same_residue : forall s t, le_val (abytes s) mod order_l = le_val (abytes t) mod order_l -> sc_reduce s = sc_reduce t.
Proof.
  intros s t H. rewrite <- (to_arr_abytes 32 (sc_reduce s)), <- (to_arr_abytes 32 (sc_reduce t)). f_equal.
  apply le_val_inj; [rewrite !arr_length; reflexivity|]. rewrite !sc_reduce_spec. exact H.
Qed.

(** Concrete cases: 64 bytes 0xFF; (2^256-1) * (2^256-1) + (2^256-1). *)
Definition all_ff (n : nat) : arr n := to_arr n (repeat Byte.xff n).
Example reduce_ff : le_val (abytes (sc_reduce (all_ff 64))) = (2 ^ 512 - 1) mod order_l /\ le_val (abytes (sc_reduce (all_ff 64))) <> 0.
Proof. vm_compute. split; [reflexivity|discriminate]. Qed.
Example mul_add_ff : le_val (abytes (sc_mul_add (all_ff 32) (all_ff 32) (all_ff 32))) = ((2 ^ 256 - 1) * (2 ^ 256 - 1) + (2 ^ 256 - 1)) mod order_l.
Proof. vm_compute. reflexivity. Qed.

Print Assumptions C55_reduce.
Print Assumptions C55_mul_add.
Print Assumptions C55_canonical.
Print Assumptions C55_top_bits.
Print Assumptions C55_same_residue.
