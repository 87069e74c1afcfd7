(** OrderPrime.v: the order of the base point is prime (Pocklington certificates, checked by the kernel).
    Mathematics only; nothing here models code. *)
From Verif Require Import Base Fermat FieldPrime ScalarSpec.
From Coq Require Import ZArith Znumtheory Lia List.
Import ListNotations.
Local Open Scope Z_scope.

Lemma prime_1257559732178653 : prime 1257559732178653.
Proof. apply (pock_sound _ 2 [1224481; 531581]); [vm_compute; reflexivity|constructor; [leaf 1116%nat|constructor; [leaf 739%nat|constructor]]]. Qed.
Lemma prime_4434155615661930479 : prime 4434155615661930479.
Proof. apply (pock_sound _ 2 [1257559732178653]); [vm_compute; reflexivity|constructor; [exact prime_1257559732178653|constructor]]. Qed.
Lemma prime_172054593956031949258510691 : prime 172054593956031949258510691.
Proof. apply (pock_sound _ 2 [4434155615661930479]); [vm_compute; reflexivity|constructor; [exact prime_4434155615661930479|constructor]]. Qed.
Lemma prime_19757330305831588566944191468367130476339 : prime 19757330305831588566944191468367130476339.
Proof. apply (pock_sound _ 2 [172054593956031949258510691]); [vm_compute; reflexivity|constructor; [exact prime_172054593956031949258510691|constructor]]. Qed.
Lemma prime_276602624281642239937218680557139826668747 : prime 276602624281642239937218680557139826668747.
Proof. apply (pock_sound _ 2 [19757330305831588566944191468367130476339]); [vm_compute; reflexivity|constructor; [exact prime_19757330305831588566944191468367130476339|constructor]]. Qed.
Theorem order_l_prime : prime order_l.
Proof. apply (pock_sound _ 2 [276602624281642239937218680557139826668747]); [vm_compute; reflexivity|constructor; [exact prime_276602624281642239937218680557139826668747|constructor]]. Qed.
