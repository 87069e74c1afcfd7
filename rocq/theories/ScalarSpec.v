(** ScalarSpec.v: what the scalar arithmetic must compute. Nothing here models code. *)
From Coq Require Import ZArith List.
Local Open Scope Z_scope.

(** The order of the base point of Ed25519 (RFC 8032, section 5.1). *)
Definition order_l : Z := 2 ^ 252 + 27742317777372353535851937790883648493.
