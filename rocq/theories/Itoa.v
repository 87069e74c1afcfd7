(** Itoa.v: strconv.Itoa / fmt.Sprint on integers, and fmt "%05d". *)
From Coq Require Import Decimal DecimalN DecimalFacts.
From Verif Require Import Base.

(** ASCII digits of a decimal numeral. *)
Fixpoint uint_bytes (u : Decimal.uint) : bytes :=
  match u with
  | Decimal.Nil => []
  | Decimal.D0 u => x30 :: uint_bytes u
  | Decimal.D1 u => x31 :: uint_bytes u
  | Decimal.D2 u => x32 :: uint_bytes u
  | Decimal.D3 u => x33 :: uint_bytes u
  | Decimal.D4 u => x34 :: uint_bytes u
  | Decimal.D5 u => x35 :: uint_bytes u
  | Decimal.D6 u => x36 :: uint_bytes u
  | Decimal.D7 u => x37 :: uint_bytes u
  | Decimal.D8 u => x38 :: uint_bytes u
  | Decimal.D9 u => x39 :: uint_bytes u
  end.

(** fmt.Sprint of a uint32; strconv.Itoa of a non-negative int. *)
Definition dec_n (n : N) : bytes := uint_bytes (N.to_uint n).

(** strconv.Itoa. *)
Definition itoa (z : Z) : bytes :=
  if (z <? 0)%Z then x2d :: dec_n (Z.to_N (- z)) else dec_n (Z.to_N z).

Lemma uint_bytes_inj : forall u v, uint_bytes u = uint_bytes v -> u = v.
Proof.
  intros u; induction u; intros v H; destruct v; cbn in H; try discriminate; try reflexivity;
    injection H as H; f_equal; auto.
Qed.

Lemma dec_n_inj : forall a b, dec_n a = dec_n b -> a = b.
Proof.
  intros a b H. apply uint_bytes_inj in H. apply DecimalN.Unsigned.to_uint_inj in H. exact H.
Qed.

Definition is_digit (b : byte) : bool := (48 <=? b2n b)%N && (b2n b <=? 57)%N.

Lemma uint_bytes_digits : forall u, forallb is_digit (uint_bytes u) = true.
Proof. intros u; induction u; cbn [uint_bytes forallb]; rewrite ?IHu; reflexivity. Qed.

Lemma dec_n_digits : forall n, forallb is_digit (dec_n n) = true.
Proof. intros n. apply uint_bytes_digits. Qed.

Lemma dec_n_nonempty : forall n, dec_n n <> [].
Proof.
  intros n H. unfold dec_n in H.
  assert (E : N.to_uint n = Decimal.Nil) by (destruct (N.to_uint n); cbn in H; congruence).
  destruct n as [|p]; cbn in E; [discriminate|].
  pose proof (DecimalPos.Unsigned.to_uint_nonnil p) as NN. congruence.
Qed.

Lemma itoa_2 : itoa 2 = [x32]. Proof. reflexivity. Qed.
Lemma itoa_3 : itoa 3 = [x33]. Proof. reflexivity. Qed.
