(** FermatNat.v: Fermat's little theorem over Z by the permutation argument. Mathematics only; nothing here models code. *)
From Coq Require Import ZArith Znumtheory Lia List Permutation.
Import ListNotations.
Local Open Scope list_scope.
Local Open Scope Z_scope.

Definition prod (l : list Z) : Z := fold_right Z.mul 1 l.
Lemma prod_perm : forall l l', Permutation l l' -> prod l = prod l'.
Proof. intros l l' H. induction H; cbn [prod fold_right] in *; try lia. unfold prod in *. rewrite IHPermutation. reflexivity. Qed.

(** 1 .. n *)
Definition upto (n : nat) : list Z := map (fun i => Z.of_nat i) (seq 1 n).
Lemma upto_in : forall n z, In z (upto n) <-> 1 <= z <= Z.of_nat n.
Proof.
  intros n z. unfold upto. rewrite in_map_iff. split.
  - intros (i & <- & H). apply in_seq in H. lia.
  - intros H. exists (Z.to_nat z). split; [lia|]. apply in_seq. lia.
Qed.
Lemma upto_nodup : forall n, NoDup (upto n).
Proof. intros n. unfold upto. apply FinFun.Injective_map_NoDup; [intros a b; apply Nat2Z.inj|apply seq_NoDup]. Qed.

Section F.
Variables (p a : Z).
Hypothesis Hp : prime p.
Hypothesis Ha : ~ (p | a).

Lemma p_gt1 : 1 < p. Proof. destruct Hp. assumption. Qed.
Let n := Z.to_nat (p - 1).
Lemma n_eq : Z.of_nat n = p - 1. Proof. unfold n. pose proof p_gt1. lia. Qed.

Lemma small_not_div : forall z, 1 <= z <= p - 1 -> ~ (p | z).
Proof. intros z H D. apply Z.divide_pos_le in D; lia. Qed.

Lemma times_a_perm : Permutation (map (fun i => (a * i) mod p) (upto n)) (upto n).
Proof.
  pose proof p_gt1 as P1. apply NoDup_Permutation_bis.
  - assert (INJ : forall l, NoDup l -> (forall z, In z l -> 1 <= z <= p - 1) -> NoDup (map (fun i => (a * i) mod p) l)).
    { intros l HN. induction HN as [|x l Hx HN IH]; intros HB; [constructor|]. cbn [map]. constructor; [|apply IH; intros z Hz; apply HB; right; exact Hz].
      intros Y. apply in_map_iff in Y. destruct Y as (y & E & Hy). assert (D : (p | a * (y - x))).
      { exists ((a * y) / p - (a * x) / p). pose proof (Z_div_mod_eq_full (a * y) p). pose proof (Z_div_mod_eq_full (a * x) p). lia. }
      apply prime_mult in D; [|exact Hp]. destruct D as [D|D]; [contradiction|]. pose proof (HB x (or_introl eq_refl)). pose proof (HB y (or_intror Hy)).
      destruct (Z.lt_trichotomy x y) as [C|[C|C]].
      - apply (small_not_div (y - x)); [lia|exact D].
      - subst y. contradiction.
      - apply (small_not_div (x - y)); [lia|]. replace (x - y) with (- (y - x)) by lia. apply Z.divide_opp_r. exact D. }
    apply INJ; [apply upto_nodup|]. intros z Hz. apply upto_in in Hz. rewrite n_eq in Hz. exact Hz.
  - rewrite map_length. lia.
  - intros z Hz. apply in_map_iff in Hz. destruct Hz as (i & <- & Hi). apply upto_in in Hi. rewrite n_eq in Hi. apply upto_in. rewrite n_eq.
    pose proof (Z.mod_pos_bound (a * i) p ltac:(lia)). assert ((a * i) mod p <> 0); [|lia]. intros E. apply Z.mod_divide in E; [|lia].
    apply prime_mult in E; [|exact Hp]. destruct E as [E|E]; [contradiction|]. exact (small_not_div i Hi E).
Qed.

Lemma prod_times : forall l, (p | a ^ Z.of_nat (length l) * prod l - prod (map (fun i => (a * i) mod p) l)).
Proof.
  pose proof p_gt1 as P1. intros l. induction l as [|x l IH].
  - exists 0. reflexivity.
  - cbn [length map prod fold_right]. fold (prod l). fold (prod (map (fun i => (a * i) mod p) l)). rewrite Nat2Z.inj_succ, Z.pow_succ_r by lia.
    set (q := prod (map (fun i => (a * i) mod p) l)) in *. set (r := prod l) in *. set (e := a ^ Z.of_nat (length l)) in *.
    destruct IH as (k & K). exists (a * x * k + (a * x) / p * q). pose proof (Z_div_mod_eq_full (a * x) p) as M. nia.
Qed.

Lemma prod_unit : forall l, (forall z, In z l -> ~ (p | z)) -> ~ (p | prod l).
Proof.
  intros l. induction l as [|x l IH]; intros H D.
  - cbn in D. pose proof p_gt1. apply Z.divide_pos_le in D; lia.
  - cbn [prod fold_right] in D. apply prime_mult in D; [|exact Hp]. destruct D as [D|D]; [exact (H x (or_introl eq_refl) D)|]. apply IH; [|exact D]. intros z Hz. apply H. right. exact Hz.
Qed.

Lemma fermat_coprime : (p | a ^ (p - 1) - 1).
Proof.
  pose proof (prod_times (upto n)) as H. rewrite (prod_perm _ _ times_a_perm) in H. unfold upto in H at 1. rewrite map_length, seq_length, n_eq in H.
  replace (a ^ (p - 1) * prod (upto n) - prod (upto n)) with ((a ^ (p - 1) - 1) * prod (upto n)) in H by ring.
  apply prime_mult in H; [|exact Hp]. destruct H as [H|H]; [exact H|]. exfalso. revert H. apply prod_unit. intros z Hz. apply upto_in in Hz. rewrite n_eq in Hz. apply small_not_div. exact Hz.
Qed.
End F.
