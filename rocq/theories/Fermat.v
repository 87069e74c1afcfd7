(** Fermat.v: Fermat's little theorem and Pocklington's criterion over Z (mathematics used by FieldPrime.v; nothing here
    models code). *)
From Verif Require FermatNat.
From Coq Require Import ZArith Znumtheory Lia List Bool.
Import ListNotations.
Local Open Scope list_scope.
Local Open Scope bool_scope.
Local Open Scope Z_scope.

Theorem fermat_unit : forall r a, prime r -> 0 <= a -> ~ (r | a) -> (r | a ^ (r - 1) - 1).
Proof. intros r a Hr _ N. apply FermatNat.fermat_coprime; assumption. Qed.

(** * Pocklington *)
Lemma pow_one : forall r b e m, (r | b ^ e - 1) -> 0 <= e -> 0 <= m -> (r | b ^ (e * m) - 1).
Proof.
  intros r b e m H He Hm. revert m Hm. apply natlike_ind.
  - rewrite Z.mul_0_r. exists 0. reflexivity.
  - intros k Hk IH. replace (e * Z.succ k) with (e * k + e) by lia. rewrite Z.pow_add_r by nia.
    replace (b ^ (e * k) * b ^ e - 1) with ((b ^ (e * k) - 1) * b ^ e + (b ^ e - 1)) by ring. apply Z.divide_add_r; [apply Z.divide_mul_l; exact IH|exact H].
Qed.

Lemma pow_gcd : forall r b e f, 0 < e -> 0 < f -> (r | b ^ e - 1) -> (r | b ^ f - 1) -> (r | b ^ Z.gcd e f - 1).
Proof.
  intros r b e f He Hf H1 H2. destruct (Z.gcd_bezout e f (Z.gcd e f) eq_refl) as (u & v & E). set (d := Z.gcd e f) in *.
  assert (D : 0 <= d) by (apply Z.gcd_nonneg). set (k := Z.abs u + Z.abs v).
  assert (U : 0 <= u + k * f) by nia. assert (V : 0 <= k * e - v) by nia.
  assert (Q : e * (u + k * f) = d + f * (k * e - v)) by lia.
  pose proof (pow_one r b e _ H1 ltac:(lia) U) as P1. pose proof (pow_one r b f _ H2 ltac:(lia) V) as P2. rewrite Q in P1. rewrite Z.pow_add_r in P1 by nia.
  set (B := b ^ (f * (k * e - v))) in *. replace (b ^ d - 1) with ((b ^ d * B - 1) - b ^ d * (B - 1)) by ring.
  apply Z.divide_sub_r; [exact P1|apply Z.divide_mul_r; exact P2].
Qed.

(** Some prime divides every number above one, and the least one is at most its square root when it is composite. *)
Lemma prime_divisor : forall n, 1 < n -> exists q, prime q /\ (q | n).
Proof.
  intros n Hn. assert (H : 0 <= n) by lia. revert n H Hn. apply (Z_lt_induction (fun n => 1 < n -> exists q, prime q /\ (q | n))).
  intros n IH Hn. destruct (prime_dec n) as [P|P]; [exists n; split; [exact P|apply Z.divide_refl]|].
  destruct (not_prime_divide n Hn P) as (d & D1 & D2). destruct (IH d ltac:(lia) ltac:(lia)) as (q & Q1 & Q2). exists q. split; [exact Q1|].
  apply Z.divide_trans with d; assumption.
Qed.
Lemma small_prime_divisor : forall n, 1 < n -> ~ prime n -> exists q, prime q /\ (q | n) /\ q * q <= n.
Proof.
  intros n Hn P. destruct (not_prime_divide n Hn P) as (d & D1 & (c & D2)). assert (1 < c < n) by nia.
  destruct (Z.le_gt_cases (d * d) n) as [L|L].
  - destruct (prime_divisor d ltac:(lia)) as (q & Q1 & Q2). exists q. split; [exact Q1|]. split; [apply Z.divide_trans with d; [exact Q2|exists c; lia]|].
    apply Z.divide_pos_le in Q2; [|lia]. assert (1 < q) by (destruct Q1; assumption). clear -Q2 L H0 D1 D2 H. nia.
  - destruct (prime_divisor c ltac:(lia)) as (q & Q1 & Q2). exists q. split; [exact Q1|]. split; [apply Z.divide_trans with c; [exact Q2|exists d; lia]|].
    apply Z.divide_pos_le in Q2; [|lia]. assert (1 < q) by (destruct Q1; assumption). assert (c < d) by nia. assert (q * q <= c * c) by nia. nia.
Qed.

Theorem pocklington : forall N a F, 1 < N -> 0 <= a -> 0 < F -> (F | N - 1) -> N < F * F -> (N | a ^ (N - 1) - 1) ->
  (forall q, prime q -> (q | F) -> Z.gcd (a ^ ((N - 1) / q) - 1) N = 1) -> prime N.
Proof.
  intros N a F HN Ha HF (R & ER) HFF H1 HQ. destruct (prime_dec N) as [P|P]; [exact P|exfalso].
  destruct (small_prime_divisor N HN P) as (r & Pr & Dr & Sr). assert (R1 : 1 < r) by (destruct Pr; assumption).
  assert (HR : 0 < R) by nia. assert (H1r : (r | a ^ (N - 1) - 1)) by (apply Z.divide_trans with N; assumption).
  assert (Na : ~ (r | a)).
  { intros K. assert ((r | a ^ (N - 1))) by (replace (N - 1) with (Z.succ (N - 2)) by lia; rewrite Z.pow_succ_r by lia; apply Z.divide_mul_l; exact K).
    assert (K1 : (r | 1)) by (replace 1 with (a ^ (N - 1) - (a ^ (N - 1) - 1)) by ring; apply Z.divide_sub_r; assumption).
    apply Z.divide_pos_le in K1; lia. }
  set (b := a ^ R). assert (Hb : 0 <= b) by (apply Z.pow_nonneg; lia).
  assert (BF : (r | b ^ F - 1)) by (unfold b; rewrite <- Z.pow_mul_r by lia; rewrite <- ER; exact H1r).
  assert (Nb : ~ (r | b)).
  { intros K. apply Na. unfold b in K. clear -K Pr HR. revert K. assert (H : 0 <= R) by lia. revert HR. revert R H. apply (natlike_ind (fun R => 0 < R -> (r | a ^ R) -> (r | a))); [lia|].
    intros k Hk IH _ K. rewrite Z.pow_succ_r in K by exact Hk. apply prime_mult in K; [|exact Pr]. destruct K as [K|K]; [exact K|].
    destruct (Z.eq_dec k 0) as [->|]; [|apply IH; [lia|exact K]]. apply Z.divide_pos_le in K; [|lia]. destruct Pr. cbn in K. lia. }
  assert (Br : (r | b ^ (r - 1) - 1)) by (apply fermat_unit; assumption).
  pose proof (pow_gcd r b F (r - 1) HF ltac:(lia) BF Br) as G. set (d := Z.gcd F (r - 1)) in *.
  assert (D1 : (d | F)) by apply Z.gcd_divide_l. assert (D2 : (d | r - 1)) by apply Z.gcd_divide_r.
  assert (Dp : 0 < d) by (pose proof (Z.gcd_nonneg F (r - 1)); fold d in H; destruct (Z.eq_dec d 0) as [E|]; [rewrite E in D1; apply Z.divide_0_l in D1; lia|lia]).
  destruct D1 as (c & D1). assert (0 < c) by nia.
  destruct (Z.eq_dec c 1) as [C|C].
  - subst c. apply Z.divide_pos_le in D2; [|lia]. nia.
  - destruct (prime_divisor c ltac:(lia)) as (q & Pq & (m & Eq)). assert (Q1 : 1 < q) by (destruct Pq; assumption). assert (0 < m) by nia.
    assert (E : (N - 1) / q = R * (d * m)). { symmetry. apply Z.div_unique_exact; [lia|]. rewrite ER, D1, Eq. ring. }
    assert (K : (r | a ^ ((N - 1) / q) - 1)). { rewrite E, Z.pow_mul_r by nia. fold b. apply pow_one; [exact G|lia|lia]. }
    assert (QF : (q | F)) by (exists (m * d); rewrite D1, Eq; ring).
    specialize (HQ q Pq QF). assert (K2 : (r | Z.gcd (a ^ ((N - 1) / q) - 1) N)) by (apply Z.gcd_greatest; assumption).
    rewrite HQ in K2. apply Z.divide_pos_le in K2; lia.
Qed.

(** Computation: powers modulo N on binary numbers. *)
Fixpoint powmod_pos (a N : Z) (e : positive) : Z :=
  match e with
  | xH => a mod N
  | xO e' => let r := powmod_pos a N e' in (r * r) mod N
  | xI e' => let r := powmod_pos a N e' in (((r * r) mod N) * a) mod N
  end.
Lemma powmod_pos_spec : forall a N e, 0 < N -> powmod_pos a N e = (a ^ Zpos e) mod N.
Proof.
  intros a N e HN. induction e as [e IH|e IH|].
  - cbn [powmod_pos]. rewrite IH. rewrite Z.mul_mod_idemp_l by lia. rewrite (Pos2Z.inj_xI e). rewrite Z.pow_add_r, Z.pow_1_r by lia.
    replace (2 * Z.pos e) with (Z.pos e + Z.pos e) by lia. rewrite Z.pow_add_r by lia. rewrite <- Z.mul_mod_idemp_l by lia. rewrite <- Z.mul_mod by lia.
    rewrite Z.mul_mod_idemp_l by lia. reflexivity.
  - cbn [powmod_pos]. rewrite IH. rewrite <- Z.mul_mod by lia. rewrite (Pos2Z.inj_xO e). replace (2 * Z.pos e) with (Z.pos e + Z.pos e) by lia.
    rewrite Z.pow_add_r by lia. reflexivity.
  - cbn [powmod_pos]. rewrite Z.pow_1_r. reflexivity.
Qed.
Definition powmod (a e N : Z) : Z := match e with Zpos p => powmod_pos a N p | _ => 1 mod N end.
Lemma powmod_spec : forall a e N, 0 < N -> 0 <= e -> powmod a e N = (a ^ e) mod N.
Proof. intros a [|e|e] N HN He; [reflexivity|apply powmod_pos_spec; exact HN|lia]. Qed.

(** A certificate step: the primes whose product is F, the base a. *)
Definition pock_check (N a : Z) (qs : list Z) : bool :=
  let F := fold_right Z.mul 1 qs in
  (1 <? N) && (0 <=? a) && (0 <? F) && ((N - 1) mod F =? 0) && (N <? F * F) && (powmod a (N - 1) N =? 1)
  && forallb (fun q => (0 <=? (N - 1) / q) && (Z.gcd (powmod a ((N - 1) / q) N - 1) N =? 1)) qs.

Lemma gcd_powmod : forall a e N, 0 < N -> 0 <= e -> Z.gcd (powmod a e N - 1) N = Z.gcd (a ^ e - 1) N.
Proof.
  intros a e N HN He. rewrite powmod_spec by assumption. rewrite (Z.mod_eq (a ^ e) N) by lia.
  replace (a ^ e - N * (a ^ e / N) - 1) with (a ^ e - 1 + (- (a ^ e / N)) * N) by ring. rewrite Z.gcd_comm, Z.gcd_add_mult_diag_r. apply Z.gcd_comm.
Qed.
Lemma prime_of_product : forall qs q, Forall prime qs -> prime q -> (q | fold_right Z.mul 1 qs) -> In q qs.
Proof.
  induction qs as [|x qs IH]; intros q HP Hq D; cbn [fold_right] in D.
  - apply Z.divide_pos_le in D; [|lia]. destruct Hq. lia.
  - inversion HP; subst. apply prime_mult in D; [|exact Hq]. destruct D as [D|D]; [left|right; apply IH; assumption].
    symmetry. apply prime_div_prime; assumption.
Qed.

Lemma pock_sound : forall N a qs, pock_check N a qs = true -> Forall prime qs -> prime N.
Proof.
  intros N a qs H HP. unfold pock_check in H. set (F := fold_right Z.mul 1 qs) in *.
  apply andb_prop in H. destruct H as [H HQ]. apply andb_prop in H. destruct H as [H H6]. apply andb_prop in H. destruct H as [H H5].
  apply andb_prop in H. destruct H as [H H4]. apply andb_prop in H. destruct H as [H H3]. apply andb_prop in H. destruct H as [H1 H2].
  apply Z.ltb_lt in H1, H3, H5. apply Z.leb_le in H2. apply Z.eqb_eq in H4, H6. rewrite forallb_forall in HQ.
  apply (pocklington N a F); try assumption.
  - apply Z.mod_divide; lia.
  - rewrite powmod_spec in H6 by lia. apply Z.mod_divide; [lia|]. rewrite Zminus_mod, H6, (Z.mod_small 1) by lia. reflexivity.
  - intros q Pq Dq. specialize (HQ q (prime_of_product qs q HP Pq Dq)). apply andb_prop in HQ. destruct HQ as [Q1 Q2]. apply Z.leb_le in Q1. apply Z.eqb_eq in Q2.
    rewrite gcd_powmod in Q2 by lia. exact Q2.
Qed.

(** Trial division for the leaves of the certificate. *)
Definition trial (n : Z) (k : nat) : bool := (1 <? n) && (n <? Z.of_nat k * Z.of_nat k) && forallb (fun d => negb (n mod Z.of_nat d =? 0) || (n =? Z.of_nat d)) (seq 2 k).
Lemma trial_sound : forall n k, trial n k = true -> prime n.
Proof.
  intros n k H. unfold trial in H. apply andb_prop in H. destruct H as [H H3]. apply andb_prop in H. destruct H as [H1 H2]. apply Z.ltb_lt in H1, H2. rewrite forallb_forall in H3.
  destruct (prime_dec n) as [P|P]; [exact P|exfalso]. destruct (small_prime_divisor n H1 P) as (q & Pq & Dq & Sq). assert (Q : 1 < q) by (destruct Pq; assumption).
  assert (q < Z.of_nat k) by nia. specialize (H3 (Z.to_nat q)). rewrite Z2Nat.id in H3 by lia. rewrite in_seq in H3. specialize (H3 ltac:(lia)).
  apply orb_prop in H3. destruct H3 as [H3|H3].
  - apply Z.mod_divide in Dq; [|lia]. rewrite Dq in H3. discriminate.
  - apply Z.eqb_eq in H3. subst q. contradiction.
Qed.
