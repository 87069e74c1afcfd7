(** PropertiesBytes.v: the byte and error helpers for every argument (C93). [gslice], ByteMem.v: a Go slice is its elements [sl_bytes] and the memory behind
    them up to its capacity, [sl_spare]; [None] is the nil slice. Lengths are Go ints. *)
From Verif Require Import Base Bytehelper ByteMem MiscProofs.
From Coq Require Import List ZArith Lia ZifyBool ZifyN ZifyNat.
Import ListNotations.
Local Open Scope Z_scope.

Definition int64 (z : Z) : Prop := - 2 ^ 63 <= z < 2 ^ 63.
(** The memory a slice lies in is there. *)
Definition fits (o : option gslice) : Prop := gcap (of_nil o) <= max_alloc.

Lemma wrap_small : forall z, int64 z -> wrap64 z = z.
Proof. intros z [A B]. unfold wrap64. rewrite Z.mod_small; lia. Qed.
Lemma wrap_mod : forall z, exists k, wrap64 z = z + k * 2 ^ 64.
Proof. intros z. exists (- ((z + 2 ^ 63) / 2 ^ 64)). unfold wrap64. rewrite Z.mod_eq by lia. lia. Qed.
Lemma wrap_range : forall z, int64 (wrap64 z).
Proof. intros z. unfold wrap64, int64. assert (H := Z.mod_pos_bound (z + 2 ^ 63) (2 ^ 64) ltac:(lia)). lia. Qed.
Lemma wrap_sum : forall a b c, wrap64 (wrap64 (a + b) + c) = wrap64 (a + b + c).
Proof.
  intros a b c. unfold wrap64. assert (E : (a + b + 2 ^ 63) mod 2 ^ 64 - 2 ^ 63 + c + 2 ^ 63 = (a + b + 2 ^ 63) mod 2 ^ 64 + c) by lia. rewrite E.
  rewrite Z.add_mod_idemp_l by lia. assert (E2 : a + b + 2 ^ 63 + c = a + b + c + 2 ^ 63) by lia. rewrite E2. reflexivity.
Qed.
Lemma len_cap : forall s, 0 <= glen s <= gcap s.
Proof. intros s. unfold glen, gcap, whole. rewrite app_length. lia. Qed.
Lemma take_pad_firstn : forall n l, (n <= length l)%nat -> take_pad n l = firstn n l.
Proof. intros n l H. unfold take_pad. rewrite firstn_app. assert (E : (n - length l = 0)%nat) by lia. rewrite E. cbn [firstn]. apply app_nil_r. Qed.
Lemma nth_firstn_below : forall A (d : A) n l i, (i < n)%nat -> nth i (firstn n l) d = nth i l d.
Proof. intros A d n. induction n as [|n IH]; intros l i H; [lia|]. destruct l as [|x l]; [reflexivity|]. destruct i as [|i]; [reflexivity|]. cbn [firstn nth]. apply IH. lia. Qed.
Lemma nth_take_pad : forall n l i, (i < n)%nat -> nth i (take_pad n l) x00 = nth i l x00.
Proof.
  intros n l i H. unfold take_pad. rewrite nth_firstn_below by exact H. destruct (Nat.lt_ge_cases i (length l)) as [L|L]; [apply app_nth1; exact L|].
  rewrite app_nth2 by exact L. rewrite (nth_overflow l) by exact L. apply nth_repeat.
Qed.
Lemma nth_skipn_plus : forall A (d : A) n l i, nth i (skipn n l) d = nth (n + i) l d.
Proof. intros A d n. induction n as [|n IH]; intros l i; [reflexivity|]. destruct l as [|x l]; [destruct i; reflexivity|]. cbn [skipn Nat.add nth]. apply IH. Qed.

Lemma skip_skip : forall A n k (l : list A), skipn k (skipn n l) = skipn (n + k) l.
Proof. intros A n. induction n as [|n IH]; intros k l; [reflexivity|]. destruct l as [|x l]; [destruct k; reflexivity|]. cbn [skipn Nat.add]. apply IH. Qed.

(** ** SplitThree *)

(** Parts come back exactly if the three lengths are not negative and there are enough bytes, and they are the first n1, the next n2 and the next n3 bytes.
    A panic needs lengths whose sum does not fit an int. *)
Theorem C93_split_three : forall input n1 n2 n3, int64 n1 -> int64 n2 -> int64 n3 -> fits input ->
  match g_split_three input n1 n2 n3 with
  | Ok (a, b, c) => exists s rest, input = Some s /\ sl_bytes s = sl_bytes a ++ sl_bytes b ++ sl_bytes c ++ rest /\ glen a = n1 /\ glen b = n2 /\ glen c = n3
  | Err e => e = EInputTooSmall /\ (input = None \/ n1 < 0 \/ n2 < 0 \/ n3 < 0 \/ glen (of_nil input) < n1 + n2 + n3)
  | Panic => input <> None /\ 0 <= n1 /\ 0 <= n2 /\ 0 <= n3 /\ 2 ^ 63 <= n1 + n2 + n3
  end.
Proof.
  intros input n1 n2 n3 I1 I2 I3 F. destruct input as [s|]; [|split; [reflexivity|left; reflexivity]]. unfold fits in F. cbn [of_nil] in F |- *. assert (LC := len_cap s).
  unfold g_split_three. rewrite wrap_sum. unfold int64 in *. unfold max_alloc in *.
  destruct (Z.lt_ge_cases n1 0) as [N1|N1]; [replace (n1 <? 0) with true by lia; cbn [orb]; split; [reflexivity|lia]|].
  destruct (Z.lt_ge_cases n2 0) as [N2|N2]; [replace (n2 <? 0) with true by lia; rewrite orb_true_r; cbn [orb]; split; [reflexivity|lia]|].
  destruct (Z.lt_ge_cases n3 0) as [N3|N3]; [replace (n3 <? 0) with true by lia; rewrite orb_true_r; cbn [orb]; split; [reflexivity|lia]|].
  replace (n1 <? 0) with false by lia. replace (n2 <? 0) with false by lia. replace (n3 <? 0) with false by lia. cbn [orb].
  destruct (Z.lt_ge_cases (n1 + n2 + n3) (2 ^ 63)) as [S|S].
  - rewrite (wrap_small (n1 + n2 + n3)) by (unfold int64; lia). rewrite (wrap_small (n1 + n2)) by (unfold int64; lia).
    destruct (Z.ltb_spec (glen s) (n1 + n2 + n3)) as [T|T]; [split; [reflexivity|lia]|].
    unfold filled, upto, from, max_alloc. replace ((n1 <? 0) || (2 ^ 48 <? n1)) with false by lia. replace ((n1 <? 0) || (gcap s <? n1)) with false by lia. cbn [bind].
    replace ((n2 <? 0) || (2 ^ 48 <? n2)) with false by lia. replace ((n1 <? 0) || (glen s <? n1)) with false by lia. cbn [bind].
    set (t := {| sl_bytes := skipn (Z.to_nat n1) (sl_bytes s); sl_spare := sl_spare s |}).
    assert (CT : n2 <= gcap t). { unfold gcap, whole, t. cbn [sl_bytes sl_spare]. rewrite app_length, skipn_length. unfold glen in *. lia. }
    replace ((n2 <? 0) || (gcap t <? n2)) with false by lia. cbn [bind]. replace ((n3 <? 0) || (2 ^ 48 <? n3)) with false by lia. replace ((n1 + n2 <? 0) || (glen s <? n1 + n2)) with false by lia. cbn [bind sl_bytes].
    unfold glen in *. unfold whole, t. cbn [sl_bytes sl_spare].
    set (a := Z.to_nat n1). set (b := Z.to_nat n2). set (c := Z.to_nat n3). assert (AB : Z.to_nat (n1 + n2) = (a + b)%nat) by lia. rewrite AB.
    assert (L : (a + b + c <= length (sl_bytes s))%nat) by lia. exists s, (skipn (a + b + c) (sl_bytes s)). split; [reflexivity|].
    rewrite (firstn_app a). replace (a - length (sl_bytes s))%nat with 0%nat by lia. cbn [firstn]. rewrite app_nil_r.
    rewrite (firstn_app b). rewrite skipn_length. replace (b - (length (sl_bytes s) - a))%nat with 0%nat by lia. cbn [firstn]. rewrite app_nil_r.
    rewrite !take_pad_firstn by (rewrite ?firstn_length, ?skipn_length; lia). rewrite !firstn_firstn, !Nat.min_id.
    split; [|rewrite !firstn_length, !skipn_length; lia].
    rewrite <- (firstn_skipn a (sl_bytes s)) at 1. f_equal. rewrite <- (firstn_skipn b (skipn a (sl_bytes s))) at 1. f_equal.
    rewrite skip_skip. rewrite <- (firstn_skipn c (skipn (a + b) (sl_bytes s))) at 1. f_equal. rewrite skip_skip. reflexivity.
  - destruct (Z.ltb_spec (glen s) (wrap64 (n1 + n2 + n3))) as [T|T]; [split; [reflexivity|lia]|].
    assert (P : filled n1 (upto s n1) = Panic \/ n1 <= 2 ^ 48).
    { destruct (Z.lt_ge_cases (2 ^ 48) n1) as [B|B]; [left|right; exact B]. unfold filled, max_alloc. replace ((n1 <? 0) || (2 ^ 48 <? n1)) with true by lia. reflexivity. }
    destruct P as [->|P1]; [cbn [bind]; split; [discriminate|lia]|]. destruct (filled n1 (upto s n1)) as [p0|e|] eqn:E0; cbn [bind].
    2:{ exfalso. revert E0. unfold filled, upto. repeat match goal with |- context [if ?x then _ else _] => destruct x end; cbn [bind]; discriminate. }
    2:{ split; [discriminate|lia]. }
    destruct (Z.lt_ge_cases (2 ^ 48) n2) as [B|B].
    { unfold filled at 1. unfold max_alloc. replace ((n2 <? 0) || (2 ^ 48 <? n2)) with true by lia. cbn [bind]. split; [discriminate|lia]. }
    destruct (filled n2 _) as [p1|e|] eqn:E1; cbn [bind].
    2:{ exfalso. revert E1. unfold filled, upto, from. repeat match goal with |- context [if ?x then _ else _] => destruct x; cbn [bind] end; discriminate. }
    2:{ split; [discriminate|lia]. }
    unfold filled, max_alloc. replace ((n3 <? 0) || (2 ^ 48 <? n3)) with true by lia. cbn [bind]. split; [discriminate|lia].
Qed.

(** "SplitThree reports bad lengths and never panics" is false: the sum of the lengths overflows. *)
Theorem C93_split_three_never_panics_refuted : exists input n1 n2 n3, int64 n1 /\ int64 n2 /\ int64 n3 /\ 0 <= n1 /\ 0 <= n2 /\ 0 <= n3 /\ fits (Some input) /\
  g_split_three (Some input) n1 n2 n3 = Panic.
Proof.
  exists {| sl_bytes := [x01]; sl_spare := [] |}, (2 ^ 62), (2 ^ 62), 0. repeat split; try (vm_compute; discriminate); reflexivity.
Qed.

(** ** Split and Trim. What they return is a slice of its own, with nothing behind it. *)

Theorem C93_split : forall input n1 n2, fits input -> let s := of_nil input in
  match g_split input n1 n2 with
  | Ok (a, b) => glen a = n1 /\ glen b = n2 /\ sl_spare a = [] /\ sl_spare b = [] /\ (exists rest, sl_bytes s = sl_bytes a ++ rest) /\
      forall i, (i < Z.to_nat n2)%nat -> nth i (sl_bytes b) x00 = nth (Z.to_nat n1 + i) (sl_bytes s) x00
  | Err _ => False
  | Panic => n1 < 0 \/ n2 < 0 \/ glen s < n1 \/ max_alloc < n2
  end.
Proof.
  intros input n1 n2 F s. unfold fits in F. fold s in F. assert (LC := len_cap s). unfold g_split. fold s. unfold filled at 1, upto.
  destruct ((n1 <? 0) || (max_alloc <? n1)) eqn:E1; cbn [bind]; [lia|]. destruct ((n1 <? 0) || (gcap s <? n1)) eqn:E2; cbn [bind]; [lia|].
  unfold filled, from. destruct ((n2 <? 0) || (max_alloc <? n2)) eqn:E3; cbn [bind]; [lia|]. destruct ((n1 <? 0) || (glen s <? n1)) eqn:E4; cbn [bind]; [lia|].
  cbn [sl_bytes]. unfold glen in *. cbn [sl_bytes]. rewrite !take_pad_length. unfold whole. split; [lia|]. split; [lia|]. split; [reflexivity|]. split; [reflexivity|].
  set (a := Z.to_nat n1). assert (L : (a <= length (sl_bytes s))%nat) by lia. rewrite firstn_app. replace (a - length (sl_bytes s))%nat with 0%nat by lia. cbn [firstn]. rewrite app_nil_r.
  rewrite take_pad_firstn by (rewrite firstn_length; lia). rewrite firstn_firstn, Nat.min_id. split.
  - exists (skipn a (sl_bytes s)). symmetry. apply firstn_skipn.
  - intros i H. rewrite nth_take_pad by exact H. apply nth_skipn_plus.
Qed.

(** Trim gives the first n bytes of the array from the start of the slice on: up to the length of the slice its own bytes ... *)
Theorem C93_trim : forall input n, fits input -> let s := of_nil input in
  match g_trim input n with
  | Ok r => 0 <= n <= gcap s /\ sl_bytes r = firstn (Z.to_nat n) (sl_bytes s ++ sl_spare s) /\ sl_spare r = []
  | Err _ => False
  | Panic => n < 0 \/ gcap s < n
  end.
Proof.
  intros input n F s. unfold fits in F. fold s in F. unfold g_trim, filled, upto. fold s. destruct ((n <? 0) || (max_alloc <? n)) eqn:E1; [lia|].
  destruct ((n <? 0) || (gcap s <? n)) eqn:E2; cbn [bind]; [lia|]. cbn [sl_bytes sl_spare]. split; [lia|]. split; [|reflexivity]. fold (whole s). unfold gcap in *.
  rewrite take_pad_firstn by (rewrite firstn_length; lia). rewrite firstn_firstn, Nat.min_id. reflexivity.
Qed.
Corollary C93_trim_prefix : forall input n, fits input -> 0 <= n <= glen (of_nil input) -> exists r rest, g_trim input n = Ok r /\ glen r = n /\ sl_bytes (of_nil input) = sl_bytes r ++ rest.
Proof.
  intros input n F B. assert (H := C93_trim input n F). cbv zeta in H. assert (LC := len_cap (of_nil input)). destruct (g_trim input n) as [r|e|]; [|contradiction|lia].
  destruct H as (_ & H & _). exists r, (skipn (Z.to_nat n) (sl_bytes (of_nil input))). split; [reflexivity|]. unfold glen in *. rewrite firstn_app in H. replace (Z.to_nat n - length (sl_bytes (of_nil input)))%nat with 0%nat in H by lia.
  cbn [firstn] in H. rewrite app_nil_r in H. rewrite H. split; [rewrite firstn_length; lia|symmetry; apply firstn_skipn].
Qed.
(** ... beyond it whatever lies behind: that the result depends on the slice's bytes only, and that a length beyond them panics, is false. *)
Theorem C93_trim_own_bytes_refuted : exists s t n, sl_bytes s = sl_bytes t /\ glen s < n /\ fits (Some s) /\ fits (Some t) /\
  exists r q, g_trim (Some s) n = Ok r /\ g_trim (Some t) n = Ok q /\ sl_bytes r <> sl_bytes q.
Proof.
  exists {| sl_bytes := [x01]; sl_spare := [x02] |}, {| sl_bytes := [x01]; sl_spare := [x03] |}, 2. split; [reflexivity|]. split; [reflexivity|]. split; [vm_compute; discriminate|]. split; [vm_compute; discriminate|].
  exists {| sl_bytes := [x01; x02]; sl_spare := [] |}, {| sl_bytes := [x01; x03]; sl_spare := [] |}. split; [reflexivity|]. split; [reflexivity|discriminate].
Qed.

(** ** The rest *)

Lemma of_N_lor : forall a b, Z.of_N (N.lor a b) = Z.lor (Z.of_N a) (Z.of_N b).
Proof. intros [|a] [|b]; reflexivity. Qed.
Lemma of_N_shiftl : forall a k, Z.of_N (N.shiftl a k) = Z.shiftl (Z.of_N a) (Z.of_N k).
Proof. intros a k. rewrite N.shiftl_mul_pow2, Z.shiftl_mul_pow2 by lia. rewrite N2Z.inj_mul, N2Z.inj_pow. reflexivity. Qed.
Lemma five : forall (l : bytes) o, (o + 5 <= length l)%nat ->
  firstn 5 (skipn o l) = [nth o l x00; nth (o + 1) l x00; nth (o + 2) l x00; nth (o + 3) l x00; nth (o + 4) l x00].
Proof.
  intros l o H. assert (L : length (firstn 5 (skipn o l)) = 5%nat) by (rewrite firstn_length, skipn_length; lia).
  assert (N : forall i, (i < 5)%nat -> nth i (firstn 5 (skipn o l)) x00 = nth (o + i) l x00) by (intros i I; rewrite nth_firstn_below by exact I; apply nth_skipn_plus).
  assert (N0 := N 0%nat ltac:(lia)). assert (N1 := N 1%nat ltac:(lia)). assert (N2 := N 2%nat ltac:(lia)). assert (N3 := N 3%nat ltac:(lia)). assert (N4 := N 4%nat ltac:(lia)). clear N.
  revert N0 N1 N2 N3 N4. destruct (firstn 5 (skipn o l)) as [|b0 [|b1 [|b2 [|b3 [|b4 [|? ?]]]]]]; try discriminate L. cbn [nth]. rewrite Nat.add_0_r. intros -> -> -> -> ->. reflexivity.
Qed.
Lemma bytes5_inside : forall s offset, fits (Some s) -> 0 <= offset -> offset + 5 <= glen s -> g_bytes5 (Some s) offset = bytes5_to_int64 (sl_bytes s) (Z.to_nat offset).
Proof.
  intros s offset F A B. assert (LC := len_cap s). unfold fits, max_alloc in F. cbn [of_nil] in F. unfold g_bytes5. cbn [of_nil].
  rewrite !wrap_small by (unfold int64; lia). unfold g_index. rewrite !(proj2 (Z.ltb_ge _ _)) by lia. rewrite !(proj2 (Z.leb_gt _ _)) by lia. cbn [orb bind].
  unfold bytes5_to_int64. rewrite five by (unfold glen in *; lia). rewrite !of_N_lor, !of_N_shiftl. rewrite !Z2Nat.inj_add by lia. change (Z.to_nat 1) with 1%nat. change (Z.to_nat 2) with 2%nat. change (Z.to_nat 3) with 3%nat. change (Z.to_nat 4) with 4%nat.
  rewrite <- !Z.lor_assoc. reflexivity.
Qed.
(** [be_value], MiscProofs.v, reads bytes as a number with the most significant byte first. *)
Theorem C93_bytes5 : forall input offset, int64 offset -> fits input -> let s := of_nil input in
  match g_bytes5 input offset with
  | Ok v => 0 <= offset /\ offset + 5 <= glen s /\ v = Z.of_N (be_value (firstn 5 (skipn (Z.to_nat offset) (sl_bytes s)))) /\ 0 <= v < 2 ^ 40
  | Err _ => False
  | Panic => offset < 0 \/ glen s < offset + 5
  end.
Proof.
  intros input offset I F s. assert (E : g_bytes5 input offset = g_bytes5 (Some s) offset) by reflexivity. rewrite E. clear E. change (fits input) with (fits (Some s)) in F. clearbody s. clear input.
  assert (LC := len_cap s). unfold fits, max_alloc in F. cbn [of_nil] in F.
  destruct (Z.lt_ge_cases offset 0) as [A|A]; [unfold g_bytes5, g_index; cbn [of_nil]; rewrite (proj2 (Z.ltb_lt offset 0) A); cbn [orb bind]; left; exact A|].
  destruct (Z.lt_ge_cases (glen s) (offset + 5)) as [B|B].
  - assert (P : g_bytes5 (Some s) offset = Panic); [|rewrite P; right; exact B]. unfold g_bytes5. cbn [of_nil].
    destruct (Z.lt_ge_cases offset (glen s)) as [B0|B0]; [|unfold g_index; rewrite (proj2 (Z.leb_le _ _) B0), orb_true_r; reflexivity].
    rewrite !wrap_small by (unfold int64; lia). unfold g_index at 1. destruct ((offset <? 0) || (glen s <=? offset)) eqn:E0; [reflexivity|]. cbn [bind].
    unfold g_index at 1. destruct ((offset + 1 <? 0) || (glen s <=? offset + 1)) eqn:E1; [reflexivity|]. cbn [bind].
    unfold g_index at 1. destruct ((offset + 2 <? 0) || (glen s <=? offset + 2)) eqn:E2; [reflexivity|]. cbn [bind].
    unfold g_index at 1. destruct ((offset + 3 <? 0) || (glen s <=? offset + 3)) eqn:E3; [reflexivity|]. cbn [bind].
    unfold g_index at 1. destruct ((offset + 4 <? 0) || (glen s <=? offset + 4)) eqn:E4; [reflexivity|]. exfalso. lia.
  - rewrite bytes5_inside; [|unfold fits, max_alloc; cbn [of_nil]; exact F|exact A|exact B]. rewrite bytes5_value by (unfold glen in *; lia). split; [exact A|]. split; [exact B|]. split; [reflexivity|].
    rewrite five by (unfold glen in *; lia). unfold be_value. cbn [fold_left]. 
    set (o := Z.to_nat offset). set (l := sl_bytes s). assert (H0 := b2n_lt (nth o l x00)). assert (H1 := b2n_lt (nth (o + 1) l x00)). assert (H2 := b2n_lt (nth (o + 2) l x00)).
    assert (H3 := b2n_lt (nth (o + 3) l x00)). assert (H4 := b2n_lt (nth (o + 4) l x00)). lia.
Qed.

(** CopySlice: the same bytes. *)
Theorem C93_copy : forall input, fits input -> exists r, g_copy input = Ok r /\ sl_bytes r = sl_bytes (of_nil input) /\ sl_spare r = [].
Proof.
  intros input F. unfold fits in F. unfold g_copy, filled. assert (LC := len_cap (of_nil input)). replace ((glen (of_nil input) <? 0) || (max_alloc <? glen (of_nil input))) with false by lia. cbn [bind].
  eexists. split; [reflexivity|]. cbn [sl_bytes sl_spare]. split; [|reflexivity]. unfold glen. rewrite Nat2Z.id. rewrite take_pad_firstn by apply le_n. apply firstn_all.
Qed.

(** SliceToArray and SliceToArray64 (n is 32 or 64): two slices give the same array exactly if their first n bytes agree, missing ones counting as zero. *)
Theorem C93_arrays : forall n input other, g_to_array n input = g_to_array n other <-> forall i, (i < n)%nat -> nth i (sl_bytes (of_nil input)) x00 = nth i (sl_bytes (of_nil other)) x00.
Proof.
  intros n input other. unfold g_to_array. generalize (sl_bytes (of_nil input)) (sl_bytes (of_nil other)). intros l k.
  assert (A : forall l, abytes (to_arr n l) = take_pad n l) by (intros; reflexivity). split.
  - intros E i H. rewrite <- (nth_take_pad n l i H), <- (nth_take_pad n k i H), <- !A, E. reflexivity.
  - intros H. apply arr_eq. rewrite !A. apply (nth_ext _ _ x00 x00); [rewrite !take_pad_length; reflexivity|]. intros i L. rewrite take_pad_length in L. rewrite !nth_take_pad by exact L. apply H. exact L.
Qed.

(** MultiError: nil errors do not count; the text is that of the first other one, and empty if there is none. *)
Theorem C93_multi_error : forall added, let m := fold_left m_add added new_multi in
  (m_has_errors m = true <-> exists t, In (Some t) added) /\
  (forall before t after, added = before ++ Some t :: after -> (forall e, In e before -> e = None) -> m_error m = t) /\
  ((forall e, In e added -> e = None) -> m_error m = []).
Proof.
  intros added m. assert (G : forall l m0, fold_left m_add l m0 = m0 ++ concat (map (fun e => match e with Some t => [t] | None => [] end) l)).
  { intros l. induction l as [|e l IH]; intros m0; cbn [fold_left map concat]; [symmetry; apply app_nil_r|]. rewrite IH. destruct e as [t|]; cbn [m_add]; [rewrite <- app_assoc; reflexivity|reflexivity]. }
  assert (M : m = concat (map (fun e => match e with Some t => [t] | None => [] end) added)) by (unfold m; rewrite G; reflexivity). clearbody m. subst m.
  assert (Z : forall l : list (option bytes), (forall e, In e l -> e = None) -> concat (map (fun e => match e with Some t => [t] | None => [] end) l) = []).
  { intros l. induction l as [|e l IH]; intros H; [reflexivity|]. cbn [map concat]. rewrite (H e (or_introl eq_refl)). apply IH. intros x I. apply H. right. exact I. }
  split; [|split].
  - unfold m_has_errors. rewrite Nat.ltb_lt. split.
    + intros H. assert (K : exists t, In t (concat (map (fun e : option bytes => match e with Some t => [t] | None => [] end) added))).
      { destruct (concat _) as [|t l]; [cbn in H; lia|exists t; left; reflexivity]. }
      destruct K as [t K]. apply in_concat in K. destruct K as (x & I & J). apply in_map_iff in I. destruct I as (e & <- & I). destruct e as [u|]; [|destruct J]. exists u. exact I.
    + intros [t I]. assert (K : In t (concat (map (fun e : option bytes => match e with Some t => [t] | None => [] end) added))).
      { apply in_concat. exists [t]. split; [|left; reflexivity]. apply in_map_iff. exists (Some t). split; [reflexivity|exact I]. }
      destruct (concat _) as [|x l]; [destruct K|cbn; lia].
  - intros before t after -> H. rewrite map_app, concat_app. rewrite (Z before H). reflexivity.
  - intros H. rewrite (Z added H). reflexivity.
Qed.

(** ** The calls inside the library *)

(** With enough memory and lengths whose sum fits an int these are the functions on values used in the rest of the model. *)
Definition values3 (r : res (gslice * gslice * gslice)) : res (bytes * bytes * bytes) := t <- r ;; match t with (a, b, c) => Ok (sl_bytes a, sl_bytes b, sl_bytes c) end.

Definition value1 (r : res gslice) : res bytes := s <- r ;; Ok (sl_bytes s).
Definition values2 (r : res (gslice * gslice)) : res (bytes * bytes) := t <- r ;; Ok (sl_bytes (fst t), sl_bytes (snd t)).
Theorem C93_as_in_the_model : forall input, fits input ->
  (forall n1 n2 n3, int64 n1 -> int64 n2 -> int64 n3 -> n1 + n2 + n3 < 2 ^ 63 -> values3 (g_split_three input n1 n2 n3) = split_three (option_map sl_bytes input) n1 n2 n3) /\
  (forall n1 n2 : nat, Z.of_nat n2 <= max_alloc -> values2 (g_split input (Z.of_nat n1) (Z.of_nat n2)) = split_two (sl_bytes (of_nil input)) n1 n2) /\
  (forall n : nat, Z.of_nat n <= glen (of_nil input) -> value1 (g_trim input (Z.of_nat n)) = trim (sl_bytes (of_nil input)) n) /\
  (forall offset : nat, int64 (Z.of_nat offset) -> g_bytes5 input (Z.of_nat offset) = bytes5_to_int64 (sl_bytes (of_nil input)) offset).
Proof.
  intros input F. assert (LC := len_cap (of_nil input)). split; [|split; [|split]].
  - intros n1 n2 n3 I1 I2 I3 S. assert (H := C93_split_three input n1 n2 n3 I1 I2 I3 F). unfold split_three. destruct input as [s|]; [|reflexivity]. cbn [option_map of_nil] in *. fold (glen s).
    destruct (g_split_three (Some s) n1 n2 n3) as [[[a b] c]|e|]; [| |lia].
    + destruct H as (s' & rest & E & W & A & B & D). injection E as <-. unfold values3. cbn [bind].
      assert (TL : n1 + n2 + n3 <= glen s) by (unfold glen in *; rewrite W, !app_length; lia).
      destruct ((n1 <? 0) || (n2 <? 0) || (n3 <? 0) || (glen s <? n1 + n2 + n3)) eqn:Q; [unfold glen in *; lia|]. rewrite W. unfold glen in A, B, D.
      assert (A' : Z.to_nat n1 = length (sl_bytes a)) by lia. assert (B' : Z.to_nat n2 = length (sl_bytes b)) by lia. assert (D' : Z.to_nat n3 = length (sl_bytes c)) by lia. rewrite A', B', D'.
      rewrite <- skip_skip. rewrite !(firstn_app (length (sl_bytes a))), !(skipn_app (length (sl_bytes a))), !Nat.sub_diag, !skipn_all. cbn [firstn skipn app]. rewrite app_nil_r, firstn_all.
      rewrite !(firstn_app (length (sl_bytes b))), !(skipn_app (length (sl_bytes b))), !Nat.sub_diag, !skipn_all. cbn [firstn skipn app]. rewrite app_nil_r, firstn_all.
      rewrite (firstn_app (length (sl_bytes c))), Nat.sub_diag. cbn [firstn]. rewrite app_nil_r, firstn_all. reflexivity.
    + destruct H as [-> H]. unfold values3. cbn [bind]. destruct ((n1 <? 0) || (n2 <? 0) || (n3 <? 0) || (glen s <? n1 + n2 + n3)) eqn:Q; [reflexivity|]. exfalso. destruct H as [H|H]; [discriminate H|lia].
  - intros n1 n2 B. assert (H := C93_split input (Z.of_nat n1) (Z.of_nat n2) F). cbv zeta in H. unfold split_two. destruct (g_split input (Z.of_nat n1) (Z.of_nat n2)) as [[a b]|e|]; [|destruct H|].
    + destruct H as (A & B' & _ & _ & (rest & W) & N). unfold values2. cbn [bind fst snd]. unfold glen in A, B'. rewrite W at 1. rewrite app_length.
      replace (length (sl_bytes a) + length rest <? n1)%nat with false by (symmetry; apply Nat.ltb_ge; lia). assert (LA : n1 = length (sl_bytes a)) by lia. assert (EA : firstn n1 (sl_bytes (of_nil input)) = sl_bytes a).
      { rewrite W, LA, firstn_app, Nat.sub_diag, firstn_all. cbn [firstn]. apply app_nil_r. }
      rewrite EA. assert (EB : sl_bytes b = take_pad n2 (skipn n1 (sl_bytes (of_nil input)))); [|rewrite EB; reflexivity].
      apply (nth_ext _ _ x00 x00); [rewrite take_pad_length; lia|]. intros i L. rewrite nth_take_pad by lia. rewrite nth_skipn_plus. rewrite N by lia. rewrite Nat2Z.id. reflexivity.
    + replace (length (sl_bytes (of_nil input)) <? n1)%nat with true by (symmetry; apply Nat.ltb_lt; unfold glen in *; lia). reflexivity.
  - intros n B. assert (H := C93_trim input (Z.of_nat n) F). cbv zeta in H. unfold trim. unfold glen in B. replace (length (sl_bytes (of_nil input)) <? n)%nat with false by (symmetry; apply Nat.ltb_ge; lia).
    destruct (g_trim input (Z.of_nat n)) as [r|e|]; [|destruct H|unfold glen in *; lia]. destruct H as (_ & H & _). unfold value1. cbn [bind]. rewrite H, Nat2Z.id, firstn_app.
    replace (n - length (sl_bytes (of_nil input)))%nat with 0%nat by lia. cbn [firstn]. rewrite app_nil_r. reflexivity.
  - intros offset I. assert (H := C93_bytes5 input (Z.of_nat offset) I F). cbv zeta in H. destruct (g_bytes5 input (Z.of_nat offset)) as [v|e|]; [|destruct H|].
    + destruct H as (A & B & -> & _). rewrite Nat2Z.id. symmetry. apply bytes5_value. unfold glen in B. lia.
    + symmetry. apply bytes5_panics. unfold glen in H. lia.
Qed.

(** Concrete slices. *)
Example C93_example : let s := {| sl_bytes := [x01; x02; x03; x04; x05]; sl_spare := [x09; x09] |} in
  fits (Some s) /\ values3 (g_split_three (Some s) 1 2 1) = Ok ([x01], [x02; x03], [x04]) /\ g_split_three (Some s) 1 4 1 = Err EInputTooSmall /\ g_split_three (Some s) (-1) 4 1 = Err EInputTooSmall /\
  values2 (g_split (Some s) 2 4) = Ok ([x01; x02], [x03; x04; x05; x00]) /\ g_split (Some s) 6 0 = Panic /\
  value1 (g_trim (Some s) 2) = Ok [x01; x02] /\ value1 (g_trim (Some s) 6) = Ok [x01; x02; x03; x04; x05; x09] /\ g_trim (Some s) 8 = Panic /\
  g_bytes5 (Some s) 0 = Ok 4328719365 /\ g_bytes5 (Some s) 1 = Panic /\ value1 (g_copy None) = Ok [] /\
  g_split_three None 0 0 0 = Err EInputTooSmall /\ values2 (g_split None 0 2) = Ok ([], [x00; x00]).
Proof. cbv zeta. split; [vm_compute; discriminate|]. repeat split; vm_compute; reflexivity. Qed.
Example C93_example_errors : m_error (fold_left m_add [None; Some [x61]; None; Some [x62]] new_multi) = [x61] /\ m_has_errors (fold_left m_add [None; None] new_multi) = false.
Proof. split; reflexivity. Qed.

Print Assumptions C93_split_three.
Print Assumptions C93_split_three_never_panics_refuted.
Print Assumptions C93_split.
Print Assumptions C93_trim.
Print Assumptions C93_trim_prefix.
Print Assumptions C93_trim_own_bytes_refuted.
Print Assumptions C93_bytes5.
Print Assumptions C93_copy.
Print Assumptions C93_arrays.
Print Assumptions C93_multi_error.
Print Assumptions C93_as_in_the_model.
