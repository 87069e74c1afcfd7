(** KeyHelperProofs.v: the model of the key helper gives exactly what KeyHelperSpec.v says. *)
From Coq Require Import List NArith ZArith Lia.
From Verif Require Import Base Crypto Ecc Messages PreKeyRecords KeyHelper Group GroupCallSpec GroupCallProofs KeyHelperSpec.
Import ListNotations.
Local Open Scope list_scope.

Lemma read_iff : forall n g o g', rng_read n g = (o, g') <-> match o with Some a => gives n g (abytes a) g' | None => fails g g' end.
Proof.
  intros n g o g'. split.
  - destruct g as [|[l|] g]; cbn [rng_read]; intros H; apply pair_equal_spec in H; destruct H as [<- <-]; constructor.
  - destruct o as [a|]; intros H; [|destruct H; reflexivity]. remember (abytes a) as b eqn:E. destruct H as [l g]. cbn [rng_read].
    f_equal. f_equal. apply arr_eq. exact E.
Qed.

Lemma fails_not_gives : forall n g b g' g'', gives n g b g' -> fails g g'' -> False.
Proof. intros n g b g' g'' H F. destruct H. inversion F. Qed.

Lemma byte_low : forall b, N.land (b2n b) 248 = (b2n b - b2n b mod 8)%N.
Proof. intros b. destruct b; vm_compute; reflexivity. Qed.
Lemma byte_high : forall b, N.lor (N.land (b2n b) 127) 64 = (64 + b2n b mod 64)%N.
Proof. intros b. destruct b; vm_compute; reflexivity. Qed.

Lemma key_from_clamp : forall a k, key_from (abytes a) (abytes k) <-> k = clamp a.
Proof.
  intros a k.
  assert (HS : exists first middle last, abytes a = first :: middle ++ [last] /\ length middle = 30%nat).
  { assert (L := arr_length 32 a). destruct (abytes a) as [|f t]; [discriminate|]. cbn [length] in L. apply eq_add_S in L.
    destruct (exists_last (l := t) ltac:(destruct t; discriminate)) as (m & x & ->). rewrite app_length in L. cbn [length] in L.
    exists f, m, x. split; [reflexivity|lia]. }
  destruct HS as (f & m & x & E & L).
  assert (HC : abytes (clamp a) = n2b (b2n f - b2n f mod 8) :: m ++ [n2b (64 + b2n x mod 64)]).
  { rewrite <- byte_low, <- byte_high. unfold clamp, to_arr. cbn [abytes]. rewrite E.
    do 30 (destruct m as [|? m]; [discriminate L|]). destruct m; [|discriminate L]. reflexivity. }
  split.
  - intros (f1 & m1 & x1 & E1 & L1 & E2). apply arr_eq. rewrite HC, E2. rewrite E in E1.
    assert (HF : f1 = f) by (apply (f_equal (hd x00)) in E1; symmetry; exact E1). apply (f_equal (@tl byte)) in E1. cbn [tl] in E1.
    apply app_inj_tail in E1. destruct E1 as [<- <-]. rewrite HF. reflexivity.
  - intros ->. exists f, m, x. split; [exact E|]. split; [exact L|exact HC].
Qed.

Lemma drawn_read : forall g priv g', drawn g priv g' <-> exists a, rng_read 32 g = (Some a, g') /\ priv = clamp a.
Proof.
  intros g priv g'. split.
  - intros (seed & HG & HK). assert (L : exists a : arr32, abytes a = seed).
    { destruct HG as [l g]. exists (to_arr 32 l). reflexivity. }
    destruct L as (a & <-). exists a. split; [apply (read_iff 32 g (Some a)); exact HG|]. apply key_from_clamp. exact HK.
  - intros (a & HR & ->). exists (abytes a). split; [apply (read_iff 32 g (Some a)); exact HR|apply key_from_clamp; reflexivity].
Qed.

Section P.
Context (C : crypto).

Lemma one_key_iff : forall A (make : arr32 -> A) g o g',
  (match rng_read 32 g with (Some a, g1) => (Ok (make (clamp a)), g1) | (None, g1) => (Err ERand, g1) end) = (o, g') <-> one_key make g o g'.
Proof.
  intros A make g o g'. unfold one_key. split.
  - destruct (rng_read 32 g) as [[a|] g1] eqn:E; intros H; apply pair_equal_spec in H; destruct H as [<- <-].
    + left. exists (clamp a). split; [apply drawn_read; exists a; split; [exact E|reflexivity]|reflexivity].
    + right. split; [apply (read_iff 32 g None); exact E|reflexivity].
  - intros [(priv & HD & ->) | (HF & ->)].
    + apply drawn_read in HD. destruct HD as (a & -> & ->). reflexivity.
    + apply (read_iff 32 g None) in HF. rewrite HF. reflexivity.
Qed.

Lemma identity_iff : forall g o g', generate_identity C g = (o, g') <-> one_key (fun priv => {| ip_pub := x_base C priv; ip_priv := priv |}) g o g'.
Proof. intros g o g'. apply (one_key_iff _ (fun priv => {| ip_pub := x_base C priv; ip_priv := priv |})). Qed.
Lemma key_pair_iff : forall g o g', generate_key_pair C g = (o, g') <-> one_key (pair_with C) g o g'.
Proof. intros g o g'. apply (one_key_iff _ (pair_with C)). Qed.
Lemma last_resort_iff : forall g o g', generate_last_resort C g = (o, g') <-> one_key (prekey_with C 0) g o g'.
Proof.
  intros g o g'. rewrite <- (one_key_iff _ (prekey_with C 0)). unfold generate_last_resort, generate_key_pair.
  destruct (rng_read 32 g) as [[a|] g1]; reflexivity.
Qed.

Lemma gen_iff : forall count n i g o g', n = Z.to_nat (count - i + 1) -> (gen_pre_keys C n i g = (o, g') <-> prekeys_fate C count i g o g').
Proof.
  intros count. induction n as [|n IH]; intros i g o g' HN.
  - cbn [gen_pre_keys]. split.
    + intros H. apply pair_equal_spec in H. destruct H as [<- <-]. apply pf_done. lia.
    + intros H. destruct H; [reflexivity| | |]; lia.
  - cbn [gen_pre_keys]. unfold generate_key_pair.
    assert (HI : (i <= count)%Z) by lia. assert (HN' : n = Z.to_nat (count - (i + 1) + 1)) by lia.
    destruct (rng_read 32 g) as [[a|] g1] eqn:E.
    + cbn [new_pkr kp_priv pair_of].
      assert (HD : drawn g (clamp a) g1) by (apply drawn_read; exists a; split; [exact E|reflexivity]).
      assert (HU : forall p g2, drawn g p g2 -> p = clamp a /\ g2 = g1).
      { intros p g2 H. apply drawn_read in H. destruct H as (a2 & E2 & ->). rewrite E in E2. apply pair_equal_spec in E2. destruct E2 as [E2 <-].
        split; [|reflexivity]. apply (f_equal (fun q => match q with Some r => r | None => a end)) in E2. rewrite E2. reflexivity. }
      destruct (gen_pre_keys C n (i + 1) g1) as [[l|e|] g2] eqn:EG.
      * assert (HF := proj1 (IH _ _ _ _ HN') EG). split.
        -- intros H. apply pair_equal_spec in H. destruct H as [<- <-]. exact (pf_key C count i g (clamp a) g1 l g2 HI HD HF).
        -- intros H. destruct H as [i g H|i g g' _ H|i g p g3 l2 g4 _ H H2|i g p g3 g4 _ H H2].
           ++ lia.
           ++ exfalso. destruct HD as (s & HG & _). exact (fails_not_gives _ _ _ _ _ HG H).
           ++ destruct (HU _ _ H) as [-> ->]. apply (IH _ _ _ _ HN') in H2. rewrite H2 in EG. apply pair_equal_spec in EG. destruct EG as [EG <-].
              apply (f_equal (fun q => match q with Ok r => r | _ => [] end)) in EG. rewrite EG. reflexivity.
           ++ destruct (HU _ _ H) as [-> ->]. apply (IH _ _ _ _ HN') in H2. rewrite H2 in EG. discriminate EG.
      * assert (HF := proj1 (IH _ _ _ _ HN') EG). split.
        -- intros H. apply pair_equal_spec in H. destruct H as [<- <-]. inversion HF; subst; exact (pf_later C count i g (clamp a) g1 g2 HI HD HF).
        -- intros H. destruct H as [i g H|i g g' _ H|i g p g3 l2 g4 _ H H2|i g p g3 g4 _ H H2].
           ++ lia.
           ++ exfalso. destruct HD as (s & HG & _). exact (fails_not_gives _ _ _ _ _ HG H).
           ++ destruct (HU _ _ H) as [-> ->]. apply (IH _ _ _ _ HN') in H2. rewrite H2 in EG. discriminate EG.
           ++ destruct (HU _ _ H) as [-> ->]. apply (IH _ _ _ _ HN') in H2. rewrite H2 in EG. symmetry. exact EG.
      * exfalso. assert (HF := proj1 (IH _ _ _ _ HN') EG). inversion HF.
    + assert (HF : fails g g1) by (apply (read_iff 32 g None); exact E). split.
      * intros H. apply pair_equal_spec in H. destruct H as [<- <-]. exact (pf_fails C count i g g1 HI HF).
      * assert (HX : forall p g3, drawn g p g3 -> False) by (intros p g3 (s & HG & _); exact (fails_not_gives _ _ _ _ _ HG HF)).
        intros H. destruct H as [i g H|i g g' _ H|i g p g3 l2 g4 _ H H2|i g p g3 g4 _ H H2].
        -- lia.
        -- apply (read_iff 32 g None) in H. rewrite H in E. exact (eq_sym (f_equal (fun q => (Err ERand, snd q)) E)).
        -- destruct (HX _ _ H).
        -- destruct (HX _ _ H).
Qed.

Lemma zero_bytes : forall n, abytes (zero_arr n) = repeat x00 n.
Proof. intros n. cbn. unfold take_pad. cbn [app]. rewrite firstn_all2; [reflexivity|]. rewrite repeat_length. apply le_n. Qed.

Lemma noise_iff : forall n g (z : arr n) g', (match rng_read n g with (Some a, g1) => (a, g1) | (None, g1) => (zero_arr n, g1) end) = (z, g') <-> noise n g (abytes z) g'.
Proof.
  intros n g z g'. unfold noise. split.
  - destruct (rng_read n g) as [[a|] g1] eqn:E; intros H; apply pair_equal_spec in H; destruct H as [<- <-].
    + left. apply (read_iff n g (Some a)). exact E.
    + right. split; [apply (read_iff n g None); exact E|]. apply zero_bytes.
  - intros [H | (H & E)].
    + apply (read_iff n g (Some z)) in H. rewrite H. reflexivity.
    + apply (read_iff n g None) in H. rewrite H. f_equal. apply arr_eq. rewrite E. apply zero_bytes.
Qed.

Lemma signed_iff : forall ident id now g o g', generate_signed_pre_key C ident id now g = (o, g') <-> signed_fate C (ip_priv ident) id now g o g'.
Proof.
  intros ident id now g o g'. unfold generate_signed_pre_key, generate_key_pair, signed_fate. split.
  - destruct (rng_read 32 g) as [[a|] g1] eqn:E.
    + unfold calculate_signature. intros H. left. exists (clamp a), g1.
      assert (HD : drawn g (clamp a) g1) by (apply drawn_read; exists a; split; [exact E|reflexivity]).
      destruct (rng_read 64 g1) as [oz g2] eqn:E2.
      exists (match oz with Some z => z | None => zero_arr 64 end). split; [exact HD|].
      destruct oz as [z|]; cbn [new_skr kp_priv pair_of] in H; apply pair_equal_spec in H; destruct H as [<- <-];
        (split; [apply noise_iff; rewrite E2; reflexivity|reflexivity]).
    + intros H. apply pair_equal_spec in H. destruct H as [<- <-]. right. split; [apply (read_iff 32 g None); exact E|reflexivity].
  - intros [(priv & g1 & z & HD & HN & ->) | (HF & ->)].
    + apply drawn_read in HD. destruct HD as (a & -> & ->). apply noise_iff in HN. unfold calculate_signature.
      destruct (rng_read 64 g1) as [[z1|] g2]; apply pair_equal_spec in HN; destruct HN as [<- <-]; reflexivity.
    + apply (read_iff 32 g None) in HF. rewrite HF. reflexivity.
Qed.
End P.

Lemma registration_iff : forall g id g', generate_registration_id g = (id, g') <-> exists z, noise 4 g z g' /\ id = little_endian z.
Proof.
  intros g id g'. unfold generate_registration_id. split.
  - destruct (rng_read 4 g) as [[a|] g1] eqn:E; intros H; apply pair_equal_spec in H; destruct H as [<- <-].
    + exists (abytes a). split; [left; apply (read_iff 4 g (Some a)); exact E|apply le_u32_little_endian].
    + exists (repeat x00 4). split; [right; split; [apply (read_iff 4 g None); exact E|reflexivity]|reflexivity].
  - intros (z & [H | (H & ->)] & ->).
    + destruct H as [l g]. cbn [rng_read]. f_equal. exact (le_u32_little_endian (to_arr 4 l)).
    + apply (read_iff 4 g None) in H. rewrite H. reflexivity.
Qed.
Lemma sender_key_iff : forall g k g', generate_sender_key g = (k, g') <-> noise 32 g k g'.
Proof.
  intros g k g'. unfold generate_sender_key, noise. split.
  - destruct (rng_read 32 g) as [[a|] g1] eqn:E; intros H; apply pair_equal_spec in H; destruct H as [<- <-].
    + left. apply (read_iff 32 g (Some a)); exact E.
    + right. split; [apply (read_iff 32 g None); exact E|reflexivity].
  - intros [H | (H & ->)].
    + destruct H as [l g]. cbn [rng_read]. reflexivity.
    + apply (read_iff 32 g None) in H. rewrite H. reflexivity.
Qed.

Lemma new_pkr_panics : forall id p, new_pkr id p = Panic <-> kp_priv p = None.
Proof. intros id p. unfold new_pkr. destruct (kp_priv p); split; intros H; try reflexivity; discriminate H. Qed.
Lemma new_skr_panics : forall id now p sig, new_skr id now p sig = Panic <-> kp_priv p = None.
Proof. intros id now p sig. unfold new_skr. destruct (kp_priv p); split; intros H; try reflexivity; discriminate H. Qed.
