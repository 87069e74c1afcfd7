(** XedRef.v: the laws assumed of Crypto.v follow from the external specifications, and those are satisfiable. *)
From Verif Require Import Base Crypto Field25519 Scalar25519 FieldSpec FieldProofs FieldProofs2 FieldProofs3 FieldProofs4 FieldPrime Fermat ScalarSpec ScalarProofs ScalarProofs2 Fp CurveSpec CurveGroup EdBase Edwards EdwardsProofs EdwardsProofs2 EdwardsTable EdwardsMult EdwardsOrder OrderPrime KdfProofs PropertiesField XEdDSA XedSpec XedProofs EdwardsDecode Toy.
From Coq Require Import ZArith Znumtheory NArith List Lia Bool Ring Field.
Import ListNotations.
Local Open Scope F_scope.
Local Opaque padd popp.

Lemma fz_255 : forall x : F, (0 <= fz x < 2 ^ 255)%Z.
Proof. intros x. pose proof (fz_range x) as R. unfold p25519 in R. lia. Qed.
Lemma fz_256 : forall x : F, (0 <= fz x < 2 ^ 256)%Z.
Proof. intros x. pose proof (fz_range x) as R. unfold p25519 in R. lia. Qed.
Lemma fz_mod_255 : forall x : F, (fz x mod 2 ^ 255 = fz x)%Z.
Proof. intros x. apply Z.mod_small. apply fz_255. Qed.

(** * Key agreement *)
Lemma x25519_dh : forall mult base, x25519_spec mult base -> forall a b, mult a (base b) = mult b (base a).
Proof.
  intros mult base [HM HB] a b. apply arr_inj_val. pose proof base_on_curve as C. generalize dependent base_point. intros B HB C.
  assert (K : forall a b, le_val (abytes (mult a (base b))) = fz (mont_u (zmul (scalar_of (abytes a) * scalar_of (abytes b)) B))).
  { intros x y. rewrite (HM x (base y) (zmul (scalar_of (abytes y)) B) (zmul_on_curve _ B C)).
    - rewrite (zmul_mul _ _ B C). reflexivity.
    - rewrite HB. rewrite fz_mod_255. apply ofZ_fz. }
  rewrite !K. rewrite Z.mul_comm. reflexivity.
Qed.

Theorem laws_of_external : forall C sha512 verify, external_spec C sha512 verify -> crypto_laws (with_xeddsa C sha512 verify).
Proof.
  intros C sha512 verify [H1 H2 H3 H4 H5 H6]. constructor; cbn [with_xeddsa hmac x_base x_mult aes_enc aes_dec xed_sign xed_verify].
  - exact H1.
  - exact (x25519_dh _ _ H5).
  - exact H2.
  - exact H3.
  - exact H4.
  - exact (sign_verify _ _ _ _ H5 H6).
Qed.

(** * Exactly what verify accepts *)
Lemma sig_parts : forall sig : arr64, exists R l b, abytes sig = R ++ l ++ [b] /\ length R = 32%nat /\ length l = 31%nat.
Proof.
  intros sig. pose proof (arr_length 64 sig) as H. exists (firstn 32 (abytes sig)), (firstn 31 (skipn 32 (abytes sig))).
  assert (L : length (skipn 32 (abytes sig)) = 32%nat) by (rewrite skipn_length, H; reflexivity).
  destruct (skipn 31 (skipn 32 (abytes sig))) as [|b r] eqn:E.
  - apply (f_equal (@length _)) in E. rewrite skipn_length, L in E. discriminate E.
  - exists b. assert (r = []). { apply (f_equal (@length _)) in E. rewrite skipn_length, L in E. destruct r; [reflexivity|discriminate E]. }
    subst r. rewrite <- E. rewrite firstn_skipn, firstn_skipn. split; [reflexivity|]. split; [rewrite firstn_length, H; reflexivity|rewrite firstn_length, L; reflexivity].
Qed.
Lemma verify_exact : forall sha512 verify, ed25519_spec sha512 verify -> forall pub m sig,
  xeddsa_verify verify pub m sig = true <-> xeddsa_valid sha512 pub m sig.
Proof.
  intros sha512 verify HV pub m sig. unfold xeddsa_verify. cbv zeta. rewrite (HV _ m _). unfold ed25519_valid, xeddsa_valid. cbv zeta.
  destruct (sig_parts sig) as (R & l & b & E & LR & LL). rewrite E.
  assert (A1 : last (R ++ l ++ [b]) x00 = b) by (rewrite app_assoc; apply last_last).
  assert (A2 : on_last clear_top (R ++ l ++ [b]) = R ++ l ++ [clear_top b]) by (rewrite app_assoc, on_last_snoc, <- app_assoc; reflexivity).
  assert (A3 : firstn 32 (R ++ l ++ [b]) = R) by (rewrite firstn_app, LR, firstn_all2 by (rewrite LR; apply le_n); apply app_nil_r).
  assert (A4 : skipn 32 (R ++ l ++ [b]) = l ++ [b]) by (rewrite skipn_app, LR, skipn_all2 by (rewrite LR; apply le_n); reflexivity).
  rewrite A1, A2, A3, A4. rewrite to_arr_exact by (rewrite !app_length, LR, LL; reflexivity).
  assert (A5 : firstn 32 (R ++ l ++ [clear_top b]) = R) by (rewrite firstn_app, LR, firstn_all2 by (rewrite LR; apply le_n); apply app_nil_r).
  assert (A6 : skipn 32 (R ++ l ++ [clear_top b]) = l ++ [clear_top b]) by (rewrite skipn_app, LR, skipn_all2 by (rewrite LR; apply le_n); reflexivity).
  rewrite A5, A6, to_arr_abytes. clear A1 A2 A3 A4 A5 A6 E.
  assert (S1 : le_val (l ++ [clear_top b]) = (le_val (l ++ [b]) mod 2 ^ 255)%Z /\ (le_val (l ++ [b]) / 2 ^ 255 = zb b / 128)%Z).
  { rewrite !le_val_snoc, LL, zb_clear_top. pose proof (le_val_bound l) as BL. rewrite LL in BL. change (256 ^ Z.of_nat 31)%Z with (2 ^ 248)%Z in *.
    pose proof (Z.mod_pos_bound (zb b) 128 ltac:(lia)) as MB. assert (D := Z.div_mod (zb b) 128 ltac:(lia)).
    split; [apply Z.mod_unique with (q := (zb b / 128)%Z); [left; lia|lia]|]. symmetry. apply Z.div_unique with (r := (le_val l + 2 ^ 248 * (zb b mod 128))%Z); [left; lia|lia]. }
  destruct S1 as [S1 S2]. rewrite S1, S2. pose proof (mont_to_ed_y pub b) as Y. unfold ed_y in Y. clear S1 S2.
  set (u := ofZ (le_val (abytes pub) mod 2 ^ 255)) in *. set (y := (u - 1) / (u + 1)) in *.
  assert (R0 := fz_range y). unfold p25519 in R0. destruct (zb_top_bit b) as [_ TB].
  assert (Y1 : (le_val (abytes (mont_to_ed pub b)) mod 2 ^ 255 = fz y)%Z). { rewrite Y, Z.mul_comm, Z.mod_add by lia. apply Z.mod_small. lia. }
  assert (Y2 : (le_val (abytes (mont_to_ed pub b)) / 2 ^ 255 = zb b / 128)%Z). { rewrite Y, Z.mul_comm, Z.div_add by lia. rewrite Z.div_small by lia. reflexivity. }
  split.
  - intros (A & (C & PY & PX) & SL & EQ). exists A, (mont_to_ed pub b). rewrite Y1, ofZ_fz in PY. rewrite Y2 in PX.
    exact (conj C (conj PY (conj PX (conj Y (conj SL EQ))))).
  - intros (A & key & C & PY & PX & KY & SL & EQ). assert (K : key = mont_to_ed pub b) by (apply arr_inj_val; rewrite KY, Y; reflexivity). subst key.
    exists A. split; [|exact (conj SL EQ)]. unfold decodes. rewrite Y1, Y2, ofZ_fz. exact (conj C (conj PY PX)).
Qed.

(** * The specifications are met by a reference implementation *)
Fixpoint le_enc (n : nat) (z : Z) : bytes := match n with O => [] | S n' => zbyte z :: le_enc n' (z / 256) end.
Lemma le_enc_length : forall n z, length (le_enc n z) = n.
Proof. induction n as [|n IH]; intros z; cbn [le_enc length]; [reflexivity|]. rewrite IH. reflexivity. Qed.
Lemma le_enc_val : forall n z, (0 <= z < 256 ^ Z.of_nat n)%Z -> le_val (le_enc n z) = z.
Proof.
  induction n as [|n IH]; intros z H; [cbn [le_enc le_val]; cbn in H; lia|]. cbn [le_enc le_val]. rewrite zb_zbyte.
  rewrite Nat2Z.inj_succ, Z.pow_succ_r in H by lia. rewrite IH by (split; [apply Z.div_pos; lia|apply Z.div_lt_upper_bound; lia]).
  pose proof (Z.div_mod z 256 ltac:(lia)). lia.
Qed.
Definition enc32 (z : Z) : arr32 := to_arr 32 (le_enc 32 z).
Lemma enc32_val : forall z, (0 <= z < 2 ^ 256)%Z -> le_val (abytes (enc32 z)) = z.
Proof. intros z H. unfold enc32. rewrite to_arr_exact by apply le_enc_length. apply le_enc_val. exact H. Qed.

Definition point_of (h : ext) : point := (fdiv (fv (ext_x h)) (fv (ext_z h)), fdiv (fv (ext_y h)) (fv (ext_z h))).
Lemma point_of_rep : forall h P, ext_rep h P -> point_of h = P.
Proof.
  intros h [x y] (_ & _ & NZ & EX & EY & _). unfold px, py in EX, EY. cbn [fst snd] in EX, EY. unfold point_of.
  apply (f_equal2 pair); symmetry; apply fdiv_eq; [exact NZ|symmetry; exact EX|exact NZ|symmetry; exact EY].
Qed.
Local Opaque point_of.
Definition ref_dec (s : arr32) : option point := option_map point_of (ext_from_bytes s).
Lemma ref_dec_some : forall s P, decodes s P -> ref_dec s = Some P.
Proof.
  intros s P H. unfold ref_dec. pose proof (from_bytes_none s P) as FN. pose proof (from_bytes_some s) as FS. destruct (ext_from_bytes s) as [h|].
  - destruct (FS h eq_refl) as (Q & D & R). cbn [option_map]. rewrite (point_of_rep h Q R). apply (f_equal Some). exact (decodes_unique s Q P D H).
  - exfalso. exact (FN eq_refl H).
Qed.
Lemma ref_dec_none : forall s P, ref_dec s = Some P -> decodes s P.
Proof.
  intros s P. unfold ref_dec. pose proof (from_bytes_some s) as FS. destruct (ext_from_bytes s) as [h|]; cbn [option_map]; intros H; [|discriminate H].
  destruct (FS h eq_refl) as (Q & D & R). rewrite (point_of_rep h Q R) in H. apply some_eq in H. rewrite H. exact D.
Qed.
Local Opaque ref_dec.
Definition ref_verify (sha512 : bytes -> arr64) (pub : arr32) (m : bytes) (sig : arr64) : bool :=
  let R := firstn 32 (abytes sig) in let s := le_val (skipn 32 (abytes sig)) in
  match ref_dec pub with
  | None => false
  | Some A => (s <? order_l)%Z &&
      (le_val R =? enc_val (padd (zmul s base_point) (popp (zmul (le_val (abytes (sha512 (R ++ abytes pub ++ m))) mod order_l) A))))%Z
  end.
Lemma ref_verify_ok : forall sha512, ed25519_spec sha512 (ref_verify sha512).
Proof.
  intros sha512 pub m sig. unfold ref_verify, ed25519_valid. cbv zeta. rewrite to_arr_abytes. split.
  - destruct (ref_dec pub) as [A|] eqn:E; [|discriminate]. intros H. apply andb_prop in H. destruct H as [H1 H2]. apply Z.ltb_lt in H1. apply Z.eqb_eq in H2.
    exists A. exact (conj (ref_dec_none pub A E) (conj H1 H2)).
  - intros (A & D & H1 & H2). rewrite (ref_dec_some pub A D). apply andb_true_intro. split; [apply Z.ltb_lt; exact H1|apply Z.eqb_eq; exact H2].
Qed.

Definition ref_base (k : arr32) : arr32 := enc32 (fz (mont_u (zmul (scalar_of (abytes k)) base_point))).
Definition ref_mult (k p : arr32) : arr32 :=
  match ref_dec (enc32 (fz (ed_y (ofZ (le_val (abytes p) mod 2 ^ 255))))) with
  | Some P => enc32 (fz (mont_u (zmul (scalar_of (abytes k)) P)))
  | None => enc32 0
  end.
Lemma mont_u_opp : forall P, mont_u (popp P) = mont_u P.
Proof. intros P. reflexivity. Qed.
Lemma mont_u_pm : forall k P Q, on_curve P -> on_curve Q -> py P = py Q -> mont_u (zmul k P) = mont_u (zmul k Q).
Proof.
  intros k P Q HP HQ E. destruct (same_y P Q HP HQ E) as [X|X].
  - assert (K : P = Q). { destruct P as [x y], Q as [x' y']. unfold px, py in *. cbn [fst snd] in *. apply (f_equal2 pair); [exact X|exact E]. } rewrite K. reflexivity.
  - assert (K : P = popp Q).
    { destruct P as [x y], Q as [x' y']. unfold px, py in X, E. cbn [fst snd] in X, E. rewrite X, E. reflexivity. }
    rewrite K. transitivity (mont_u (popp (zmul k Q))); [|apply mont_u_opp]. apply (f_equal mont_u). clear K E X. destruct k as [|p|p]; cbn [zmul].
    + symmetry. apply popp_zero.
    + apply smul_popp. exact HQ.
    + apply (f_equal popp). apply smul_popp. exact HQ.
Qed.
Definition t2 : point := (0, - (1)).
Lemma t2_on_curve : on_curve t2.
Proof. unfold on_curve, t2, px, py. cbn [fst snd]. generalize d_ed. intros d. ring. Qed.
Lemma t2_double : padd t2 t2 = pzero.
Proof.
  symmetry. apply is_sum_padd; [exact t2_on_curve|exact t2_on_curve|]. unfold is_sum, t2, pzero, px, py. cbn [fst snd]. generalize d_ed. intros d. split; ring.
Qed.
Lemma t2_even : forall k, zmul (2 * k) t2 = pzero.
Proof.
  intros k. pose proof t2_double as D. pose proof t2_on_curve as C. generalize dependent t2. intros T D C.
  rewrite Z.mul_comm, (zmul_mul k 2 T C). assert (E : zmul 2 T = pzero). { change 2%Z with (1 + 1)%Z. rewrite (zmul_add 1 1 T C), zmul_1. exact D. }
  rewrite E. apply zmul_pzero.
Qed.
Lemma finv_zero : finv 0 = 0.
Proof. apply F_eq. vm_compute. reflexivity. Qed.
Lemma mont_u_zero : mont_u pzero = 0.
Proof. unfold mont_u, pzero, py, fdiv. cbn [snd]. assert (E : 1 - 1 = 0) by ring. rewrite E, finv_zero. ring. Qed.
Lemma ed_y_zero : ed_y 0 = - (1).
Proof. unfold ed_y. field. intros E. apply f1_neq_0. transitivity (0 + 1); [ring|exact E]. Qed.
Lemma scalar_even : forall k, scalar_of k = (2 * (2 ^ 253 + 4 * ((le_val k / 8) mod 2 ^ 251)))%Z.
Proof. intros k. unfold scalar_of. ring. Qed.

(** A point decompressed from its y-coordinate alone. *)
Lemma ref_dec_y : forall P, on_curve P -> exists Q, ref_dec (enc32 (fz (py P))) = Some Q /\ on_curve Q /\ py Q = py P.
Proof.
  intros P C. set (s := enc32 (fz (py P))). pose proof (fz_256 (py P)) as R. pose proof (enc32_val _ R) as V. fold s in V.
  assert (V1 : (le_val (abytes s) mod 2 ^ 255 = fz (py P))%Z) by (rewrite V; apply fz_mod_255).
  assert (V2 : (le_val (abytes s) / 2 ^ 255 = 0)%Z) by (rewrite V; apply Z.div_small, fz_255). clear V R.
  assert (D : exists Q, decodes s Q /\ on_curve Q /\ py Q = py P).
  { destruct (F_dec (px P) 0) as [X0|X0].
    - exists P. split; [|split; [exact C|reflexivity]]. unfold decodes. rewrite V1, ofZ_fz. split; [exact C|]. split; [reflexivity|left; exact X0].
    - destruct (Z.eq_dec (fz (px P) mod 2) 0) as [E|E].
      + exists P. split; [|split; [exact C|reflexivity]]. unfold decodes. rewrite V1, V2, ofZ_fz. split; [exact C|]. split; [reflexivity|right; exact E].
      + exists (- px P, py P). assert (CO : on_curve (- px P, py P)) by exact (popp_on_curve P C). split; [|split; [exact CO|reflexivity]]. unfold decodes. rewrite V1, V2. split; [exact CO|]. unfold px, py. cbn [fst snd].
        split; [symmetry; apply ofZ_fz|right]. pose proof (opp_parity (px P) X0) as OP. unfold px in *. pose proof (Z.mod_pos_bound (fz (fst P)) 2 ltac:(lia)). pose proof (Z.mod_pos_bound (fz (- fst P)) 2 ltac:(lia)).
        generalize dependent (fz (- fst P)). intros w. generalize dependent (fz (fst P)). intros. lia. }
  destruct D as (Q & D & CQ & YQ). exists Q. split; [exact (ref_dec_some s Q D)|]. split; [exact CQ|exact YQ].
Qed.
Theorem ref_x25519_ok : x25519_spec ref_mult ref_base.
Proof.
  split; [|intros k; apply enc32_val, fz_256]. intros k p P C U. unfold ref_mult. rewrite U.
  destruct (F_dec (py P) 1) as [Y1|Y1].
  - rewrite (y_one P C Y1). rewrite mont_u_zero, ed_y_zero. destruct (ref_dec_y t2 t2_on_curve) as (Q & E & CQ & YQ). change (py t2) with (- (1)) in E. rewrite E. rewrite enc32_val by apply fz_256.
    apply (f_equal fz). rewrite (mont_u_pm _ Q t2 CQ t2_on_curve YQ). rewrite scalar_even, t2_even, zmul_pzero. reflexivity.
  - rewrite (ed_y_mont_u P Y1). destruct (ref_dec_y P C) as (Q & E & CQ & YQ). rewrite E. rewrite enc32_val by apply fz_256. apply (f_equal fz). exact (mont_u_pm _ Q P CQ C YQ).
Qed.
