(** JsonProofs3.v: what Marshal writes is JSON, Unmarshal reads it back, and Unmarshal yields values of the right type. *)
From Coq Require Import String Decimal DecimalFacts DecimalN DecimalPos.
From Verif Require Import Base Itoa Json JsonSpec JsonProofs JsonProofs2.
From Coq Require Import ZifyBool ZifyN ZifyNat.
Open Scope list_scope.
Local Open Scope N_scope.

(** ** integers *)
Lemma digits_val_pos : forall u a, digits_val (Npos a) (uint_bytes u) = Some (Npos (Pos.of_uint_acc u a)).
Proof.
  assert (S : forall a k, (Npos a * 10 + k) = Npos (match k with N0 => 10 * a | Npos p => p + 10 * a end)).
  { intros a [|p]; lia. }
  induction u; intros a; cbn [uint_bytes digits_val Pos.of_uint_acc]; [reflexivity|..];
    (match goal with |- (if ?b then _ else _) = _ => change b with true end); cbv iota;
    (match goal with |- digits_val (_ + ?k) _ = _ => let k' := eval vm_compute in k in change k with k' end); rewrite S; apply IHu.
Qed.
Lemma digits_val_uint : forall u, digits_val 0 (uint_bytes u) = Some (N.of_uint u).
Proof.
  induction u; cbn [uint_bytes digits_val]; [reflexivity|..];
    (match goal with |- (if ?b then _ else _) = _ => change b with true end); cbv iota;
    (match goal with |- digits_val ?k _ = _ => let k' := eval vm_compute in k in change k with k' end); try (apply digits_val_pos). exact IHu.
Qed.
Lemma parse_uint_dec : forall n, parse_uint (dec_n n) = Some n.
Proof.
  intros n. pose proof (dec_n_nonempty n) as E. unfold parse_uint. destruct (dec_n n) eqn:D; [contradiction|]. rewrite <- D. unfold dec_n. rewrite digits_val_uint, DecimalN.Unsigned.of_to. reflexivity.
Qed.
Lemma dec_n_head : forall n, exists c r, dec_n n = c :: r /\ digit c.
Proof.
  intros n. pose proof (dec_n_nonempty n) as E. pose proof (dec_n_digits n) as D. destruct (dec_n n) as [|c r]; [contradiction|]. exists c, r. split; [reflexivity|].
  cbn [forallb] in D. apply andb_prop in D. apply is_digit_iff. exact (proj1 D).
Qed.
Lemma parse_int_itoa : forall z, parse_int (itoa z) = Some z.
Proof.
  intros z. unfold itoa. destruct (z <? 0)%Z eqn:D.
  - unfold parse_int. change (b2n x2d =? 45) with true. cbv iota. rewrite parse_uint_dec. f_equal. lia.
  - destruct (dec_n_head (Z.to_N z)) as (c & r & E & G). pose proof (parse_uint_dec (Z.to_N z)) as P. rewrite E in *. unfold parse_int. unfold digit in G.
    destruct (b2n c =? 45) eqn:B; [lia|]. rewrite P. f_equal. lia.
Qed.
Lemma nzhead_head : forall u, match nzhead u with D0 _ => False | _ => True end.
Proof. induction u; cbn [nzhead]; try exact I. exact IHu. Qed.
Lemma all_digits : forall u, Forall digit (uint_bytes u).
Proof. intros u. pose proof (uint_bytes_digits u) as H. rewrite forallb_forall in H. apply Forall_forall. intros c I. apply is_digit_iff, H, I. Qed.
Lemma dec_n_int : forall n, int_part (dec_n n).
Proof.
  intros n. unfold dec_n. assert (E : N.to_uint n = unorm (N.to_uint n)) by (rewrite <- DecimalN.Unsigned.to_of, DecimalN.Unsigned.of_to; reflexivity).
  rewrite E. unfold unorm. pose proof (nzhead_head (N.to_uint n)) as H. destruct (nzhead (N.to_uint n)) as [|u|u|u|u|u|u|u|u|u|u]; cbn [uint_bytes]; try (destruct H);
    try (constructor; [vm_compute; split; discriminate|apply all_digits]). constructor.
Qed.
Lemma number_of_int : forall i, int_part i -> number i.
Proof. intros i H. exists [], i, [], []. split; [constructor|]. split; [exact H|]. split; [constructor|]. split; [constructor|]. cbn [app]. rewrite !app_nil_r. reflexivity. Qed.
Lemma dec_n_number : forall n, number (dec_n n).
Proof. intros n. apply number_of_int, dec_n_int. Qed.
Lemma itoa_number : forall z, number (itoa z).
Proof.
  intros z. unfold itoa. destruct (z <? 0)%Z; [|apply dec_n_number]. exists [x2d], (dec_n (Z.to_N (- z))), [], []. split; [constructor|]. split; [apply dec_n_int|].
  split; [constructor|]. split; [constructor|]. rewrite !app_nil_r. reflexivity.
Qed.

(** ** plain strings *)
Lemma plain_parts : forall c, plain_char c = true -> 32 <= b2n c < 128 /\ c <> x22 /\ c <> x5c.
Proof.
  intros c H. unfold plain_char in H. rewrite !andb_true_iff in H. destruct H as ((((_ & H1) & H2) & H3) & H4). split; [lia|]. split; intros ->; discriminate.
Qed.
Lemma plain_chars : forall s, forallb plain_char s = true -> chars s.
Proof.
  induction s as [|c s IH]; intros H; [constructor|]. cbn [forallb] in H. apply andb_prop in H. destruct H as (H1 & H2). destruct (plain_parts c H1) as (A & B & C).
  constructor; [lia|exact B|exact C|apply IH; exact H2].
Qed.
Lemma unquote_plain : forall s, forallb plain_char s = true -> unquote s = s.
Proof.
  unfold unquote. induction s as [|c s IH]; intros H; [reflexivity|]. cbn [forallb] in H. apply andb_prop in H. destruct H as (H1 & H2). destruct (plain_parts c H1) as (A & B & C).
  cbn [unquote_from]. destruct (b2n c =? 92) eqn:D; [byte_is D x5c; contradiction|]. cbn [utf8_len]. assert (E : (b2n c <? 128) = true) by lia. rewrite E. cbn [firstn app]. f_equal. apply IH. exact H2.
Qed.

(** ** types and values *)
Fixpoint wf_ty (t : ty) : Prop :=
  match t with
  | TPtr fs => NoDup (map fst fs) /\ (fix go (fs : fields) : Prop := match fs with [] => True | (k, t) :: fs => forallb plain_char k = true /\ wf_ty t /\ go fs end) fs
  | TSlice t => wf_ty t
  | _ => True
  end.
Fixpoint wf_fields (fs : fields) : Prop := match fs with [] => True | (k, t) :: fs => forallb plain_char k = true /\ wf_ty t /\ wf_fields fs end.
Lemma wf_ptr : forall fs, wf_ty (TPtr fs) <-> NoDup (map fst fs) /\ wf_fields fs.
Proof.
  intros fs. cbn [wf_ty]. assert (E : forall l, (fix go (fs : fields) : Prop := match fs with [] => True | (k, t) :: fs => forallb plain_char k = true /\ wf_ty t /\ go fs end) l = wf_fields l).
  { induction l as [|[k t] l IH]; [reflexivity|]. cbn [wf_fields]. rewrite IH. reflexivity. }
  rewrite E. reflexivity.
Qed.
(** The value belongs to the type: ranges of the integers, number and types of the fields. *)
Fixpoint has_ty (v : gval) (t : ty) : Prop :=
  match v, t with
  | VU32 n, TU32 => n < 4294967296
  | VInt z, TInt => int64_ok z = true
  | VBool _, TBool => True
  | VBytes _, TBytes => True
  | VPtr None, TPtr _ => True
  | VPtr (Some vs), TPtr fs => (fix go (vs : list gval) (fs : fields) : Prop := match vs, fs with [], [] => True | v :: vs, (_, t) :: fs => has_ty v t /\ go vs fs | _, _ => False end) vs fs
  | VSlice None, TSlice _ => True
  | VSlice (Some l), TSlice t => (fix go (l : list gval) : Prop := match l with [] => True | v :: l => has_ty v t /\ go l end) l
  | _, _ => False
  end.
Fixpoint have_tys (vs : list gval) (fs : fields) : Prop := match vs, fs with [], [] => True | v :: vs, (_, t) :: fs => has_ty v t /\ have_tys vs fs | _, _ => False end.
Lemma has_ptr : forall vs fs, has_ty (VPtr (Some vs)) (TPtr fs) <-> have_tys vs fs.
Proof.
  intros vs fs. cbn [has_ty].
  assert (E : forall vs fs, (fix go (vs : list gval) (fs : fields) : Prop := match vs, fs with [], [] => True | v :: vs, (_, t) :: fs => has_ty v t /\ go vs fs | _, _ => False end) vs fs = have_tys vs fs).
  { clear. induction vs as [|v vs IH]; intros [|[k t] fs]; reflexivity. }
  rewrite E. reflexivity.
Qed.
Lemma has_slice : forall l t, has_ty (VSlice (Some l)) (TSlice t) <-> Forall (fun v => has_ty v t) l.
Proof.
  intros l t. cbn [has_ty]. induction l as [|v l IH]; split; intros H.
  - constructor.
  - exact I.
  - destruct H as (A & B). constructor; [exact A|apply IH; exact B].
  - inversion H; subst. split; [assumption|apply IH; assumption].
Qed.
Lemma has_zero : forall t, has_ty (zero_of t) t.
Proof. intros [| | | | |]; cbn [zero_of has_ty]; try exact I; reflexivity. Qed.
Lemma have_zeros : forall fs, have_tys (zeros fs) fs.
Proof. induction fs as [|[k t] fs IH]; [exact I|]. cbn. split; [apply has_zero|exact IH]. Qed.

Section gval_ind.
Variable P : gval -> Prop.
Hypothesis H1 : forall n, P (VU32 n).
Hypothesis H2 : forall z, P (VInt z).
Hypothesis H3 : forall b, P (VBool b).
Hypothesis H4 : forall b, P (VBytes b).
Hypothesis H5 : P (VPtr None).
Hypothesis H6 : forall vs, Forall P vs -> P (VPtr (Some vs)).
Hypothesis H7 : P (VSlice None).
Hypothesis H8 : forall l, Forall P l -> P (VSlice (Some l)).
Fixpoint gval_ind' (v : gval) : P v :=
  match v with
  | VU32 n => H1 n | VInt z => H2 z | VBool b => H3 b | VBytes b => H4 b
  | VPtr None => H5
  | VPtr (Some vs) => H6 vs ((fix go l : Forall P l := match l with [] => Forall_nil P | v :: l => Forall_cons v (gval_ind' v) (go l) end) vs)
  | VSlice None => H7
  | VSlice (Some vs) => H8 vs ((fix go l : Forall P l := match l with [] => Forall_nil P | v :: l => Forall_cons v (gval_ind' v) (go l) end) vs)
  end.
End gval_ind.
Section json_ind.
Variable P : json -> Prop.
Hypothesis H1 : P JNull.
Hypothesis H2 : forall b, P (JBool b).
Hypothesis H3 : forall l, P (JNum l).
Hypothesis H4 : forall r, P (JStr r).
Hypothesis H5 : forall l, Forall P l -> P (JArr l).
Hypothesis H6 : forall l, Forall (fun m => P (snd m)) l -> P (JObj l).
Fixpoint json_ind' (j : json) : P j :=
  match j with
  | JNull => H1 | JBool b => H2 b | JNum l => H3 l | JStr r => H4 r
  | JArr l => H5 l ((fix go l : Forall P l := match l with [] => Forall_nil P | v :: l => Forall_cons v (json_ind' v) (go l) end) l)
  | JObj l => H6 l ((fix go (l : list (bytes * json)) : Forall (fun m => P (snd m)) l := match l with [] => Forall_nil _ | m :: l => Forall_cons m (json_ind' (snd m)) (go l) end) l)
  end.
End json_ind.

(** ** the inner loops, named *)
Fixpoint enc_fields (vs : list gval) (fs : fields) : list (bytes * json) :=
  match vs, fs with v :: vs, (k, t) :: fs => (k, enc v t) :: enc_fields vs fs | _, _ => [] end.
Lemma enc_ptr : forall vs fs, enc (VPtr (Some vs)) (TPtr fs) = JObj (enc_fields vs fs).
Proof.
  reflexivity.
Qed.
Fixpoint dec_members (fs : fields) (ms : list (bytes * json)) (acc : list gval) : res (list gval) :=
  match ms with
  | [] => Ok acc
  | (k, m) :: ms =>
      match find_field (unquote k) fs with
      | None => dec_members fs ms acc
      | Some (i, t) => v <- dec m t (nth i acc (zero_of t)) ;; dec_members fs ms (set_nth i v acc)
      end
  end.
Lemma dec_obj : forall ms fs old, dec (JObj ms) (TPtr fs) old =
  (vs <- dec_members fs ms (match old with VPtr (Some vs) => vs | _ => zeros fs end) ;; Ok (VPtr (Some vs))).
Proof.
  intros ms fs old. cbn [dec]. generalize (match old with VPtr (Some vs) => vs | _ => zeros fs end). intros acc.
  match goal with |- bind (?f ms acc) _ = _ => assert (E : forall ms acc, f ms acc = dec_members fs ms acc) end.
  { clear. induction ms as [|[k m] ms IH]; intros acc; [reflexivity|]. cbn [dec_members]. destruct (find_field (unquote k) fs) as [[i t]|]; [|apply IH].
    destruct (dec m t (nth i acc (zero_of t))) as [v| |]; cbn [bind]; [apply IH|reflexivity|reflexivity]. }
  rewrite E. reflexivity.
Qed.
Fixpoint dec_items (t : ty) (l : list json) : res (list gval) :=
  match l with [] => Ok [] | e :: l => v <- dec e t (zero_of t) ;; vs <- dec_items t l ;; Ok (v :: vs) end.
Lemma dec_arr : forall l t old, dec (JArr l) (TSlice t) old = (vs <- dec_items t l ;; Ok (VSlice (Some vs))).
Proof.
  intros l t old. cbn [dec]. match goal with |- bind (?f l) _ = _ => assert (E : forall l, f l = dec_items t l) end.
  { clear. induction l as [|e l IH]; [reflexivity|]. cbn [dec_items]. rewrite IH. reflexivity. }
  rewrite E. reflexivity.
Qed.

(** ** Marshal writes JSON *)
Fixpoint clean (j : json) : Prop :=
  match j with
  | JNum l => number l
  | JStr r => chars r
  | JArr l => (fix go l : Prop := match l with [] => True | j :: l => clean j /\ go l end) l
  | JObj l => (fix go (l : list (bytes * json)) : Prop := match l with [] => True | (k, j) :: l => chars k /\ clean j /\ go l end) l
  | _ => True
  end.
Lemma clean_arr : forall l, clean (JArr l) <-> Forall clean l.
Proof.
  intros l. cbn [clean]. induction l as [|v l IH]; split; intros H; [constructor|exact I| |].
  - destruct H as (A & B). constructor; [exact A|apply IH; exact B].
  - inversion H; subst. split; [assumption|apply IH; assumption].
Qed.
Lemma clean_obj : forall l, clean (JObj l) <-> Forall (fun m => chars (fst m) /\ clean (snd m)) l.
Proof.
  intros l. cbn [clean]. induction l as [|[k v] l IH]; split; intros H; [constructor|exact I| |].
  - destruct H as (A & B & C). constructor; [split; assumption|apply IH; exact C].
  - inversion H as [|? ? (A & B) C]; subst. split; [exact A|]. split; [exact B|apply IH; exact C].
Qed.
Lemma ws_nil : ws []. Proof. constructor. Qed.
Lemma print_value : forall j, clean j -> value j (print j).
Proof.
  induction j as [| |l|r|l IH|l IH] using json_ind'; intros H.
  - constructor.
  - destruct b; constructor.
  - cbn [clean] in H. constructor. exact H.
  - cbn [clean] in H. cbn [print]. constructor. exact H.
  - apply clean_arr in H. cbn [print]. destruct l as [|v l]; [exact (VArr0 [] ws_nil)|]. apply VArr. revert v IH H. induction l as [|v2 l IHL]; intros v IH H.
    + cbn [map join]. inversion IH; inversion H; subst. pose proof (El1 [] v (print v) [] ws_nil ltac:(auto) ws_nil) as K. cbn [app] in K. rewrite app_nil_r in K. exact K.
    + inversion IH as [|? ? I1 I2]; inversion H as [|? ? C1 C2]; subst.
      pose proof (ElCons [] v (print v) [] (v2 :: l) _ ws_nil (I1 C1) ws_nil (IHL v2 I2 C2)) as K. exact K.
  - apply clean_obj in H. cbn [print]. destruct l as [|[k v] l]; [exact (VObj0 [] ws_nil)|]. apply VObj. revert k v IH H. induction l as [|[k2 v2] l IHL]; intros k v IH H.
    + cbn [map join]. inversion IH as [|? ? I1 I2]; inversion H as [|? ? (C0 & C1) C2]; subst. cbn [fst snd] in *.
      pose proof (Mem1 [] k [] [] v (print v) [] ws_nil C0 ws_nil ws_nil (I1 C1) ws_nil) as K. cbn [app] in K. rewrite app_nil_r in K. exact K.
    + inversion IH as [|? ? I1 I2]; inversion H as [|? ? (C0 & C1) C2]; subst. cbn [fst snd] in *.
      pose proof (MemCons [] k [] [] v (print v) [] ((k2, v2) :: l) _ ws_nil C0 ws_nil ws_nil (I1 C1) ws_nil (IHL k2 v2 I2 C2)) as K. cbn [app] in K.
      set (f := fun m : bytes * json => let (k, v) := m in x22 :: k ++ x22 :: x3a :: print v) in *. change (join (map f ((k, v) :: (k2, v2) :: l))) with ((x22 :: k ++ x22 :: x3a :: print v) ++ x2c :: join (map f ((k2, v2) :: l))).
      cbn [app]. rewrite <- app_assoc. cbn [app]. exact K.
Qed.
Lemma enc_clean : forall v t, wf_ty t -> clean (enc v t).
Proof.
  induction v as [n|z|b|b| |vs IH| |l IH] using gval_ind'; intros t W.
  - apply dec_n_number.
  - apply itoa_number.
  - exact I.
  - destruct b; [|exact I]. apply plain_chars, b64_plain.
  - exact I.
  - destruct t as [| | | |fs|]; try exact I. rewrite enc_ptr. apply clean_obj. apply wf_ptr in W. destruct W as (_ & W). revert fs W. induction IH as [|v vs I1 I2 IHL]; intros [|[k t] fs] W; try constructor.
    + cbn [fst snd]. destruct W as (A & B & C). split; [apply plain_chars; exact A|apply I1; exact B].
    + apply IHL. apply W.
  - exact I.
  - destruct t as [| | | | |t]; try exact I. cbn [enc]. apply clean_arr. cbn [wf_ty] in W. induction IH as [|v l I1 I2 IHL]; cbn [map]; constructor; [apply I1; exact W|exact IHL].
Qed.
Lemma marshal_text : forall fs vs, wf_ty (TPtr fs) -> json_text (enc (VPtr (Some vs)) (TPtr fs)) (marshal fs vs).
Proof.
  intros fs vs W. exists [], (marshal fs vs), []. split; [exact ws_nil|]. split; [apply print_value, enc_clean; exact W|]. split; [exact ws_nil|]. rewrite app_nil_r. reflexivity.
Qed.

(** ** Unmarshal after Marshal *)
Lemma find_by_app : forall p f1 k t f2, p k = true -> forallb (fun f => negb (p (fst f))) f1 = true -> find_by p (f1 ++ (k, t) :: f2) = Some (length f1, t).
Proof.
  intros p f1 k t f2 H. induction f1 as [|[k1 t1] f1 IH]; intros F; cbn [app find_by length].
  - rewrite H. reflexivity.
  - cbn [forallb fst] in F. apply andb_prop in F. destruct F as (F1 & F2). destruct (p k1); [discriminate F1|]. rewrite (IH F2). reflexivity.
Qed.
Lemma find_field_app : forall f1 k t f2, NoDup (map fst (f1 ++ (k, t) :: f2)) -> find_field k (f1 ++ (k, t) :: f2) = Some (length f1, t).
Proof.
  intros f1 k t f2 N. unfold find_field. rewrite find_by_app; [reflexivity|apply bytes_eqb_refl|].
  apply forallb_forall. intros f I. apply negb_true_iff, bytes_eqb_neq. intros E. rewrite map_app in N. cbn [map fst] in N. apply NoDup_remove_2 in N. apply N. apply in_or_app. left. rewrite <- E. apply in_map. exact I.
Qed.
Lemma set_nth_app : forall pre v x post, set_nth (length pre) v (pre ++ x :: post) = pre ++ v :: post.
Proof. induction pre as [|a pre IH]; intros v x post; cbn [length app set_nth]; [reflexivity|]. rewrite IH. reflexivity. Qed.
Lemma dec_enc : forall v t, wf_ty t -> has_ty v t -> dec (enc v t) t (zero_of t) = Ok v.
Proof.
  induction v as [n|z|b|b| |vs IH| |l IH] using gval_ind'; intros t W H.
  - destruct t; try (exfalso; exact H). cbn [enc dec]. rewrite parse_uint_dec. cbn [has_ty] in H. assert (E : (n <? 4294967296) = true) by lia. rewrite E. reflexivity.
  - destruct t; try (exfalso; exact H). cbn [enc dec]. rewrite parse_int_itoa. cbn [has_ty] in H. rewrite H. reflexivity.
  - destruct t; try (exfalso; exact H). reflexivity.
  - destruct t; try (exfalso; exact H). destruct b; [|reflexivity]. cbn [enc dec]. rewrite unquote_plain by apply b64_plain. rewrite b64_roundtrip. reflexivity.
  - destruct t; try (exfalso; exact H). reflexivity.
  - destruct t as [| | | |fs|]; try (exfalso; exact H). apply has_ptr in H. rewrite enc_ptr, dec_obj. cbn [zero_of]. apply wf_ptr in W. destruct W as (N & W).
    assert (K : forall f2 f1 pre vs, fs = f1 ++ f2 -> length pre = length f1 -> wf_fields f2 -> have_tys vs f2 -> Forall (fun v => forall t, wf_ty t -> has_ty v t -> dec (enc v t) t (zero_of t) = Ok v) vs ->
      dec_members fs (enc_fields vs f2) (pre ++ zeros f2) = Ok (pre ++ vs)).
    { clear vs IH H W. induction f2 as [|[k t] f2 IHF]; intros f1 pre vs E L W H IH; destruct vs as [|v vs]; try (exfalso; exact H); [reflexivity|].
      destruct H as (H1 & H2). destruct W as (W1 & W2 & W3). inversion IH as [|? ? I1 I2]; subst x l. cbn [enc_fields dec_members]. rewrite (unquote_plain k W1).
        rewrite E at 1. rewrite find_field_app by (rewrite <- E; exact N). rewrite <- L. unfold zeros. cbn [map snd]. rewrite app_nth2 by lia. rewrite Nat.sub_diag. cbn [nth].
        rewrite (I1 t W2 H1). cbn [bind]. rewrite set_nth_app. fold (zeros f2). replace (pre ++ v :: zeros f2) with ((pre ++ [v]) ++ zeros f2) by (rewrite <- app_assoc; reflexivity).
        rewrite (IHF (f1 ++ [(k, t)]) (pre ++ [v]) vs); [rewrite <- app_assoc; reflexivity|rewrite E, <- app_assoc; reflexivity|rewrite !app_length; cbn [length]; lia|exact W3|exact H2|exact I2]. }
    pose proof (K fs [] [] vs eq_refl eq_refl W H IH) as K'. cbn [app] in K'. rewrite K'. reflexivity.
  - destruct t; try (exfalso; exact H). reflexivity.
  - destruct t as [| | | | |t]; try (exfalso; exact H). apply has_slice in H. cbn [wf_ty] in W. cbn [enc]. rewrite dec_arr.
    assert (K : dec_items t (map (fun v => enc v t) l) = Ok l).
    { induction IH as [|v l I1 I2 IHL]; [reflexivity|]. inversion H as [|? ? A B]; subst. cbn [map dec_items]. rewrite (I1 t W A). cbn [bind]. rewrite (IHL B). reflexivity. }
    rewrite K. reflexivity.
Qed.
Theorem unmarshal_marshal : forall fs vs, wf_ty (TPtr fs) -> have_tys vs fs -> unmarshal fs (marshal fs vs) = Ok vs.
Proof.
  intros fs vs W H. unfold unmarshal. rewrite (proj2 (parse_iff _ _) (marshal_text fs vs W)).
  pose proof (dec_enc (VPtr (Some vs)) (TPtr fs) W (proj2 (has_ptr vs fs) H)) as D. cbn [zero_of] in D. rewrite enc_ptr in *. rewrite D. reflexivity.
Qed.

(** ** Unmarshal of anything *)
Lemma have_tys_length : forall vs fs, have_tys vs fs -> length vs = length fs.
Proof. induction vs as [|v vs IH]; intros [|[k t] fs] H; try (exfalso; exact H); [reflexivity|]. destruct H. cbn [length]. f_equal. apply IH. assumption. Qed.
Lemma find_by_nth : forall p fs i t, find_by p fs = Some (i, t) -> exists k, nth_error fs i = Some (k, t).
Proof.
  induction fs as [|[k t'] fs IH]; intros i t H; [discriminate H|]. cbn [find_by] in H. destruct (p k); [injection H as <- <-; exists k; reflexivity|].
  destruct (find_by p fs) as [[i' t2]|]; [|discriminate H]. injection H as <- <-. exact (IH _ _ eq_refl).
Qed.
Lemma find_field_nth : forall key fs i t, find_field key fs = Some (i, t) -> exists k, nth_error fs i = Some (k, t).
Proof.
  intros key fs i t H. unfold find_field in H. destruct (find_by _ fs) as [[i' t']|] eqn:E; [injection H as <- <-|]; eapply find_by_nth; eassumption.
Qed.
Lemma have_nth : forall vs fs i k t d, have_tys vs fs -> nth_error fs i = Some (k, t) -> has_ty (nth i vs d) t.
Proof.
  induction vs as [|v vs IH]; intros [|[k' t'] fs] i k t d H E; try (exfalso; exact H); [destruct i; discriminate E|]. destruct H as (A & B). destruct i as [|i]; cbn [nth_error nth] in *; [congruence|]. eapply IH; eassumption.
Qed.
Lemma have_set : forall vs fs i k t v, have_tys vs fs -> nth_error fs i = Some (k, t) -> has_ty v t -> have_tys (set_nth i v vs) fs.
Proof.
  induction vs as [|x vs IH]; intros [|[k' t'] fs] i k t v H E T; try (exfalso; exact H); [destruct i; exact I|]. destruct H as (A & B). destruct i as [|i]; cbn [nth_error set_nth have_tys] in *.
  - split; [congruence|exact B].
  - split; [exact A|eapply IH; eassumption].
Qed.
Lemma dec_typed : forall j t old v, has_ty old t -> dec j t old = Ok v -> has_ty v t.
Proof.
  induction j as [|b|l|r|l IH|l IH] using json_ind'; intros t old v O H.
  - destruct t; cbn [dec] in H; injection H as <-; try exact O; exact I.
  - destruct t; cbn [dec] in H; try discriminate H. injection H as <-. exact I.
  - destruct t; cbn [dec] in H; try discriminate H.
    + destruct (parse_uint l); [|discriminate H]. destruct (n <? 4294967296) eqn:E; [|discriminate H]. injection H as <-. cbn [has_ty]. lia.
    + destruct (parse_int l); [|discriminate H]. destruct (int64_ok z) eqn:E; [|discriminate H]. injection H as <-. exact E.
  - destruct t; cbn [dec] in H; try discriminate H. destruct (b64_decode (unquote r)); [|discriminate H]. injection H as <-. exact I.
  - destruct t as [| | | |fs|t]; try discriminate H.
    + cbn [dec] in H. destruct (dec_u8s l); try discriminate H. cbn [bind] in H. injection H as <-. exact I.
    + rewrite dec_arr in H. destruct (dec_items t l) as [vs| |] eqn:E; try discriminate H. cbn [bind] in H. injection H as <-. apply has_slice.
      revert vs E. induction IH as [|e l I1 I2 IHL]; intros vs E; cbn [dec_items] in E; [injection E as <-; constructor|].
      destruct (dec e t (zero_of t)) as [v| |] eqn:D; try discriminate E. cbn [bind] in E. destruct (dec_items t l) as [vs'| |] eqn:D2; try discriminate E. cbn [bind] in E. injection E as <-.
      constructor; [eapply I1; [apply has_zero|exact D]|apply IHL; reflexivity].
  - destruct t as [| | | |fs|t]; try discriminate H. rewrite dec_obj in H.
    assert (O' : have_tys (match old with VPtr (Some vs) => vs | _ => zeros fs end) fs).
    { destruct old as [| | | |[vs|]|]; try apply have_zeros. apply has_ptr. exact O. }
    revert H O'. generalize (match old with VPtr (Some vs) => vs | _ => zeros fs end). intros acc H O'.
    destruct (dec_members fs l acc) as [vs| |] eqn:E; try discriminate H. cbn [bind] in H. injection H as <-. apply has_ptr.
    revert acc O' vs E. induction IH as [|[k m] l I1 I2 IHL]; intros acc O' vs E; cbn [dec_members] in E; [injection E as <-; exact O'|].
    destruct (find_field (unquote k) fs) as [[i t]|] eqn:F; [|eapply IHL; eassumption]. destruct (find_field_nth _ _ _ _ F) as (k' & N).
    destruct (dec m t (nth i acc (zero_of t))) as [v| |] eqn:D; try discriminate E. cbn [bind] in E. refine (IHL _ _ _ E). eapply have_set; [exact O'|exact N|]. eapply I1; [|exact D]. eapply have_nth; eassumption.
Qed.
Lemma dec_u8s_no_panic : forall l, dec_u8s l <> Panic.
Proof.
  induction l as [|j l IH]; [discriminate|]. cbn [dec_u8s]. destruct (dec_u8 j) eqn:E; cbn [bind]; try discriminate.
  - destruct (dec_u8s l); cbn [bind]; try discriminate. contradiction.
  - unfold dec_u8 in E. destruct j; try discriminate E. destruct (parse_uint lit); [|discriminate E]. destruct (n <? 256); discriminate E.
Qed.
Lemma dec_no_panic : forall j t old, dec j t old <> Panic.
Proof.
  induction j as [|b|l|r|l IH|l IH] using json_ind'; intros t old.
  - destruct t; cbn [dec]; discriminate.
  - destruct t; cbn [dec]; discriminate.
  - destruct t; cbn [dec]; try discriminate.
    + destruct (parse_uint l); [|discriminate]. destruct (n <? 4294967296); discriminate.
    + destruct (parse_int l); [|discriminate]. destruct (int64_ok z); discriminate.
  - destruct t; cbn [dec]; try discriminate. destruct (b64_decode (unquote r)); discriminate.
  - destruct t as [| | | |fs|t]; try discriminate.
    + cbn [dec]. pose proof (dec_u8s_no_panic l) as K. destruct (dec_u8s l); cbn [bind]; try discriminate. contradiction.
    + rewrite dec_arr. assert (K : dec_items t l <> Panic); [|destruct (dec_items t l); cbn [bind]; try discriminate; contradiction].
      induction IH as [|e l I1 I2 IHL]; cbn [dec_items]; [discriminate|]. pose proof (I1 t (zero_of t)) as K. destruct (dec e t (zero_of t)); cbn [bind]; try discriminate; [|contradiction].
      destruct (dec_items t l); cbn [bind]; try discriminate. contradiction.
  - destruct t as [| | | |fs|t]; try discriminate. rewrite dec_obj. generalize (match old with VPtr (Some vs) => vs | _ => zeros fs end). intros acc.
    assert (K : dec_members fs l acc <> Panic); [|destruct (dec_members fs l acc); cbn [bind]; try discriminate; contradiction].
    revert acc. induction IH as [|[k m] l I1 I2 IHL]; intros acc; cbn [dec_members]; [discriminate|]. destruct (find_field (unquote k) fs) as [[i t]|]; [|apply IHL].
    pose proof (I1 t (nth i acc (zero_of t))) as K. cbn [snd] in K. destruct (dec m t (nth i acc (zero_of t))); cbn [bind]; try discriminate; [apply IHL|contradiction].
Qed.
Theorem unmarshal_typed : forall fs s vs, unmarshal fs s = Ok vs -> have_tys vs fs.
Proof.
  intros fs s vs H. unfold unmarshal in H. destruct (json_parse s) as [j|]; [|discriminate H].
  assert (K : (match dec j (TPtr fs) (VPtr None) with Ok (VPtr (Some vs)) => Ok vs | Ok _ => Err EDecode | Err e => Err e | Panic => Panic end) = Ok vs -> have_tys vs fs).
  { intros K. destruct (dec j (TPtr fs) (VPtr None)) as [[| | | |[vs'|]|]| |] eqn:D; try discriminate K. injection K as <-. apply has_ptr. exact (dec_typed j (TPtr fs) (VPtr None) _ I D). }
  destruct j; try (apply K; exact H). injection H as <-. apply have_zeros.
Qed.
Theorem unmarshal_no_panic : forall fs s, unmarshal fs s <> Panic.
Proof.
  intros fs s. unfold unmarshal. destruct (json_parse s) as [j|]; [|discriminate].
  assert (K : (match dec j (TPtr fs) (VPtr None) with Ok (VPtr (Some vs)) => Ok vs | Ok _ => Err EDecode | Err e => Err e | Panic => Panic end) <> Panic).
  { pose proof (dec_no_panic j (TPtr fs) (VPtr None)) as N. destruct (dec j (TPtr fs) (VPtr None)) as [[| | | |[vs'|]|]| |]; try discriminate. contradiction. }
  destruct j; try exact K. discriminate.
Qed.

(** ** An object is recognised whatever follows it *)
Lemma obj_scan : forall j t0 n q, value j (x7b :: t0) -> (2 * length (x7b :: t0) <= n)%nat -> scan_value n (x7b :: t0 ++ q) = Some (j, q).
Proof.
  intros j t n q T L.
  assert (O : (exists w, ws w /\ j = JObj [] /\ x7b :: t = x7b :: w ++ [x7d]) \/ (exists l s, members l s /\ j = JObj l /\ x7b :: t = x7b :: s ++ [x7d])).
  { inversion T as [| | |s0 NB EJ ES| | | |w W0|l0 s0 M]; try (left; exists w; repeat split; assumption); try (right; exists l0, s0; repeat split; assumption).
    exfalso. destruct (num_not _ [] x7b t NB (app_nil_r _)) as (F & _). discriminate F. }
  destruct n as [|n]; [cbn [length] in L; lia|].
  destruct O as [(w & W0 & -> & EQ)|(l & s0 & M & -> & EQ)]; injection EQ as ->.
  - cbn [app scan_value]. change (b2n x7b =? 123) with true. cbv iota. rewrite <- app_assoc. cbn [app]. rewrite (skip_ws_app w _ W0) by reflexivity. reflexivity.
  - pose proof (proj2 (proj2 scan_complete) l s0 M) as A.
    assert (B : scan_value (S n) ((x7b :: s0 ++ [x7d]) ++ []) = Some (JObj l, [])) by (apply (proj1 scan_complete _ _ (VObj l s0 M)); [exact L|exact I]).
    cbn [app scan_value] in B |- *. change (b2n x7b =? 123) with true in B |- *. cbv iota in B |- *. rewrite <- !app_assoc in B. rewrite <- !app_assoc. cbn [app] in B |- *.
    cbn [length] in L. rewrite app_length in L. cbn [length] in L.
    assert (Q : forall q, skip_ws (s0 ++ x7d :: q) = skip_ws s0 ++ x7d :: q).
    { intros q'. clear. induction s0 as [|c s0 IH]; [reflexivity|]. cbn [app skip_ws]. destruct (is_ws c); [exact IH|reflexivity]. }
    rewrite Q in B |- *.
    assert (M2 : forall q, scan_members n (skip_ws s0 ++ x7d :: q) = Some (l, q)).
    { intros q'. pose proof (A n q' ltac:(lia)) as A1. destruct n as [|n']; [discriminate A1|]. cbn [scan_members] in A1 |- *.
      rewrite Q in A1. replace (skip_ws (skip_ws s0 ++ x7d :: q')) with (skip_ws s0 ++ x7d :: q'); [exact A1|].
      symmetry. destruct (skip_ws s0) as [|c0 r0] eqn:DD; [reflexivity|]. cbn [app skip_ws].
      destruct (skip_ws_split s0) as (_ & _ & _ & HH). rewrite DD in HH. rewrite HH. reflexivity. }
    destruct (skip_ws s0) as [|c0 r0].
    + cbn [app] in B. change (b2n x7d =? 125) with true in B. cbv iota in B. injection B as <-. inversion M.
    + cbn [app] in B, M2 |- *. destruct (b2n c0 =? 125); [injection B as E1 E2; destruct r0; discriminate E2|]. rewrite M2. reflexivity.
Qed.
Lemma marshal_starts : forall fs vs, exists m, marshal fs vs = x7b :: m.
Proof. intros fs vs. unfold marshal. rewrite enc_ptr. cbn [print]. eexists. reflexivity. Qed.

(** ** A proper beginning of what Marshal writes is not JSON *)
Lemma prefix_not_json : forall fs vs s r j, wf_ty (TPtr fs) -> marshal fs vs = s ++ r -> r <> [] -> ~ json_text j s.
Proof.
  intros fs vs s r j W E N (w1 & t & w2 & W1 & T & W2 & ->).
  pose proof (print_value _ (enc_clean (VPtr (Some vs)) (TPtr fs) W)) as V. fold (marshal fs vs) in V.
  destruct (marshal_starts fs vs) as (m & HB). destruct w1 as [|c w1].
  2:{ rewrite HB in E. cbn [app] in E. injection E as <- _. inversion W1 as [|? ? I _]. subst. cbn in I. destruct I as [I|[I|[I|[I|[]]]]]; discriminate I. }
  cbn [app] in *. rewrite <- app_assoc in E.
  (* both parses of the same bytes agree *)
  set (n := (2 * length (marshal fs vs) + 1)%nat).
  pose proof (proj1 scan_complete _ _ V n [] ltac:(unfold n; lia) I) as P1. rewrite app_nil_r in P1.
  assert (L : (2 * length t <= n)%nat) by (unfold n; rewrite E, !app_length; lia).
  assert (P2 : scan_value n (t ++ w2 ++ r) = Some (j, w2 ++ r)).
  { pose proof (value_start j t T) as ST. destruct t as [|c t]; [destruct ST|]. rewrite HB in E. cbn [app] in E. injection E as <- E. apply obj_scan; assumption. }
  rewrite <- E in P2. rewrite P1 in P2. injection P2 as _ P2. destruct w2; [|discriminate P2]. cbn [app] in P2. congruence.
Qed.
(** ** Nor is it when anything but space follows it *)
Lemma suffix_not_json : forall fs vs r j, wf_ty (TPtr fs) -> ~ ws r -> ~ json_text j (marshal fs vs ++ r).
Proof.
  intros fs vs r j W N H. apply parse_iff in H. unfold json_parse in H.
  pose proof (print_value _ (enc_clean (VPtr (Some vs)) (TPtr fs) W)) as V. fold (marshal fs vs) in V.
  destruct (marshal_starts fs vs) as (m & HB). rewrite HB in H, V. cbn [app] in H. cbn [skip_ws] in H. change (is_ws x7b) with false in H. cbv iota in H.
  rewrite (obj_scan _ m _ r V) in H; [|cbn [length]; rewrite app_length; lia].
  destruct (skip_ws r) eqn:D; [|discriminate H]. apply N. destruct (skip_ws_split r) as (w & Ww & E & _). rewrite D, app_nil_r in E. rewrite E. exact Ww.
Qed.
