(** JsonStringProofs2.v: strings are read as JsonStringSpec.v says (C60). *)
From Coq Require Import String.
From Verif Require Import Base Json JsonSpec JsonProofs JsonProofs2 JsonProofs3 JsonStringSpec.
From Coq Require Import Lia ZifyBool ZifyN ZifyNat.
Open Scope list_scope.
Local Open Scope N_scope.

Lemma b2n_of : forall n, n < 256 -> b2n (n2b n) = n.
Proof. intros n H. rewrite b2n_n2b. apply N.mod_small. exact H. Qed.
Lemma byte_of : forall b n, b2n b = n -> b = n2b n.
Proof. intros b n <-. symmetry. apply n2b_eq. apply N.mod_small, b2n_lt. Qed.

Ltac ifs := repeat match goal with |- context [if ?b then _ else _] => let E := fresh "E" in destruct b eqn:E end.

Lemma utf8_len_of : forall r u s, utf8 r u -> utf8_len (u ++ s) = length u.
Proof.
  intros r u s H. destruct H; cbn [app utf8_len length]; unfold in_range, cont, in_range.
  - rewrite b2n_of by lia. ifs; [reflexivity|lia].
  - rewrite !b2n_of by lia. ifs; try reflexivity; exfalso; lia.
  - rewrite !b2n_of by lia. ifs; try reflexivity; exfalso; lia.
  - rewrite !b2n_of by lia. ifs; try reflexivity; exfalso; lia.
Qed.

Lemma utf8_of_len : forall s k, utf8_len s = S k -> exists r u t, utf8 r u /\ s = u ++ t /\ length u = S k /\
  exists c u', u = c :: u' /\ Forall (fun b => 128 <= b2n b) u' /\ s = c :: u' ++ t.
Proof.
  intros s k H. destruct s as [|a r]; [discriminate|]. cbn [utf8_len] in H. pose proof (b2n_lt a) as La. unfold in_range, cont, in_range in H.
  destruct (b2n a <? 128) eqn:E1.
  { injection H as <-. exists (b2n a), [a], r. split; [rewrite (byte_of a _ eq_refl) at 2; constructor; lia|]. split; [reflexivity|]. split; [reflexivity|].
    exists a, []. repeat split. constructor. }
  destruct r as [|b r2]; [discriminate|]. pose proof (b2n_lt b) as Lb.
  match type of H with (if ?x then _ else _) = _ => destruct x eqn:E2 end.
  { injection H as <-. exists ((b2n a - 192) * 64 + (b2n b - 128)), [a; b], r2. split; [|split; [reflexivity|split; [reflexivity|]]].
    - rewrite (byte_of a (192 + (b2n a - 192))) at 2 by lia. rewrite (byte_of b (128 + (b2n b - 128))) at 2 by lia. constructor; lia.
    - exists a, [b]. split; [reflexivity|]. split; [constructor; [lia|constructor]|reflexivity]. }
  destruct r2 as [|c r3]; [discriminate|]. pose proof (b2n_lt c) as Lc.
  match type of H with (if ?x then _ else _) = _ => destruct x eqn:E3 end.
  { injection H as <-. exists (((b2n a - 224) * 64 + (b2n b - 128)) * 64 + (b2n c - 128)), [a; b; c], r3. split; [|split; [reflexivity|split; [reflexivity|]]].
    - rewrite (byte_of a (224 + (b2n a - 224))) at 2 by lia. rewrite (byte_of b (128 + (b2n b - 128))) at 2 by lia. rewrite (byte_of c (128 + (b2n c - 128))) at 2 by lia. constructor; lia.
    - exists a, [b; c]. split; [reflexivity|]. split; [constructor; [lia|constructor; [lia|constructor]]|reflexivity]. }
  destruct r3 as [|d r4]; [discriminate|]. pose proof (b2n_lt d) as Ld.
  match type of H with (if ?x then _ else _) = _ => destruct x eqn:E4 end; [|discriminate].
  injection H as <-. exists ((((b2n a - 240) * 64 + (b2n b - 128)) * 64 + (b2n c - 128)) * 64 + (b2n d - 128)), [a; b; c; d], r4. split; [|split; [reflexivity|split; [reflexivity|]]].
  - rewrite (byte_of a (240 + (b2n a - 240))) at 2 by lia. rewrite (byte_of b (128 + (b2n b - 128))) at 2 by lia. rewrite (byte_of c (128 + (b2n c - 128))) at 2 by lia.
    rewrite (byte_of d (128 + (b2n d - 128))) at 2 by lia. constructor; lia.
  - exists a, [b; c; d]. split; [reflexivity|]. split; [constructor; [lia|constructor; [lia|constructor; [lia|constructor]]]|reflexivity].
Qed.

Lemma dm : forall h l d, 0 < d -> l < d -> (h * d + l) / d = h /\ (h * d + l) mod d = l.
Proof.
  intros h l d Hd Hl. split.
  - rewrite N.div_add_l by lia. rewrite N.div_small by exact Hl. lia.
  - rewrite N.add_comm, N.mod_add by lia. apply N.mod_small. exact Hl.
Qed.

Lemma utf8_encode_of : forall r u, utf8 r u -> utf8_encode r = u.
Proof.
  intros r u H. unfold utf8_encode. destruct H.
  - ifs; try reflexivity; exfalso; lia.
  - ifs; try lia. destruct (dm h l 64) as [-> ->]; [lia|exact H0|]. reflexivity.
  - ifs; try lia. destruct (dm (h * 64 + m) l 64) as [D1 D2]; [lia|assumption|].
    change 4096 with (64 * 64). rewrite <- N.div_div by lia. rewrite D1, D2. destruct (dm h m 64) as [-> ->]; [lia|assumption|]. reflexivity.
  - ifs; try lia. destruct (dm ((h * 64 + m) * 64 + k) l 64) as [D1 D2]; [lia|assumption|]. destruct (dm (h * 64 + m) k 64) as [D3 D4]; [lia|assumption|].
    change 262144 with (64 * 4096). change 4096 with (64 * 64). rewrite <- !N.div_div by lia. rewrite D1, D2, D3, D4.
    destruct (dm h m 64) as [-> ->]; [lia|assumption|]. reflexivity.
Qed.

Lemma utf8_exists : forall r, r <= 1114111 -> ~ surrogate r -> utf8 r (utf8_encode r).
Proof.
  intros r H HS. assert (HX : exists u, utf8 r u).
  { pose proof (N.div_mod r 64 ltac:(discriminate)) as Q1. assert (r mod 64 < 64) by (apply N.mod_lt; discriminate).
    pose proof (N.div_mod (r / 64) 64 ltac:(discriminate)) as Q2. assert (r / 64 mod 64 < 64) by (apply N.mod_lt; discriminate).
    pose proof (N.div_mod (r / 64 / 64) 64 ltac:(discriminate)) as Q3. assert (r / 64 / 64 mod 64 < 64) by (apply N.mod_lt; discriminate).
    remember (r / 64) as q1. remember (r mod 64) as l. remember (q1 / 64) as q2. remember (q1 mod 64) as k. remember (q2 / 64) as q3. remember (q2 mod 64) as m.
    unfold surrogate in HS.
    destruct (N.lt_ge_cases r 128) as [C1|C1]; [eexists; apply Utf8_1; exact C1|].
    destruct (N.lt_ge_cases r 2048) as [C2|C2].
    { replace r with (q1 * 64 + l) by lia. eexists. apply Utf8_2; lia. }
    destruct (N.lt_ge_cases r 65536) as [C3|C3].
    { replace r with ((q2 * 64 + k) * 64 + l) by lia. eexists. apply Utf8_3; lia. }
    replace r with (((q3 * 64 + m) * 64 + k) * 64 + l) by lia. eexists. apply Utf8_4; lia. }
  destruct HX as (u & HU). rewrite (utf8_encode_of _ _ HU). exact HU.
Qed.

Lemma utf8_head : forall r u, utf8 r u -> r <> 92 -> exists c u', u = c :: u' /\ (b2n c =? 92) = false.
Proof.
  intros r u H HR. destruct H; eexists; eexists; (split; [reflexivity|]); rewrite b2n_of by lia; lia.
Qed.

Lemma skip_from : forall l s, unquote_from (length l) (l ++ s) = unquote_from 0 s.
Proof. induction l as [|a l IH]; intros s; [reflexivity|]. cbn [length app unquote_from]. apply IH. Qed.

Lemma hex_is : forall c v, hex c v -> hex_val c = v.
Proof.
  intros c v [H1 H2]. assert (HV : exists n, v = N.of_nat n /\ (n < 16)%nat) by (exists (N.to_nat v); lia). destruct HV as (n & -> & HN).
  rewrite Nat2N.id in H2. clear H1. do 16 (destruct n as [|n]; [destruct H2 as [->| ->]; reflexivity|]). lia.
Qed.
Lemma hex_exists : forall c, hexdig c -> exists v, hex c v.
Proof.
  intros c H. exists (hex_val c). unfold hexdig, digit in H. unfold hex.
  destruct c; vm_compute in H |- *; first [ split; [reflexivity|first [left; reflexivity|right; reflexivity]]
    | exfalso; destruct H as [[H1 H2]|[[H1 H2]|[H1 H2]]]; first [exact (H1 eq_refl)|exact (H2 eq_refl)] ].
Qed.
Lemma hex4_is : forall a b c d x, code [a; b; c; d] x -> hex4 a b c d = x /\ x < 65536.
Proof.
  intros a b c d x H. inversion H as [a' b' c' d' v1 v2 v3 v4 H1 H2 H3 H4 E1 E2]; subst.
  unfold hex4. rewrite (hex_is _ _ H1), (hex_is _ _ H2), (hex_is _ _ H3), (hex_is _ _ H4). destruct H1, H2, H3, H4. lia.
Qed.
Lemma hexdig_of_hex : forall c v, hex c v -> hexdig c.
Proof.
  intros c v [H1 H2]. assert (HV : exists n, v = N.of_nat n /\ (n < 16)%nat) by (exists (N.to_nat v); lia). destruct HV as (n & -> & HN).
  rewrite Nat2N.id in H2. clear H1. unfold hexdig, digit.
  do 16 (destruct n as [|n]; [destruct H2 as [->| ->]; vm_compute; first [left; split; discriminate|right; left; split; discriminate|right; right; split; discriminate]|]). lia.
Qed.
Lemma code_shape : forall h x, code h x -> exists a b c d, h = [a; b; c; d].
Proof. intros h x H. inversion H. eauto. Qed.

(** ** Tails of well-formed strings *)
Lemma chars_plain_tail : forall l s, Forall (fun b => 128 <= b2n b) l -> chars (l ++ s) -> chars s.
Proof.
  induction l as [|a l IH]; intros s F H; [exact H|]. inversion F as [|? ? Fa Fl]; subst. apply IH; [exact Fl|]. cbn [app] in H.
  inversion H as [|c t HC1 HC2 HC3 HT|e t HE HT|a' b' c' d' t H1 H2 H3 H4 HT]; subst; [exact HT| |]; exfalso; vm_compute in Fa; apply Fa; reflexivity.
Qed.
Lemma utf8_tail : forall r u, utf8 r u -> exists c u', u = c :: u' /\ Forall (fun b => 128 <= b2n b) u'.
Proof.
  intros r u H. destruct H; eexists; eexists; (split; [reflexivity|]); repeat (constructor; [rewrite b2n_of by lia; lia|]); constructor.
Qed.
Lemma chars_after_utf8 : forall r u s, utf8 r u -> r <> 92 -> chars (u ++ s) -> chars s.
Proof.
  intros r u s H HR HC. destruct (utf8_head _ _ H HR) as (c & u' & E & HB). destruct (utf8_tail _ _ H) as (c2 & u2 & E2 & F).
  rewrite E in E2. injection E2 as <- <-. subst u. cbn [app] in HC. apply (chars_plain_tail u' s F).
  inversion HC as [|? ? ? ? ? HT|? ? ? HT|? ? ? ? ? ? ? ? ? HT]; subst; [exact HT| |]; discriminate HB.
Qed.
Lemma chars_bs : forall s, chars (x5c :: s) ->
  (exists e t, s = e :: t /\ In e [x22; x5c; x2f; x62; x66; x6e; x72; x74] /\ chars t) \/
  (exists a b c d t, s = x75 :: a :: b :: c :: d :: t /\ hexdig a /\ hexdig b /\ hexdig c /\ hexdig d /\ chars t).
Proof.
  intros s H. inversion H as [|? ? ? ? HC ?|e t HE HT|a b c d t H1 H2 H3 H4 HT]; subst.
  - exfalso. apply HC. reflexivity.
  - left. eauto.
  - right. exists a, b, c, d, t. auto 10.
Qed.
Lemma chars_u : forall s, chars (x5c :: x75 :: s) -> exists a b c d t, s = a :: b :: c :: d :: t /\ hexdig a /\ hexdig b /\ hexdig c /\ hexdig d /\ chars t.
Proof.
  intros s H. destruct (chars_bs _ H) as [(e & t & E & HI & _)|(a & b & c & d & t & E & HX)].
  - injection E as <- _. exfalso. repeat (destruct HI as [HI|HI]; [discriminate HI|]). destruct HI.
  - injection E as ->. exists a, b, c, d, t. tauto.
Qed.
Lemma code_of_hexdig : forall a b c d, hexdig a -> hexdig b -> hexdig c -> hexdig d -> code [a; b; c; d] (hex4 a b c d) /\ hex4 a b c d < 65536.
Proof.
  intros a b c d H1 H2 H3 H4. destruct (hex_exists _ H1) as (v1 & K1). destruct (hex_exists _ H2) as (v2 & K2). destruct (hex_exists _ H3) as (v3 & K3). destruct (hex_exists _ H4) as (v4 & K4).
  pose proof (Code a b c d v1 v2 v3 v4 K1 K2 K3 K4) as K. destruct (hex4_is _ _ _ _ _ K) as [-> KB]. split; [exact K|exact KB].
Qed.
Lemma is_bs : forall c, (b2n c =? 92) = true -> c = x5c.
Proof. intros c H. apply N.eqb_eq in H. rewrite (byte_of c _ H). reflexivity. Qed.
Lemma is_u : forall c, (b2n c =? 117) = true -> c = x75.
Proof. intros c H. apply N.eqb_eq in H. rewrite (byte_of c _ H). reflexivity. Qed.

Lemma unquote_u : forall a b c d t, unquote_from 0 (x5c :: x75 :: a :: b :: c :: d :: t) =
  let x := hex4 a b c d in
  if in_range 55296 57343 x then
    match t with
    | c2 :: e2 :: g1 :: g2 :: g3 :: g4 :: s =>
        if (b2n c2 =? 92) && (b2n e2 =? 117) && (x <? 56320) && in_range 56320 57343 (hex4 g1 g2 g3 g4)
        then utf8_encode ((x - 55296) * 1024 + (hex4 g1 g2 g3 g4 - 56320) + 65536) ++ unquote_from 0 s
        else fffd ++ unquote_from 0 t
    | _ => fffd ++ unquote_from 0 t
    end
  else utf8_encode x ++ unquote_from 0 t.
Proof. intros a b c d t. destruct t as [|c2 [|e2 [|g1 [|g2 [|g3 [|g4 s]]]]]]; reflexivity. Qed.

Lemma reads_unquote : forall raw out, reads raw out -> chars raw -> unquote_from 0 raw = out.
Proof.
  intros raw out H. induction H as [|r u s o HU HR H IH|c s o HC HB H IH|e v s o HI H IH|h x u s o HX HS HU H IH|h x h' y u s o HX HH HY HL HU H IH|h x s o HX HS HN H IH]; intros HCH.
  - reflexivity.
  - specialize (IH (chars_after_utf8 _ _ _ HU HR HCH)). destruct (utf8_head _ _ HU HR) as (c & u' & -> & HC). pose proof (utf8_len_of _ _ s HU) as HL. cbn [app length] in *.
    cbn [unquote_from]. rewrite HC, HL. cbn [firstn app]. f_equal. rewrite skip_from, IH. f_equal.
    rewrite firstn_app, Nat.sub_diag, firstn_all. apply app_nil_r.
  - cbn [unquote_from]. assert (E : (b2n c =? 92) = false). { apply N.eqb_neq. intros E. apply HC. apply b2n_inj. rewrite E. reflexivity. }
    assert (HT : chars s) by (inversion HCH as [|? ? ? ? ? HT|? ? ? HT|? ? ? ? ? ? ? ? ? HT]; subst; [exact HT| |]; discriminate E).
    rewrite E. destruct (utf8_len (c :: s)) as [|k] eqn:EL; [unfold replacement, fffd; rewrite (IH HT); reflexivity|].
    exfalso. destruct (utf8_of_len _ _ EL) as (r & u & t & H1 & H2 & _). exact (HB r u t H1 H2).
  - assert (HE : In e [x22; x5c; x2f; x62; x66; x6e; x72; x74]) by (apply (in_map fst) in HI; exact HI).
    assert (HT : chars s).
    { destruct (chars_bs _ HCH) as [(e' & t & E & _ & HT)|(a & b & c & d & t & E & _)]; injection E; intros; subst; [exact HT|].
      exfalso. repeat (destruct HE as [HE|HE]; [discriminate HE|]). destruct HE. }
    assert (E : unquote_from 0 (x5c :: e :: s) = escape_val e :: unquote_from 0 s /\ escape_val e = v).
    { cbn in HI. repeat (destruct HI as [HI|HI]; [injection HI as <- <-; split; [destruct s as [|? [|? [|? [|? ?]]]]; reflexivity|reflexivity]|]). destruct HI. }
    destruct E as [-> ->]. rewrite (IH HT). reflexivity.
  - destruct (code_shape _ _ HX) as (a & b & c & d & ->). destruct (hex4_is _ _ _ _ _ HX) as [E EB].
    destruct (chars_u _ HCH) as (a' & b' & c' & d' & t & E2 & _ & _ & _ & _ & HT). injection E2 as <- <- <- <- <-. cbn [app]. rewrite unquote_u. cbv zeta. rewrite E.
    replace (in_range 55296 57343 x) with false by (unfold in_range, surrogate in *; lia). rewrite (utf8_encode_of _ _ HU), (IH HT). reflexivity.
  - destruct (code_shape _ _ HX) as (a & b & c & d & ->). destruct (hex4_is _ _ _ _ _ HX) as [E EB].
    destruct (code_shape _ _ HY) as (a' & b' & c' & d' & ->). destruct (hex4_is _ _ _ _ _ HY) as [E' EB'].
    destruct (chars_u _ HCH) as (a2 & b2 & c2 & d2 & t & E2 & _ & _ & _ & _ & HT). injection E2 as <- <- <- <- <-.
    destruct (chars_u _ HT) as (a2 & b2 & c2 & d2 & t & E2 & _ & _ & _ & _ & HT2). injection E2 as <- <- <- <- <-. cbn [app]. rewrite unquote_u. cbv zeta.
    change (b2n x5c =? 92) with true. change (b2n x75 =? 117) with true. rewrite E, E'. unfold high, low in *.
    replace (in_range 55296 57343 x) with true by (unfold in_range; lia). replace (in_range 56320 57343 y) with true by (unfold in_range; lia).
    replace (x <? 56320) with true by lia. cbn [andb]. replace ((x - 55296) * 1024 + (y - 56320) + 65536) with (65536 + (x - 55296) * 1024 + (y - 56320)) by lia.
    rewrite (utf8_encode_of _ _ HU), (IH HT2). reflexivity.
  - destruct (code_shape _ _ HX) as (a & b & c & d & ->). destruct (hex4_is _ _ _ _ _ HX) as [E EB].
    destruct (chars_u _ HCH) as (a2 & b2 & c2 & d2 & t & E2 & _ & _ & _ & _ & HT). injection E2 as <- <- <- <- <-. cbn [app]. rewrite unquote_u. cbv zeta. rewrite E.
    replace (in_range 55296 57343 x) with true by (unfold in_range, surrogate in *; lia). rewrite (IH HT). 
    destruct s as [|c2 [|e2 [|g1 [|g2 [|g3 [|g4 s']]]]]]; try reflexivity.
    destruct ((b2n c2 =? 92) && (b2n e2 =? 117) && (x <? 56320) && in_range 56320 57343 (hex4 g1 g2 g3 g4)) eqn:ET; [|reflexivity]. exfalso.
    apply Bool.andb_true_iff in ET. destruct ET as [ET ET4]. apply Bool.andb_true_iff in ET. destruct ET as [ET ET3]. apply Bool.andb_true_iff in ET. destruct ET as [ET1 ET2].
    apply is_bs in ET1. apply is_u in ET2. subst c2 e2. destruct (chars_u _ HT) as (a2 & b2 & c2 & d2 & t & E2 & K1 & K2 & K3 & K4 & _). injection E2 as <- <- <- <- <-.
    destruct (code_of_hexdig _ _ _ _ K1 K2 K3 K4) as [HK _].
    apply (HN ltac:(unfold high, surrogate in *; lia) _ _ s' HK); [unfold low, in_range in *; lia|reflexivity].
Qed.

Lemma unquote_reads : forall n raw, (length raw <= n)%nat -> chars raw -> reads raw (unquote_from 0 raw).
Proof.
  induction n as [|n IH]; intros raw HL HC.
  { destruct raw; [constructor|cbn in HL; lia]. }
  destruct raw as [|c s]; [constructor|]. cbn [length] in HL. destruct (b2n c =? 92) eqn:EC.
  - apply is_bs in EC. subst c. destruct (chars_bs _ HC) as [(e & t & -> & HE & HT)|(a & b & c & d & t & -> & K1 & K2 & K3 & K4 & HT)].
    + assert (E : unquote_from 0 (x5c :: e :: t) = escape_val e :: unquote_from 0 t /\ In (e, escape_val e) escapes).
      { repeat (destruct HE as [<-|HE]; [split; [destruct t as [|? [|? [|? [|? ?]]]]; reflexivity|cbn; tauto]|]). destruct HE. }
      destruct E as [-> E]. apply Reads_esc; [exact E|]. apply IH; [cbn [length] in HL; lia|exact HT].
    + destruct (code_of_hexdig _ _ _ _ K1 K2 K3 K4) as [HK HB]. rewrite unquote_u. cbv zeta.
      set (x := hex4 a b c d) in *. destruct (in_range 55296 57343 x) eqn:ER.
      * assert (HSU : surrogate x) by (unfold surrogate, in_range in *; lia).
        assert (LONE : (high x -> forall h' y t', code h' y -> low y -> t <> x5c :: x75 :: h' ++ t') ->
                  reads (x5c :: x75 :: a :: b :: c :: d :: t) (fffd ++ unquote_from 0 t)).
        { intros HN. apply (Reads_lone [a; b; c; d] x t); [exact HK|exact HSU|exact HN|]. apply IH; [cbn [length] in HL; lia|exact HT]. }
        destruct t as [|c2 [|e2 [|g1 [|g2 [|g3 [|g4 s']]]]]];
          try (apply LONE; intros _ h' y t' HCo _ E; destruct (code_shape _ _ HCo) as (? & ? & ? & ? & ->); discriminate E).
        destruct ((b2n c2 =? 92) && (b2n e2 =? 117) && (x <? 56320) && in_range 56320 57343 (hex4 g1 g2 g3 g4)) eqn:ET.
        -- apply Bool.andb_true_iff in ET. destruct ET as [ET ET4]. apply Bool.andb_true_iff in ET. destruct ET as [ET ET3]. apply Bool.andb_true_iff in ET. destruct ET as [ET1 ET2].
           apply is_bs in ET1. apply is_u in ET2. subst c2 e2. destruct (chars_u _ HT) as (a2 & b2 & c2 & d2 & t & E2 & J1 & J2 & J3 & J4 & HT2). injection E2 as <- <- <- <- <-.
           destruct (code_of_hexdig _ _ _ _ J1 J2 J3 J4) as [HJ HJB]. set (y := hex4 g1 g2 g3 g4) in *.
           apply (Reads_pair [a; b; c; d] x [g1; g2; g3; g4] y).
           ++ exact HK.
           ++ unfold high, surrogate in *; lia.
           ++ exact HJ.
           ++ unfold low, in_range in *; lia.
           ++ replace ((x - 55296) * 1024 + (y - 56320) + 65536) with (65536 + (x - 55296) * 1024 + (y - 56320)) by lia. apply utf8_exists; unfold surrogate, in_range in *; lia.
           ++ apply IH; [cbn [length] in HL; lia|exact HT2].
        -- apply LONE. intros HH h' y t' HCo HLo E. destruct (code_shape _ _ HCo) as (q1 & q2 & q3 & q4 & ->). injection E as -> -> -> -> -> -> ->.
           destruct (hex4_is _ _ _ _ _ HCo) as [EY _]. rewrite EY in ET. change (b2n x5c =? 92) with true in ET. change (b2n x75 =? 117) with true in ET. cbn [andb] in ET.
           unfold high, low, in_range in *. lia.
      * apply (Reads_code [a; b; c; d] x (utf8_encode x) t (unquote_from 0 t)); [exact HK| | |apply IH; [cbn [length] in HL; lia|exact HT]].
        -- unfold surrogate, in_range in *. lia.
        -- apply utf8_exists; unfold surrogate, in_range in *; lia.
  - cbn [unquote_from]. rewrite EC. destruct (utf8_len (c :: s)) as [|k] eqn:EL.
    + change replacement with fffd. apply Reads_bad.
      * intros ->. discriminate EC.
      * intros r u t HU E. pose proof (utf8_len_of _ _ t HU) as Q. rewrite <- E, EL in Q. destruct (utf8_tail _ _ HU) as (? & ? & -> & _). discriminate Q.
      * apply IH; [lia|]. inversion HC as [|? ? ? ? ? HT|? ? ? HT|? ? ? ? ? ? ? ? ? HT]; subst; [exact HT| |]; discriminate EC.
    + destruct (utf8_of_len _ _ EL) as (r & u & t & HU & HS & HLen & c' & u' & -> & HF & HS'). cbn [app] in HS. injection HS as <- ->.
      cbn [length] in HLen. injection HLen as <-.
      assert (HR : r <> 92). { intros ->. inversion HU; subst; try lia. discriminate EC. }
      rewrite skip_from. change (firstn (S (length u')) (c :: u' ++ t)) with (c :: firstn (length u') (u' ++ t)).
      rewrite firstn_app, Nat.sub_diag, firstn_all. cbn [firstn]. rewrite app_nil_r. change (c :: u' ++ t) with ((c :: u') ++ t).
      apply (Reads_char r); [exact HU|exact HR|]. apply IH; [rewrite app_length in HL; lia|]. exact (chars_after_utf8 r _ _ HU HR HC).
Qed.

Lemma unquote_exact : forall raw out, chars raw -> (unquote raw = out <-> reads raw out).
Proof.
  intros raw out H. unfold unquote. split.
  - intros <-. apply (unquote_reads _ _ (Nat.le_refl _) H).
  - intros HR. apply reads_unquote; assumption.
Qed.

Lemma fffd_utf8 : utf8 65533 fffd.
Proof. exact (Utf8_3 15 63 61 ltac:(lia) ltac:(lia) ltac:(lia) ltac:(lia)). Qed.
Lemma reads_utf8 : forall raw out, reads raw out -> utf8_text out.
Proof.
  intros raw out H. induction H as [|r u s o HU HR H IH|c s o HC HB H IH|e v s o HI H IH|h x u s o HX HS HU H IH|h x h' y u s o HX HH HY HL HU H IH|h x s o HX HS HN H IH].
  - constructor.
  - exact (Text_cons _ _ _ HU IH).
  - exact (Text_cons _ _ _ fffd_utf8 IH).
  - change (v :: o) with ([v] ++ o). apply (Text_cons (b2n v)); [|exact IH]. rewrite (byte_of v _ eq_refl) at 2. constructor.
    cbn in HI. repeat (destruct HI as [HI|HI]; [injection HI as <- <-; reflexivity|]). destruct HI.
  - exact (Text_cons _ _ _ HU IH).
  - exact (Text_cons _ _ _ HU IH).
  - exact (Text_cons _ _ _ fffd_utf8 IH).
Qed.
