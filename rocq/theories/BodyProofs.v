(** BodyProofs.v: DecryptCbc does what BodySpec.v says. *)
From Verif Require Import Base Labels Crypto Bytehelper Ecc Cbc Toy WireFormatSpec BodySpec WireProofs CodecProofs CryptoProofs SessionProofs KdfProofs GroupWireProofs.
From Coq Require Import List Lia ZifyBool ZifyN ZifyNat.
Import ListNotations.

Section Body.
Context (C : crypto) (L : crypto_laws C).

Lemma cbc_dec_blocks : forall n key iv l, aes_key_ok key = true -> length iv = 16%nat -> length l = (16 * n)%nat ->
  forall i, (i < n)%nat -> block (cbc_dec C n key iv l) i = xor_block (aes_dec C key (block l i)) (block (iv ++ l) i).
Proof.
  induction n as [|n IH]; intros key iv l Hk Hi Hl i Hlt; [lia|]. cbn [cbc_dec].
  assert (HX : length (firstn 16 l) = 16%nat) by (rewrite firstn_length; lia).
  assert (HC := law_aes_dec_len C L key _ Hk HX).
  assert (HF : length (xor_bytes (aes_dec C key (firstn 16 l)) iv) = 16%nat) by (rewrite xor_bytes_length; lia).
  destruct i as [|i].
  - rewrite !block_0, !firstn_app_exact by assumption. rewrite xor_block_bytes. reflexivity.
  - rewrite !block_after by assumption. rewrite IH; [|exact Hk|exact HX|rewrite skipn_length; lia|lia]. rewrite block_next. f_equal. rewrite firstn_skipn. reflexivity.
Qed.
Lemma cbc_dec_plain : forall key iv l, aes_key_ok key = true -> length iv = 16%nat -> (length l mod 16 = 0)%nat -> cbc_plaintext C key iv l (cbc_dec C (blocks l) key iv l).
Proof.
  intros key iv l Hk Hi Hm. assert (HB : length l = (16 * blocks l)%nat) by (unfold blocks; pose proof (Nat.div_mod (length l) 16); lia).
  split; [rewrite (cbc_dec_length C L _ _ _ _ Hk Hi HB); lia|]. intros i Hlt. apply cbc_dec_blocks; [exact Hk|exact Hi|exact HB|lia].
Qed.
Lemma cbc_plain_det : forall key iv l p p', (length l mod 16 = 0)%nat -> cbc_plaintext C key iv l p -> cbc_plaintext C key iv l p' -> p = p'.
Proof.
  intros key iv l p p' Hm (A & B) (A' & B'). assert (HB : length l = (16 * (length l / 16))%nat) by (pose proof (Nat.div_mod (length l) 16); lia).
  apply (blocks_ext (length l / 16)); [lia|lia|]. intros i Hi. rewrite B, B' by lia. reflexivity.
Qed.
Lemma unpad_unpadded : forall p pt, unpad p = Ok pt <-> unpadded p pt.
Proof.
  intros p pt. split.
  - intros H. assert (HN : p <> []) by (intros ->; discriminate H). destruct (exists_last HN) as (q & z & ->). unfold unpad in H. rewrite rev_app_distr in H. cbn [rev app] in H.
    destruct (length (q ++ [z]) <? N.to_nat (b2n z))%nat eqn:E; [discriminate H|]. apply ok_eq in H. subst pt.
    exists q, z, (skipn (length (q ++ [z]) - N.to_nat (b2n z)) (q ++ [z])). split; [reflexivity|]. split; [symmetry; apply firstn_skipn|].
    rewrite skipn_length. apply Nat.ltb_ge in E. lia.
  - intros (q & z & pd & E1 & E2 & E3). unfold unpad. rewrite E1, rev_app_distr. cbn [rev app]. rewrite <- E1.
    assert (HL : length p = (length pt + length pd)%nat) by (rewrite E2, app_length; reflexivity).
    replace (length p <? N.to_nat (b2n z))%nat with false by lia. f_equal. rewrite E2. apply firstn_app_exact. rewrite <- E2. lia.
Qed.
Lemma unpad_overlong : forall p, (exists e, unpad p = Err e) <-> overlong p.
Proof.
  intros p. split.
  - intros (e & H). assert (HN : p <> []) by (intros ->; discriminate H). destruct (exists_last HN) as (q & z & ->). unfold unpad in H. rewrite rev_app_distr in H. cbn [rev app] in H.
    destruct (length (q ++ [z]) <? N.to_nat (b2n z))%nat eqn:E; [|discriminate H]. exists q, z. split; [reflexivity|]. apply Nat.ltb_lt in E. lia.
  - intros (q & z & -> & H). exists EPadTooLong. unfold unpad. rewrite rev_app_distr. cbn [rev app]. replace (length (q ++ [z]) <? N.to_nat (b2n z))%nat with true by lia. reflexivity.
Qed.
Lemma unpad_error : forall p e, unpad p = Err e -> e = EPadTooLong.
Proof. intros p e H. unfold unpad in H. destruct (rev p); [discriminate H|]. destruct (_ <? _)%nat; [|discriminate H]. injection H as <-. reflexivity. Qed.

Lemma body_spec : forall (key iv body : bytes) o, aes_key_ok key = true -> length iv = 16%nat -> (body_fate C key iv body o <-> decrypt_cbc C (Some iv) key body = o).
Proof.
  intros key iv body o Hk Hi. unfold decrypt_cbc, decrypt_cbc_full. rewrite Hk, Hi. cbn [negb]. change (16 =? 16)%nat with true. cbn [negb].
  destruct (length body <? 16)%nat eqn:E.
  { cbn [fst]. apply Nat.ltb_lt in E. split; [intros H; inversion H; subst; [reflexivity|lia..]|intros <-; constructor; exact E]. }
  apply Nat.ltb_ge in E. destruct (length body mod 16 =? 0)%nat eqn:E2; cbn [negb].
  2:{ cbn [fst]. apply Nat.eqb_neq in E2. split; [intros H; inversion H; subst; [lia|reflexivity|lia..]|intros <-; constructor; assumption]. }
  apply Nat.eqb_eq in E2. pose proof (cbc_dec_plain key iv body Hk Hi E2) as HP. cbn [fst]. set (p := cbc_dec C (blocks body) key iv body) in *. split.
  - intros H. inversion H as [H1|H1 H2|q H1 H2 Q1 Q2|q pt H1 H2 Q1 Q2]; subst o; [lia|lia| |]; rewrite (cbc_plain_det key iv body q p E2 Q1 HP) in Q2.
    + apply unpad_overlong in Q2. destruct Q2 as (e & Q2). rewrite Q2. rewrite (unpad_error _ _ Q2). reflexivity.
    + apply unpad_unpadded in Q2. exact Q2.
  - intros <-. destruct (unpad p) as [pt|e|] eqn:EU.
    + apply body_read with (p := p); [exact E|exact E2|exact HP|apply unpad_unpadded; exact EU].
    + rewrite (unpad_error _ _ EU). apply body_padding with (p := p); [exact E|exact E2|exact HP|]. apply unpad_overlong. exists e. exact EU.
    + exfalso. unfold unpad in EU. destruct (rev p) as [|z l] eqn:ER; [|destruct (_ <? _)%nat; discriminate EU].
      apply (f_equal (@length byte)) in ER. rewrite rev_length in ER. destruct HP as (HL & _). cbn [length] in ER. lia.
Qed.
End Body.
