From Coq Require Import List NArith ZArith Bool Lia ZifyBool ZifyN.
From Verif Require Import Base.Ustr Base.Utf8.
Import ListNotations.
Open Scope N_scope.
Ltac Zify.zify_post_hook ::= Z.div_mod_to_equations.

Lemma Some_inj : forall A (x y : A), Some x = Some y -> x = y.
Proof. intros A x y H. congruence. Qed.

Lemma utf8_dec_enc1 : forall c a rest, utf8_enc1 c = Some a ->
  utf8_decode (a ++ rest) = c :: utf8_decode rest.
Proof.
  intros c a rest H. unfold utf8_enc1 in H.
  destruct (c <? 128) eqn:E1; [apply Some_inj in H; subst a; cbn [app utf8_decode]; rewrite E1; reflexivity|].
  destruct (c <? 2048) eqn:E2.
  { apply Some_inj in H; subst a. cbn [app utf8_decode].
    assert (X1 : (192 + c / 64 <? 128) = false) by lia.
    assert (X2 : (194 <=? 192 + c / 64) && (192 + c / 64 <=? 223) = true) by lia.
    assert (X3 : cont (128 + c mod 64) = true) by (unfold cont; lia).
    rewrite X1, X2, X3. f_equal. lia. }
  destruct ((55296 <=? c) && (c <=? 57343)) eqn:E3; [discriminate|].
  destruct (c <? 65536) eqn:E4.
  { apply Some_inj in H; subst a. cbn [app utf8_decode].
    assert (X1 : (224 + c / 4096 <? 128) = false) by lia.
    assert (X2 : (194 <=? 224 + c / 4096) && (224 + c / 4096 <=? 223) = false) by lia.
    assert (X3 : (224 <=? 224 + c / 4096) && (224 + c / 4096 <=? 239) = true) by lia.
    assert (X4 : ok3 (224 + c / 4096) (128 + (c / 64) mod 64) = true).
    { unfold ok3, cont. 
      destruct (224 + c / 4096 =? 224) eqn:?; [lia|].
      destruct (224 + c / 4096 =? 237) eqn:?; lia. }
    assert (X5 : cont (128 + c mod 64) = true) by (unfold cont; lia).
    rewrite X1, X2, X3, X4, X5. f_equal. lia. }
  destruct (c <? 1114112) eqn:E5; [|discriminate].
  apply Some_inj in H; subst a. cbn [app utf8_decode].
  assert (X1 : (240 + c / 262144 <? 128) = false) by lia.
  assert (X2 : (194 <=? 240 + c / 262144) && (240 + c / 262144 <=? 223) = false) by lia.
  assert (X3 : (224 <=? 240 + c / 262144) && (240 + c / 262144 <=? 239) = false) by lia.
  assert (X3' : (240 <=? 240 + c / 262144) && (240 + c / 262144 <=? 244) = true) by lia.
  assert (X4 : ok4 (240 + c / 262144) (128 + (c / 4096) mod 64) = true).
  { unfold ok4, cont.
    destruct (240 + c / 262144 =? 240) eqn:?; [lia|].
    destruct (240 + c / 262144 =? 244) eqn:?; lia. }
  assert (X5 : cont (128 + (c / 64) mod 64) = true) by (unfold cont; lia).
  assert (X6 : cont (128 + c mod 64) = true) by (unfold cont; lia).
  rewrite X1, X2, X3, X3', X4, X5, X6. f_equal. lia.
Qed.

Lemma utf8_dec_enc : forall s b, utf8_encode s = Some b -> utf8_decode b = s.
Proof.
  induction s as [|c s IH]; simpl; intros b H; [injection H as <-; reflexivity|].
  destruct (utf8_enc1 c) as [a|] eqn:E; [|discriminate].
  destruct (utf8_encode s) as [b'|] eqn:E'; [|discriminate].
  injection H as <-. rewrite (utf8_dec_enc1 _ _ _ E). rewrite (IH b' eq_refl). reflexivity.
Qed.

Lemma utf8_enc1_scalar : forall c, scalar c = true <-> exists a, utf8_enc1 c = Some a.
Proof.
  intro c. unfold scalar, utf8_enc1.
  destruct (c <? 128) eqn:E1; [split; [eauto|lia]|].
  destruct (c <? 2048) eqn:E2; [split; [eauto|lia]|].
  destruct ((55296 <=? c) && (c <=? 57343)) eqn:E3.
  { split; [lia | intros [a H]; discriminate]. }
  destruct (c <? 65536) eqn:E4; [split; [eauto|lia]|].
  destruct (c <? 1114112) eqn:E5; [split; [eauto|lia]|].
  split; [lia | intros [a H]; discriminate].
Qed.

Lemma utf8_encode_scalars : forall s, scalars s = true <-> exists b, utf8_encode s = Some b.
Proof.
  induction s as [|c s IH]; simpl.
  - split; eauto.
  - unfold scalars in *. simpl. rewrite andb_true_iff, IH, utf8_enc1_scalar. split.
    + intros [[a ->] [b ->]]. eauto.
    + intros [b H]. destruct (utf8_enc1 c) as [a|] eqn:E; [|discriminate].
      destruct (utf8_encode s); [|discriminate]. split; eauto.
Qed.

Lemma utf8_enc1_bytes : forall c a, utf8_enc1 c = Some a -> forallb (fun b => b <? 256) a = true.
Proof.
  intros c a H. unfold utf8_enc1 in H.
  destruct (c <? 128) eqn:E1; [apply Some_inj in H; subst a; cbn [forallb]; lia|].
  destruct (c <? 2048) eqn:E2; [apply Some_inj in H; subst a; cbn [forallb]; lia|].
  destruct ((55296 <=? c) && (c <=? 57343)) eqn:E3; [discriminate|].
  destruct (c <? 65536) eqn:E4; [apply Some_inj in H; subst a; cbn [forallb]; lia|].
  destruct (c <? 1114112) eqn:E5; [apply Some_inj in H; subst a; cbn [forallb]; lia|discriminate].
Qed.

Lemma utf8_encode_bytes : forall s b, utf8_encode s = Some b -> forallb (fun x => x <? 256) b = true.
Proof.
  induction s as [|c s IH]; simpl; intros b H; [injection H as <-; reflexivity|].
  destruct (utf8_enc1 c) as [a|] eqn:E; [|discriminate].
  destruct (utf8_encode s) as [b'|] eqn:E'; [|discriminate].
  injection H as <-. rewrite forallb_app, (utf8_enc1_bytes _ _ E), (IH _ eq_refl). reflexivity.
Qed.

Lemma utf8_encode_nonempty : forall s b, utf8_encode s = Some b -> s <> [] -> b <> [].
Proof.
  intros s b H Hs Hb. apply utf8_dec_enc in H. subst b. simpl in H. congruence.
Qed.
