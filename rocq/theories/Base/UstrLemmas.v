From Coq Require Import List NArith ZArith Bool String Ascii Lia.
From Coq Require Import DecimalFacts DecimalN DecimalPos.
From Verif Require Import Base.Ustr.
Import ListNotations.
Open Scope N_scope.

Lemma split_on_nonempty : forall c s, split_on c s <> [].
Proof.
  induction s as [|x r IH]; simpl; [discriminate|].
  destruct (x =? c); [discriminate|]. destruct (split_on c r); discriminate.
Qed.

Lemma split_on_none : forall c s, has_char c s = false -> split_on c s = [s].
Proof.
  induction s as [|x r IH]; simpl; intro H; [reflexivity|].
  apply orb_false_iff in H. destruct H as [H1 H2].
  rewrite N.eqb_sym in H1. rewrite H1. rewrite IH by assumption. reflexivity.
Qed.

Lemma split_on_app : forall c a b, has_char c a = false ->
  split_on c (a ++ c :: b) = a :: split_on c b.
Proof.
  induction a as [|x a IH]; simpl; intros b H.
  - rewrite N.eqb_refl. reflexivity.
  - apply orb_false_iff in H. destruct H as [H1 H2].
    rewrite N.eqb_sym in H1. rewrite H1. rewrite IH by assumption. reflexivity.
Qed.

Lemma join_split : forall c l, l <> [] ->
  forallb (fun s => negb (has_char c s)) l = true ->
  split_on c (join [c] l) = l.
Proof.
  induction l as [|x r IH]; intros Hne H; [congruence|].
  simpl in H. apply andb_true_iff in H. destruct H as [H1 H2].
  apply negb_true_iff in H1.
  destruct r as [|y r'].
  - simpl. apply split_on_none. assumption.
  - change (join [c] (x :: y :: r')) with (x ++ c :: join [c] (y :: r')).
    rewrite split_on_app by assumption. rewrite IH; auto. discriminate.
Qed.

Lemma split_on_parts : forall c s p, In p (split_on c s) -> has_char c p = false.
Proof.
  induction s as [|x r IH]; simpl; intros p H.
  - destruct H as [<-|[]]. reflexivity.
  - destruct (x =? c) eqn:E.
    + destruct H as [<-|H]; [reflexivity | auto].
    + destruct (split_on c r) as [|h t] eqn:Es.
      * destruct H as [<-|[]]. simpl. rewrite N.eqb_sym, E. reflexivity.
      * destruct H as [<-|H].
        -- simpl. rewrite N.eqb_sym, E. simpl. apply IH. left. reflexivity.
        -- apply IH. right. assumption.
Qed.

Lemma split_join : forall c s, join [c] (split_on c s) = s.
Proof.
  induction s as [|x r IH]; [reflexivity|]. simpl.
  destruct (x =? c) eqn:E.
  - apply N.eqb_eq in E. subst x.
    destruct (split_on c r) as [|h t] eqn:Es; [exfalso; eapply split_on_nonempty; eauto|].
    change (join [c] ([] :: h :: t)) with ([] ++ [c] ++ join [c] (h :: t)).
    rewrite IH. reflexivity.
  - destruct (split_on c r) as [|h t] eqn:Es; [exfalso; eapply split_on_nonempty; eauto|].
    destruct t as [|h2 t].
    + simpl in *. congruence.
    + change (join [c] ((x :: h) :: h2 :: t)) with (x :: (h ++ [c] ++ join [c] (h2 :: t))).
      change (join [c] (h :: h2 :: t)) with (h ++ [c] ++ join [c] (h2 :: t)) in IH.
      rewrite IH. reflexivity.
Qed.

Lemma split_on_hd_ne : forall c s, has_char c s = true -> exists p q r, split_on c s = p :: q :: r.
Proof.
  induction s as [|x s IH]; simpl; intro H; [discriminate|].
  destruct (x =? c) eqn:E.
  - destruct (split_on c s) as [|h t] eqn:Es; [exfalso; eapply split_on_nonempty; eauto|]. eauto.
  - rewrite N.eqb_sym, E in H. simpl in H. destruct (IH H) as [p [q [r Hr]]].
    rewrite Hr. eauto.
Qed.

Lemma has_char_app : forall c a b, has_char c (a ++ b) = has_char c a || has_char c b.
Proof. intros. unfold has_char. apply existsb_app. Qed.

Lemma has_char_In : forall c s, has_char c s = true <-> In c s.
Proof.
  intros. unfold has_char. rewrite existsb_exists. split.
  - intros [x [Hx He]]. apply N.eqb_eq in He. subst. assumption.
  - intro H. exists c. split; auto. apply N.eqb_refl.
Qed.

Lemma partition1_none : forall c s, has_char c s = false -> partition1 c s = (s, false, []).
Proof.
  induction s as [|x s IH]; simpl; intro H; [reflexivity|].
  apply orb_false_iff in H. destruct H as [H1 H2]. rewrite N.eqb_sym in H1. rewrite H1.
  rewrite IH by assumption. reflexivity.
Qed.

Lemma partition1_app : forall c a b, has_char c a = false ->
  partition1 c (a ++ c :: b) = (a, true, b).
Proof.
  induction a as [|x a IH]; simpl; intros b H.
  - rewrite N.eqb_refl. reflexivity.
  - apply orb_false_iff in H. destruct H as [H1 H2]. rewrite N.eqb_sym in H1. rewrite H1.
    rewrite IH by assumption. reflexivity.
Qed.

Lemma startswith_iff : forall p s, startswith p s = true <-> exists r, s = p ++ r.
Proof.
  induction p as [|x p IH]; destruct s as [|y s]; simpl.
  - split; [exists []; reflexivity | reflexivity].
  - split; [exists (y :: s); reflexivity | reflexivity].
  - split; [discriminate | intros [r H]; discriminate].
  - rewrite andb_true_iff, N.eqb_eq, IH. split.
    + intros [-> [r ->]]. exists r. reflexivity.
    + intros [r H]. injection H as -> ->. split; eauto.
Qed.

Lemma substr_iff : forall p s, substr p s = true <-> exists a b, s = a ++ p ++ b.
Proof.
  intros p s. induction s as [|x s IH]; simpl; rewrite orb_true_iff, startswith_iff.
  - split.
    + intros [[r H]|H]; [|discriminate]. exists [], r. assumption.
    + intros [a [b H]]. symmetry in H. apply app_eq_nil in H. destruct H as [_ H].
      left. exists b. congruence.
  - rewrite IH. split.
    + intros [[r H]|[a [b ->]]].
      * exists [], r. assumption.
      * exists (x :: a), b. reflexivity.
    + intros [a [b H]]. destruct a as [|y a].
      * left. exists b. assumption.
      * right. injection H as -> ->. eauto.
Qed.

Lemma endswith_iff : forall p s, endswith p s = true <-> exists r, s = r ++ p.
Proof.
  intros. unfold endswith. rewrite startswith_iff. split; intros [r H].
  - exists (rev r). apply (f_equal (@rev N)) in H. rewrite rev_involutive, rev_app_distr, rev_involutive in H.
    assumption.
  - exists (rev r). subst. apply rev_app_distr.
Qed.

(** digits *)
Lemma dec_uint_digits : forall d, forallb is_digit (dec_uint d) = true.
Proof. induction d; simpl; auto. Qed.

Lemma num_of_digits_pos : forall d p,
  num_of_digits (Npos p) (dec_uint d) = Npos (Pos.of_uint_acc d p).
Proof.
  induction d; intro p; cbn [dec_uint num_of_digits Pos.of_uint_acc]; try reflexivity;
  rewrite <- IHd; f_equal; lia.
Qed.

Lemma num_of_digits_0 : forall d, num_of_digits 0 (dec_uint d) = N.of_uint d.
Proof.
  unfold N.of_uint.
  induction d; simpl dec_uint; simpl num_of_digits; simpl Pos.of_uint; try reflexivity;
    try (rewrite num_of_digits_pos; reflexivity).
  assumption.
Qed.

Lemma num_of_dec_N : forall n, num_of_digits 0 (dec_N n) = n.
Proof. intro n. unfold dec_N. rewrite num_of_digits_0. apply DecimalN.Unsigned.of_to. Qed.

Lemma dec_N_digits : forall n, forallb is_digit (dec_N n) = true.
Proof. intro n. apply dec_uint_digits. Qed.

Lemma dec_N_nonempty : forall n, dec_N n <> [].
Proof.
  intros n H. pose proof (num_of_dec_N n) as E. rewrite H in E. simpl in E. subst n.
  vm_compute in H. discriminate.
Qed.

(** the first digit is 0 only for 0 *)
Lemma dec_N_head0 : forall p r, dec_N (Npos p) <> 48 :: r.
Proof.
  intros p r H. unfold dec_N in H. simpl in H.
  pose proof (DecimalPos.Unsigned.to_uint_nonzero p) as Hnz.
  pose proof (DecimalPos.Unsigned.of_to p) as Hot.
  pose proof (DecimalPos.Unsigned.to_of (Pos.to_uint p)) as Hto.
  rewrite Hot in Hto. simpl in Hto.
  destruct (Pos.to_uint p) as [|d|d|d|d|d|d|d|d|d|d] eqn:E; simpl in H; try discriminate.
  (* leading D0 contradicts unorm (to_uint p) = to_uint p *)
  unfold Decimal.unorm in Hto. simpl in Hto.
  destruct (Decimal.nzhead d) eqn:En; try discriminate.
  - injection Hto as Hto. subst d. apply Hnz. reflexivity.
  - exfalso. eapply DecimalFacts.nzhead_nonzero. exact En.
Qed.

Lemma span_app : forall f a b, forallb f a = true ->
  match b with [] => True | x :: _ => f x = false end -> span f (a ++ b) = (a, b).
Proof.
  induction a as [|x a IH]; simpl; intros b H Hb.
  - destruct b as [|y b]; simpl; [reflexivity|]. rewrite Hb. reflexivity.
  - apply andb_true_iff in H. destruct H as [H1 H2]. rewrite H1, IH by assumption. reflexivity.
Qed.

Lemma span_forall : forall f s a b, span f s = (a, b) -> forallb f a = true /\ s = a ++ b.
Proof.
  induction s as [|x s IH]; simpl; intros a b H.
  - injection H as <- <-. auto.
  - destruct (f x) eqn:E.
    + destruct (span f s) as [a' b'] eqn:Es. injection H as <- <-.
      destruct (IH _ _ eq_refl) as [H1 H2]. simpl. rewrite E. split; [assumption | congruence].
    + injection H as <- <-. auto.
Qed.
