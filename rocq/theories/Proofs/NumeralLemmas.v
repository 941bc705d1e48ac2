(** Numbers and durations as texts. *)
From Coq Require Import List NArith ZArith Bool String Lia ZifyBool ZifyN.
From Verif Require Import Base.Ustr Base.UstrLemmas Model.Cls Model.Value Model.Pspec Model.Tables Model.Message Model.Verify Model.TimeUtil Spec.NumeralSpec Proofs.ValueLemmas Proofs.StampLemmas.
From Verif Require Proofs.TimeLemmas Proofs.TypeLemmas.
Import ListNotations.
Open Scope list_scope.
Open Scope N_scope.
Ltac Zify.zify_post_hook ::= idtac.

Lemma is_digit_iff : forall c, is_digit c = true <-> 48 <= c <= 57.
Proof. intro c. unfold is_digit. lia. Qed.
(** the rest of a numeral, from left to right *)
Inductive more : ustr -> N -> N -> Prop :=
| MoNil : forall a, more [] a a
| MoDig : forall c r a m, 48 <= c <= 57 -> more r (a * 10 + (c - 48)) m -> more (c :: r) a m
| MoSep : forall c r a m, 48 <= c <= 57 -> more r (a * 10 + (c - 48)) m -> more (95 :: c :: r) a m.
Lemma more_snoc : forall r a m c, more r a m -> 48 <= c <= 57 -> more (r ++ [c]) a (m * 10 + (c - 48)) /\ more (r ++ [95; c]) a (m * 10 + (c - 48)).
Proof.
  intros r a m c H Hc. induction H as [a|x r a m Hx H IH|x r a m Hx H IH]; cbn [app].
  - split; [apply MoDig|apply MoSep]; try exact Hc; constructor.
  - destruct IH as [I1 I2]. split; apply MoDig; assumption.
  - destruct IH as [I1 I2]. split; apply MoSep; assumption.
Qed.
Lemma numeral_more : forall s n, numeral s n -> exists c r, s = c :: r /\ 48 <= c <= 57 /\ more r (c - 48) n.
Proof.
  intros s n H. induction H as [c Hc|s n c H (x & r & -> & Hx & M) Hc|s n c H (x & r & -> & Hx & M) Hc].
  - exists c, []. split; [reflexivity|]. split; [exact Hc|constructor].
  - exists x, (r ++ [c]). split; [reflexivity|]. split; [exact Hx|apply more_snoc; assumption].
  - exists x, (r ++ [95; c]). split; [reflexivity|]. split; [exact Hx|apply more_snoc; assumption].
Qed.
Lemma more_numeral : forall r a m, more r a m -> forall s, numeral s a -> numeral (s ++ r) m.
Proof.
  intros r a m H. induction H as [a|x r a m Hx H IH|x r a m Hx H IH]; intros s Hs.
  - rewrite app_nil_r. exact Hs.
  - change (x :: r) with ([x] ++ r). rewrite app_assoc. apply IH. apply NuMore; assumption.
  - change (95 :: x :: r) with ([95; x] ++ r). rewrite app_assoc. apply IH. apply NuSep; assumption.
Qed.
Lemma digits_us_more : forall r a m, more r a m -> digits_us r true a = Some m.
Proof.
  intros r a m H. induction H as [a|x r a m Hx H IH|x r a m Hx H IH]; cbn [digits_us]; [reflexivity| |].
  - apply is_digit_iff in Hx. rewrite Hx. exact IH.
  - apply is_digit_iff in Hx. replace (is_digit 95) with false by reflexivity. cbn [andb N.eqb Pos.eqb]. rewrite Hx. cbn [digits_us]. exact IH.
Qed.
Lemma more_digits_us : forall r a m, (digits_us r true a = Some m -> more r a m) /\ (digits_us r false a = Some m -> exists c r', r = c :: r' /\ 48 <= c <= 57 /\ more r' (a * 10 + (c - 48)) m).
Proof.
  induction r as [|c r IH]; intros a m; split; intro H; cbn [digits_us] in H; try discriminate.
  - injection H as <-. constructor.
  - destruct (is_digit c) eqn:Ec; [apply is_digit_iff in Ec; apply MoDig; [exact Ec|apply IH; exact H]|].
    destruct ((c =? 95) && true) eqn:E5; [|discriminate]. replace c with 95 by lia. destruct r as [|d r]; [discriminate|]. destruct (is_digit d) eqn:Ed; [|discriminate].
    apply (proj2 (IH a m)) in H. destruct H as (c' & r' & R & Hc & M). injection R as <- <-. apply MoSep; assumption.
  - destruct (is_digit c) eqn:Ec; [apply is_digit_iff in Ec; exists c, r; split; [reflexivity|]; split; [exact Ec|apply IH; exact H]|].
    rewrite andb_false_r in H. discriminate.
Qed.
Lemma numeral_iff : forall s n, numeral s n <-> digits_us s false 0 = Some n.
Proof.
  intros s n. split.
  - intro H. destruct (numeral_more _ _ H) as (c & r & -> & Hc & M). cbn [digits_us]. apply is_digit_iff in Hc. rewrite Hc. replace (0 * 10 + (c - 48)) with (c - 48) by lia. apply digits_us_more. exact M.
  - intro H. apply (proj2 (more_digits_us s 0 n)) in H. destruct H as (c & r & -> & Hc & M). replace (0 * 10 + (c - 48)) with (c - 48) in M by lia.
    change (c :: r) with ([c] ++ r). apply (more_numeral _ _ _ M). apply NuOne. exact Hc.
Qed.

(** white space around *)
Lemma lstrip_split : forall f s, exists a, s = a ++ lstrip_by f s /\ forallb f a = true /\ (forall c r, lstrip_by f s = c :: r -> f c = false).
Proof.
  induction s as [|c s (a & E & F & G)]; [exists []; repeat split; discriminate|]. cbn [lstrip_by]. destruct (f c) eqn:Ec.
  - exists (c :: a). split; [cbn [app]; f_equal; exact E|]. split; [cbn [forallb]; rewrite Ec; exact F|exact G].
  - exists []. split; [reflexivity|]. split; [reflexivity|]. intros x r H. injection H as <- <-. exact Ec.
Qed.
Lemma strip_split : forall f s, exists a b, s = a ++ strip_by f s ++ b /\ forallb f a = true /\ forallb f b = true.
Proof.
  intros f s. destruct (lstrip_split f s) as (a & E & F & _). destruct (lstrip_split f (rev (lstrip_by f s))) as (b & E2 & F2 & _).
  exists a, (rev b). split; [|split; [exact F|]].
  - unfold strip_by. rewrite E at 1. f_equal. rewrite <- rev_app_distr, <- E2. symmetry. apply rev_involutive.
  - apply forallb_forall. intros x I. apply in_rev in I. rewrite forallb_forall in F2. exact (F2 x I).
Qed.
Lemma lstrip_all : forall f a t, forallb f a = true -> lstrip_by f (a ++ t) = lstrip_by f t.
Proof. intros f a t H. rewrite lstrip_app, H. reflexivity. Qed.
Lemma strip_mid : forall f a t b x y z w, forallb f a = true -> forallb f b = true -> t = x :: y -> t = w ++ [z] -> f x = false -> f z = false -> strip_by f (a ++ t ++ b) = t.
Proof.
  intros f a t b x y z w Fa Fb Tx Tz Fx Fz. unfold strip_by. rewrite lstrip_all by exact Fa. assert (E : lstrip_by f (t ++ b) = t ++ b) by (rewrite Tx; cbn [app lstrip_by]; rewrite Fx; reflexivity).
  rewrite E, rev_app_distr, lstrip_all. 2: { apply forallb_forall. intros c I. apply in_rev in I. rewrite forallb_forall in Fb. exact (Fb c I). }
  assert (E2 : lstrip_by f (rev t) = rev t) by (rewrite Tz, rev_app_distr; cbn [rev app lstrip_by]; rewrite Fz; reflexivity).
  rewrite E2. apply rev_involutive.
Qed.
Lemma blanks_spaces : forall a, blanks a -> forallb is_space a = true.
Proof. intros a H. apply forallb_forall. intros c I. apply H in I. unfold is_space. lia. Qed.
Lemma spaces_blanks : forall a, forallb is_space a = true -> ascii a -> blanks a.
Proof. intros a H A c I. rewrite forallb_forall in H. specialize (H c I). specialize (A c I). unfold is_space in H. lia. Qed.
Lemma digit_no_space : forall c, 48 <= c <= 57 -> is_space c = false.
Proof. intros c H. unfold is_space. lia. Qed.
Lemma numeral_ends : forall t n, numeral t n -> (exists x y, t = x :: y /\ 48 <= x <= 57) /\ (exists w z, t = w ++ [z] /\ 48 <= z <= 57).
Proof.
  intros t n H. split.
  - destruct (numeral_more _ _ H) as (c & r & -> & Hc & _). eauto.
  - destruct H as [c Hc|s n c H Hc|s n c H Hc]; [exists [], c|exists s, c|exists (s ++ [95]), c]; split; try exact Hc; try reflexivity. rewrite <- app_assoc. reflexivity.
Qed.
Lemma ascii_forallb : forall s, forallb is_ascii s = true <-> ascii s.
Proof. intro s. rewrite forallb_forall. unfold ascii, is_ascii. split; intros H c I; specialize (H c I); lia. Qed.

Lemma sign_cases : forall g t, sign g -> (exists x y, t = x :: y /\ 48 <= x <= 57) -> exists x y, g ++ t = x :: y /\ is_space x = false.
Proof.
  intros g t [->|[->| ->]] (x & y & -> & Hx); [exists x, y; split; [reflexivity|apply digit_no_space; exact Hx]|exists 43, (x :: y)|exists 45, (x :: y)]; split; reflexivity.
Qed.
Lemma int_text_iff : forall s z, py_int_str s = Ok z <-> ascii s /\ int_text s z.
Proof.
  intros s z. unfold py_int_str. split.
  - destruct (forallb is_ascii s) eqn:A; [|discriminate]. apply ascii_forallb in A. intro H. split; [exact A|].
    destruct (strip_split is_space s) as (a & b & E & Fa & Fb). fold (strip s) in E.
    assert (Ba : blanks a) by (apply spaces_blanks; [exact Fa|]; intros c I; apply A; rewrite E; apply in_app_iff; left; exact I).
    assert (Bb : blanks b) by (apply spaces_blanks; [exact Fb|]; intros c I; apply A; rewrite E; apply in_app_iff; right; apply in_app_iff; right; exact I).
    destruct (strip s) as [|c r]; [discriminate|]. destruct (N.eqb_spec c 45) as [->|N1]; [|destruct (N.eqb_spec c 43) as [->|N2]].
    + destruct (digits_us r false 0) as [n|] eqn:D; [|discriminate]. injection H as <-. apply numeral_iff in D. exists a, (u "-"), r, b, n. repeat split; try assumption; try reflexivity. right. right. reflexivity.
    + destruct (digits_us r false 0) as [n|] eqn:D; [|discriminate]. injection H as <-. apply numeral_iff in D. exists a, (u "+"), r, b, n. repeat split; try assumption; try reflexivity. right. left. reflexivity.
    + destruct (digits_us (c :: r) false 0) as [n|] eqn:D; [|discriminate]. injection H as <-. apply numeral_iff in D. exists a, [], (c :: r), b, n. repeat split; try assumption; try reflexivity. left. reflexivity.
  - intros (A & a & g & t & b & n & -> & Ba & Bb & Sg & Nu & ->). apply ascii_forallb in A. rewrite A.
    destruct (numeral_ends _ _ Nu) as [E1 (w & zz & E2 & Hz)]. destruct (sign_cases g t Sg E1) as (x & y & E3 & Hx).
    assert (S : strip (a ++ g ++ t ++ b) = g ++ t).
    { rewrite (app_assoc g t b). apply (strip_mid is_space a (g ++ t) b x y zz (g ++ w)); [apply blanks_spaces, Ba|apply blanks_spaces, Bb|exact E3|rewrite E2; apply app_assoc|exact Hx|apply digit_no_space, Hz]. }
    rewrite S. destruct E1 as (x1 & y1 & E1 & H1). apply numeral_iff in Nu. destruct Sg as [->|[->| ->]].
    + cbn [app ueqb]. rewrite E1 in *. replace (x1 =? 45) with false by lia. replace (x1 =? 43) with false by lia. rewrite Nu. reflexivity.
    + change (u "+" ++ t) with (43 :: t). cbn [N.eqb Pos.eqb]. rewrite Nu. reflexivity.
    + change (u "-" ++ t) with (45 :: t). cbn [N.eqb Pos.eqb]. rewrite Nu. reflexivity.
Qed.
Lemma int_text_not : forall s, ascii s -> (forall z, ~ int_text s z) -> py_int_str s = Err EValueError.
Proof.
  intros s A H. destruct (py_int_str s) as [z|e] eqn:E; [exfalso; apply int_text_iff in E; exact (H z (proj2 E))|].
  unfold py_int_str in E. apply ascii_forallb in A. rewrite A in E. destruct (strip s) as [|c r]; [congruence|].
  destruct (c =? 45); [destruct (digits_us _ _ _); congruence|]. destruct (c =? 43); destruct (digits_us _ _ _); congruence.
Qed.

(** ** floating point numbers *)
Definition stops (r : ustr) : Prop := forall c t, r = c :: t -> ~ (48 <= c <= 57) /\ c <> 95.
Lemma digits_end_more : forall d a m r, more d a m -> stops r -> digits_end (d ++ r) true = Some r.
Proof.
  intros d a m r H Hr. induction H as [a|x d a m Hx H IH|x d a m Hx H IH]; cbn [app digits_end].
  - destruct r as [|c r]; [reflexivity|]. destruct (Hr c r eq_refl) as [N1 N2]. cbn [digits_end]. destruct (is_digit c) eqn:E; [apply is_digit_iff in E; contradiction|].
    replace (c =? 95) with false by lia. reflexivity.
  - apply is_digit_iff in Hx. rewrite Hx. exact IH.
  - apply is_digit_iff in Hx. replace (is_digit 95) with false by reflexivity. cbn [andb N.eqb Pos.eqb]. rewrite Hx. cbn [digits_end]. exact IH.
Qed.
Lemma digits_end_app : forall d r, digits d -> stops r -> digits_end (d ++ r) false = Some r.
Proof.
  intros d r [n H] Hr. destruct (numeral_more _ _ H) as (c & t & -> & Hc & M). cbn [app digits_end]. apply is_digit_iff in Hc. rewrite Hc. eapply digits_end_more; eassumption.
Qed.
Lemma digits_end_split : forall s r a, (digits_end s true = Some r -> exists d m, s = d ++ r /\ more d a m) /\
  (digits_end s false = Some r -> exists c d m, s = c :: d ++ r /\ 48 <= c <= 57 /\ more d (a * 10 + (c - 48)) m).
Proof.
  induction s as [|c s IH]; intros r a; split; intro H; cbn [digits_end] in H; try discriminate.
  - injection H as <-. exists [], a. split; [reflexivity|constructor].
  - destruct (is_digit c) eqn:Ec.
    { apply is_digit_iff in Ec. apply (proj1 (IH r (a * 10 + (c - 48)))) in H. destruct H as (d & m & -> & M). exists (c :: d), m. split; [reflexivity|apply MoDig; assumption]. }
    destruct ((c =? 95) && true) eqn:E5.
    + destruct s as [|d s]; [discriminate|]. destruct (is_digit d) eqn:Ed; [|discriminate]. apply (proj2 (IH r a)) in H. destruct H as (c' & d' & m & E & Hc & M). injection E as <- ->.
      replace c with 95 by lia. exists (95 :: d :: d'), m. split; [reflexivity|apply MoSep; assumption].
    + injection H as <-. exists [], a. split; [reflexivity|constructor].
  - destruct (is_digit c) eqn:Ec.
    { apply is_digit_iff in Ec. apply (proj1 (IH r (a * 10 + (c - 48)))) in H. destruct H as (d & m & -> & M). exists c, d, m. repeat split; try exact M; lia. }
    rewrite andb_false_r in H. discriminate.
Qed.
Lemma digits_end_some : forall s r, digits_end s false = Some r -> exists d, s = d ++ r /\ digits d.
Proof.
  intros s r H. apply (proj2 (digits_end_split s r 0)) in H. destruct H as (c & d & m & -> & Hc & M). exists (c :: d). split; [reflexivity|]. exists m.
  replace (0 * 10 + (c - 48)) with (c - 48) in M by lia. change (c :: d) with ([c] ++ d). apply (more_numeral _ _ _ M). apply NuOne. exact Hc.
Qed.
Lemma digits_head : forall d, digits d -> exists c r, d = c :: r /\ 48 <= c <= 57.
Proof. intros d [n H]. destruct (numeral_more _ _ H) as (c & r & -> & Hc & _). eauto. Qed.
Lemma sign_off_split : forall s, exists g, s = g ++ sign_off s /\ sign g.
Proof.
  intros [|c s]; [exists []; split; [reflexivity|left; reflexivity]|]. unfold sign_off. destruct ((c =? 43) || (c =? 45)) eqn:E; [|exists []; split; [reflexivity|left; reflexivity]].
  exists [c]. split; [reflexivity|]. destruct (N.eqb_spec c 43) as [->|]; [right; left; reflexivity|]. right. right. replace c with 45 by lia. reflexivity.
Qed.
Lemma sign_off_app : forall g t, sign g -> (forall c r, t = c :: r -> c <> 43 /\ c <> 45) -> sign_off (g ++ t) = t.
Proof.
  intros g t [->|[->| ->]] H; [|reflexivity|reflexivity]. cbn [app]. destruct t as [|c r]; [reflexivity|]. destruct (H c r eq_refl). unfold sign_off. replace ((c =? 43) || (c =? 45)) with false by lia. reflexivity.
Qed.
Lemma stops_nil : stops [].
Proof. intros c t H. discriminate. Qed.
Lemma exponent_iff : forall s, exponent_ok s = true <-> exponent s.
Proof.
  intro s. split.
  - destruct s as [|c r]; [intros _; constructor|]. cbn [exponent_ok]. rewrite andb_true_iff. intros [Hc Hd].
    destruct (digits_end (sign_off r) false) as [[|]|] eqn:E; try discriminate. apply digits_end_some in E. destruct E as (d & E & D). rewrite app_nil_r in E.
    destruct (sign_off_split r) as (g & G & Sg). rewrite G, E. apply ExSome; [lia|exact Sg|exact D].
  - intros [|e g d He Sg D]; [reflexivity|]. cbn [exponent_ok]. destruct (digits_head d D) as (c & r & Ed & Hc). rewrite sign_off_app; [|exact Sg|intros x y X; rewrite Ed in X; injection X as <- <-; lia].
    pose proof (digits_end_app d [] D stops_nil) as X. rewrite app_nil_r in X. rewrite X. lia.
Qed.
Lemma exponent_stops : forall e, exponent e -> stops e.
Proof. intros e [|x g d He Sg D] c t H; [discriminate|]. injection H as <- <-. lia. Qed.
Lemma exponent_no_point : forall e r, exponent e -> e <> 46 :: r.
Proof. intros e r [|x g d He Sg D] H; [discriminate|]. injection H as -> H. lia. Qed.
Lemma digits_end_none_exp : forall e, exponent e -> digits_end e false = None.
Proof. intros e [|x g d He Sg D]; [reflexivity|]. cbn [digits_end]. destruct (is_digit x) eqn:E; [apply is_digit_iff in E; lia|]. rewrite andb_false_r. reflexivity. Qed.
Lemma point_cases : forall s, (exists r, s = 46 :: r) \/ forall b, fraction_ok s b = b && exponent_ok s.
Proof.
  intros [|c r]; [right; reflexivity|]. destruct (N.eqb_spec c 46) as [->|N1]; [left; eauto|right]. intro b.
  destruct c as [|p]; [reflexivity|]. unfold fraction_ok. destruct p as [p|p|]; try reflexivity; destruct p as [p|p|]; try reflexivity; destruct p as [p|p|]; try reflexivity;
  destruct p as [p|p|]; try reflexivity; destruct p as [p|p|]; try reflexivity; destruct p as [p|p|]; try reflexivity; contradiction N1; reflexivity.
Qed.
Lemma fraction_true : forall s b, fraction_ok s b = true -> (b = true /\ exponent s) \/
  (exists f e, s = 46 :: f ++ e /\ digits f /\ exponent e) \/ (b = true /\ exists e, s = 46 :: e /\ exponent e).
Proof.
  intros s b H. destruct (point_cases s) as [[r ->]|E]; [|rewrite E in H; apply andb_true_iff in H; destruct H as [H1 H2]; left; split; [exact H1|apply exponent_iff; exact H2]].
  right. cbn [fraction_ok] in H. destruct (digits_end r false) as [t|] eqn:D.
  - left. apply digits_end_some in D. destruct D as (d & -> & D). exists d, t. split; [reflexivity|]. split; [exact D|apply exponent_iff; exact H].
  - right. destruct r as [|c r]; [split; [exact H|exists []; split; [reflexivity|constructor]]|]. destruct (is_digit c); [discriminate|]. apply andb_true_iff in H. destruct H as [H1 H2].
    split; [exact H1|]. exists (c :: r). split; [reflexivity|apply exponent_iff; exact H2].
Qed.
Lemma fraction_exp : forall e, exponent e -> fraction_ok e true = true.
Proof. intros e H. destruct (point_cases e) as [[r ->]|E]; [exfalso; eapply exponent_no_point; [exact H|reflexivity]|]. rewrite E. apply exponent_iff. exact H. Qed.
Lemma fraction_digits : forall f e b, digits f -> exponent e -> fraction_ok (46 :: f ++ e) b = true.
Proof. intros f e b D H. cbn [fraction_ok]. rewrite (digits_end_app f e D (exponent_stops e H)). apply exponent_iff. exact H. Qed.
Lemma fraction_point : forall e, exponent e -> fraction_ok (46 :: e) true = true.
Proof.
  intros e H. cbn [fraction_ok]. rewrite digits_end_none_exp by exact H. destruct e as [|c r]; [reflexivity|]. pose proof (exponent_stops _ H c r eq_refl) as [N1 _].
  destruct (is_digit c) eqn:E; [apply is_digit_iff in E; contradiction|]. apply exponent_iff. exact H.
Qed.
Lemma upper_lower : forall c l, 97 <= l <= 122 -> (lower1 c = l <-> c = l \/ c + 32 = l).
Proof. intros c l H. unfold lower1, is_upper. destruct ((65 <=? c) && (c <=? 90)) eqn:E; lia. Qed.
Lemma special_iff : forall t, umem (map lower1 t) [u "inf"; u "infinity"; u "nan"] = true <-> special t.
Proof.
  assert (X : forall w, (forall l, In l w -> 97 <= l <= 122) -> forall t, map lower1 t = w <-> Forall2 (fun c l => c = l \/ c + 32 = l) t w).
  { induction w as [|l w IH]; intros Hw t.
    - split; intro H; [destruct t; [constructor|discriminate]|inversion H; reflexivity].
    - split; intro H.
      + destruct t as [|c t]; [discriminate|]. cbn [map] in H. injection H as H1 H2. constructor; [apply upper_lower; [apply Hw; left; reflexivity|exact H1]|]. apply IH; [intros x I; apply Hw; right; exact I|exact H2].
      + inversion H as [|c l' t' w' H1 H2]; subst. cbn [map]. f_equal; [apply upper_lower; [apply Hw; left; reflexivity|exact H1]|]. apply IH; [intros x I; apply Hw; right; exact I|exact H2]. }
  assert (W : forall w, In w [u "inf"; u "infinity"; u "nan"] -> forall l, In l w -> 97 <= l <= 122).
  { intros w Hw l Hl. cbn [In] in Hw. destruct Hw as [<-|[<-|[<-|[]]]]; vm_compute in Hl; repeat match type of Hl with _ \/ _ => destruct Hl as [<-|Hl] end; lia || contradiction. }
  intro t. rewrite umem_In. split.
  - intro I. exists (map lower1 t). split; [exact I|]. apply X; [apply W; exact I|reflexivity].
  - intros (w & I & H). apply X in H; [|apply W; exact I]. rewrite H. exact I.
Qed.
Lemma float_body : forall t, (match t with 46 :: _ => fraction_ok t false | _ => match digits_end t false with Some r => fraction_ok r true | None => false end end) = true <->
  exists m e, t = m ++ e /\ mantissa m /\ exponent e.
Proof.
  intro t. assert (C : (exists r, t = 46 :: r) \/ (match t with 46 :: _ => fraction_ok t false | _ => match digits_end t false with Some r => fraction_ok r true | None => false end end) =
     match digits_end t false with Some r => fraction_ok r true | None => false end /\ forall r, t <> 46 :: r).
  { destruct t as [|c r]; [right; split; [reflexivity|discriminate]|]. destruct (N.eqb_spec c 46) as [->|N1]; [left; eauto|right]. split; [|intros r' X; injection X as X _; contradiction].
    destruct c as [|p]; [reflexivity|]. destruct p as [p|p|]; try reflexivity; destruct p as [p|p|]; try reflexivity; destruct p as [p|p|]; try reflexivity;
    destruct p as [p|p|]; try reflexivity; destruct p as [p|p|]; try reflexivity; destruct p as [p|p|]; try reflexivity; contradiction N1; reflexivity. }
  destruct C as [[r ->]|[-> Np]].
  - split.
    + intro H. apply fraction_true in H. destruct H as [[H _]|[(f & e & H & D & X)|[H _]]]; try discriminate. injection H as ->. exists (46 :: f), e. split; [reflexivity|]. split; [apply (MaFrac f D)|exact X].
    + intros (m & e & H & M & X). destruct M as [d D|d D|f D|d f D D'].
      * destruct (digits_head d D) as (c & r' & -> & Hc). injection H as <- H. lia.
      * destruct (digits_head d D) as (c & r' & -> & Hc). injection H as <- H. lia.
      * change (u "." ++ f) with (46 :: f) in H. injection H as ->. apply fraction_digits; assumption.
      * destruct (digits_head d D) as (c & r' & -> & Hc). injection H as <- H. lia.
  - split.
    + destruct (digits_end t false) as [r|] eqn:E; [|discriminate]. apply digits_end_some in E. destruct E as (d & -> & D). intro H. apply fraction_true in H.
      destruct H as [[_ X]|[(f & e & -> & Df & X)|(_ & e & -> & X)]].
      * exists d, r. split; [reflexivity|]. split; [apply MaInt; exact D|exact X].
      * exists (d ++ u "." ++ f), e. split; [rewrite <- !app_assoc; reflexivity|]. split; [apply MaBoth; assumption|exact X].
      * exists (d ++ u "."), e. split; [rewrite <- app_assoc; reflexivity|]. split; [apply MaPoint; exact D|exact X].
    + intros (m & e & -> & M & X). assert (P : forall y, stops (46 :: y)) by (intros y c t H; injection H as <- <-; lia). destruct M as [d D|d D|f D|d f D D'].
      * rewrite digits_end_app; [apply fraction_exp; exact X|exact D|apply exponent_stops; exact X].
      * rewrite <- app_assoc. change (u "." ++ e) with (46 :: e). rewrite digits_end_app; [apply fraction_point; exact X|exact D|apply P].
      * exfalso. eapply Np. reflexivity.
      * rewrite <- !app_assoc. change (u "." ++ f ++ e) with (46 :: f ++ e). rewrite digits_end_app; [apply fraction_digits; assumption|exact D|apply P].
Qed.
Definition solid (t : ustr) : Prop := forall c, In c t -> is_space c = false.
Lemma solid_app : forall a b, solid a -> solid b -> solid (a ++ b).
Proof. intros a b Ha Hb c I. apply in_app_iff in I. destruct I; auto. Qed.
Lemma digits_solid : forall d, digits d -> solid d.
Proof.
  intros d [n H]. induction H as [c Hc|s n c H IH Hc|s n c H IH Hc]; [|apply solid_app; [exact IH|]..]; intros x I; cbn [In] in I; repeat match type of I with _ \/ _ => destruct I as [<-|I] end; try contradiction; try (apply digit_no_space; exact Hc); reflexivity.
Qed.
Lemma sign_solid : forall g, sign g -> solid g.
Proof. intros g [->|[->| ->]] c I; vm_compute in I; repeat match type of I with _ \/ _ => destruct I as [<-|I] end; try contradiction; reflexivity. Qed.
Lemma exponent_solid : forall e, exponent e -> solid e.
Proof.
  intros e [|x g d He Sg D]; [intros c []|]. change (x :: g ++ d) with ([x] ++ g ++ d). apply solid_app; [|apply solid_app; [apply sign_solid|apply digits_solid]; assumption].
  intros c [<-|[]]. destruct He as [->| ->]; reflexivity.
Qed.
Lemma point_solid : solid (u ".").
Proof. intros c [<-|[]]. reflexivity. Qed.
Lemma mantissa_solid : forall m, mantissa m -> solid m.
Proof. intros m [d D|d D|f D|d f D D']; repeat apply solid_app; first [apply point_solid | apply digits_solid; assumption]. Qed.
Lemma special_solid : forall t, special t -> solid t.
Proof.
  intros t (w & I & H) c Ic. assert (W : forall l, In l w -> 97 <= l <= 122).
  { intros l Hl. cbn [In] in I. destruct I as [<-|[<-|[<-|[]]]]; vm_compute in Hl; repeat match type of Hl with _ \/ _ => destruct Hl as [<-|Hl] end; lia || contradiction. }
  clear I. induction H as [|x l t w Hx H IH]; [contradiction|]. destruct Ic as [<-|Ic]; [|apply IH; [exact Ic|intros y Iy; apply W; right; exact Iy]].
  specialize (W l (or_introl eq_refl)). unfold is_space. lia.
Qed.
Lemma strip_solid : forall a t b, blanks a -> blanks b -> solid t -> t <> [] -> strip (a ++ t ++ b) = t.
Proof.
  intros a t b Ha Hb Hs Hn. destruct t as [|x y] eqn:E; [congruence|]. rewrite <- E in *. destruct (exists_last Hn) as (w & z & Ez).
  apply (strip_mid is_space a t b x y z w); [apply blanks_spaces, Ha|apply blanks_spaces, Hb|exact E|exact Ez|apply Hs; rewrite E; left; reflexivity|apply Hs; rewrite Ez; apply in_app_iff; right; left; reflexivity].
Qed.
Lemma mantissa_head : forall m e, mantissa m -> exists c r, m ++ e = c :: r /\ c <> 43 /\ c <> 45.
Proof.
  intros m e [d D|d D|f D|d f D D']; try (destruct (digits_head d D) as (c & r & -> & Hc); eexists c, _; split; [reflexivity|lia]). eexists 46, _. split; [reflexivity|]. split; discriminate.
Qed.
Lemma special_head : forall t, special t -> exists c r, t = c :: r /\ c <> 43 /\ c <> 45.
Proof.
  intros t (w & I & H). cbn [In] in I. destruct I as [<-|[<-|[<-|[]]]];
  match type of H with Forall2 _ _ ?w => let w' := eval vm_compute in w in change w with w' in H end; inversion H as [|c l t' w' Hc]; subst; eexists _, _; (split; [reflexivity|lia]).
Qed.
Lemma float_text_iff : forall s, ascii s -> (float_ok s = true <-> float_text s).
Proof.
  intros s A. unfold float_ok. cbv zeta. rewrite orb_true_iff, special_iff, float_body. split.
  - intro H. destruct (strip_split is_space s) as (a & b & E & Fa & Fb). fold (strip s) in E. destruct (sign_off_split (strip s)) as (g & G & Sg).
    exists a, g, (sign_off (strip s)), b. split; [rewrite E at 1; rewrite G at 1; rewrite <- app_assoc; reflexivity|].
    split; [apply spaces_blanks; [exact Fa|]; intros c I; apply A; rewrite E; apply in_app_iff; left; exact I|].
    split; [apply spaces_blanks; [exact Fb|]; intros c I; apply A; rewrite E; apply in_app_iff; right; apply in_app_iff; right; exact I|].
    split; [exact Sg|exact H].
  - intros (a & g & t & b & -> & Ba & Bb & Sg & H).
    assert (X : solid t /\ exists c r, t = c :: r /\ c <> 43 /\ c <> 45).
    { destruct H as [H|(m & e & -> & M & X)]; [split; [apply special_solid|apply special_head]; exact H|]. split; [apply solid_app; [apply mantissa_solid; exact M|apply exponent_solid; exact X]|apply mantissa_head; exact M]. }
    destruct X as (So & c & r & Ec & N1 & N2).
    assert (E : strip (a ++ g ++ t ++ b) = g ++ t).
    { rewrite (app_assoc g t b). apply strip_solid; [exact Ba|exact Bb|apply solid_app; [apply sign_solid; exact Sg|exact So]|]. rewrite Ec. destruct g; discriminate. }
    rewrite E, sign_off_app; [exact H|exact Sg|]. intros x y Hx. rewrite Ec in Hx. injection Hx as <- <-. split; assumption.
Qed.

(** ** durations *)
Lemma d_number_iff : forall f n z, ascii n -> f <> FT ->
  (d_number f n = Ok z <-> match f with FSec => seconds n z | _ => whole n z end).
Proof.
  intros f n z A Hf. unfold d_number.
  assert (W : whole n z <-> exists i, py_int_str n = Ok i /\ z = DInt i) by (unfold whole; split; intros (i & H & E); exists i; (split; [|exact E]); [apply int_text_iff; split; assumption|apply int_text_iff in H; apply H]).
  destruct (py_int_str n) as [i|e] eqn:E.
  - assert (X : Ok (DInt i) = Ok z <-> whole n z) by (rewrite W; split; [intro H; injection H as <-; eauto|intros (j & H & ->); injection H as <-; reflexivity]).
    destruct f; try exact X. rewrite X. unfold seconds. split; [auto|intros [H|(H & _)]; [exact H|]]. exfalso. apply int_text_iff in E. exact (H i (proj2 E)).
  - assert (N : forall i, ~ int_text n i) by (intros i I; assert (py_int_str n = Ok i) by (apply int_text_iff; split; assumption); congruence).
    rewrite (int_text_not n A N) in E. injection E as <-.
    assert (X : Err (A := dsec) ETimeUtilError = Ok z <-> whole n z) by (split; [discriminate|intros (i & I & _); exfalso; exact (N i I)]).
    destruct f; try exact X. unfold seconds. destruct (float_ok n) eqn:F.
    + apply float_text_iff in F; [|exact A]. split; [intro H; injection H as <-; right; auto|]. intros [(i & I & _)|(_ & _ & ->)]; [exfalso; exact (N i I)|reflexivity].
    + split; [discriminate|]. intros [(i & I & _)|(_ & G & _)]; [exfalso; exact (N i I)|]. apply float_text_iff in G; [congruence|exact A].
Qed.

Definition field_num (f : dfield) : ustr -> dsec -> Prop := match f with FSec => seconds | _ => whole end.
Lemma takes_ascii : forall l Q r z r', takes l Q r z r' -> ascii r -> ascii r'.
Proof. intros l Q r z r' H A. destruct H as [n z r Hn Hq|r Hr Hn]; [|exact A]. intros c I. apply A. apply in_app_iff. right. right. exact I. Qed.
Lemma unsigned_iff : forall c r, unsigned (c :: r) <-> (c =? 45) = false.
Proof. intros c r. unfold unsigned. split; [intro H; destruct (N.eqb_spec c 45) as [->|]; [exfalso; exact (H r eq_refl)|reflexivity]|intros H t E; injection E as -> ->; discriminate]. Qed.
Lemma part_true : forall c s p after, partition1 c s = (p, true, after) -> s = p ++ c :: after /\ ~ In c p.
Proof.
  intros c s. induction s as [|x s IH]; intros p after H; cbn [partition1] in H; [discriminate|]. destruct (N.eqb_spec x c) as [->|Nx].
  - injection H as <- <-. split; [reflexivity|intros []].
  - destruct (partition1 c s) as [[p' b'] a'] eqn:E. injection H as <- -> ->. destruct (IH p' after eq_refl) as [-> I]. split; [reflexivity|]. intros [X|X]; [exact (Nx X)|exact (I X)].
Qed.
Lemma part_false : forall c s p after, partition1 c s = (p, false, after) -> ~ In c s.
Proof.
  intros c s. induction s as [|x s IH]; intros p after H; cbn [partition1] in H; [intros []|]. destruct (N.eqb_spec x c) as [->|Nx]; [discriminate|].
  destruct (partition1 c s) as [[p' b'] a'] eqn:E. injection H as <- -> ->. intros [X|X]; [exact (Nx X)|exact (IH p' after eq_refl X)].
Qed.
Lemma d_step_eq : forall f c r d, f <> FT -> d_step f (c :: r) d = if c =? 45 then Err ETimeUtilError else
  match partition1 (d_code f) (c :: r) with (p, true, after) => do z <- d_number f p; Ok (after, d_put f z d) | (_, false, _) => Ok (c :: r, d_put f (DInt 0) d) end.
Proof. intros f c r d H. destruct f; try reflexivity. congruence. Qed.
Lemma d_step_iff : forall f rest d rest' d', f <> FT -> ascii rest ->
  (d_step f rest d = Ok (rest', d') <-> exists z, unsigned rest /\ takes (d_code f) (field_num f) rest z rest' /\ d' = d_put f z d).
Proof.
  intros f rest d rest' d' Hf A. destruct rest as [|c r]; [split; [discriminate|intros (z & _ & T & _); inversion T as [n z' r' X1 X2 X3 X4 X5|r' X1]; [destruct n; discriminate X3|congruence]]|].
  rewrite d_step_eq by exact Hf. assert (U := unsigned_iff c r). destruct (c =? 45) eqn:E45; [split; [discriminate|intros (z & X & _); apply U in X; discriminate]|].
  assert (Hu : unsigned (c :: r)) by (apply U; reflexivity).
  destruct (partition1 (d_code f) (c :: r)) as [[p []] after] eqn:P.
  - apply part_true in P. destruct P as [P Np]. assert (Ap : ascii p) by (intros x I; apply A; rewrite P; apply in_app_iff; left; exact I). split.
    + intro H. destruct (d_number f p) as [z|e] eqn:D; cbn [bind] in H; [|discriminate H]. injection H as <- <-. exists z. split; [exact Hu|]. split; [|reflexivity]. rewrite P. apply TkThere; [exact Np|].
      apply d_number_iff in D; [destruct f; exact D|exact Ap|exact Hf].
    + intros (z & _ & T & ->). inversion T as [n z' r' X1 X2 X3 X4 X5|r' X1 X2 X3 X4 X5]; subst.
      * rewrite P in X3. assert (Y : n = p /\ rest' = after).
        { clear - X1 X3 Np. revert p X3 Np. induction n as [|x n IH]; intros [|y p] X3 Np; cbn [app] in X3.
          - injection X3 as ->. split; reflexivity.
          - injection X3 as <- X3. exfalso. apply Np. left. reflexivity.
          - injection X3 as -> X3. exfalso. apply X1. left. reflexivity.
          - injection X3 as -> X3. destruct (IH (fun I => X1 (or_intror I)) p X3 (fun I => Np (or_intror I))) as [-> ->]. split; reflexivity. }
        destruct Y as [-> ->]. assert (D : d_number f p = Ok z) by (apply d_number_iff; [exact Ap|exact Hf|destruct f; exact X2]). rewrite D. reflexivity.
      * exfalso. apply X2. rewrite P. apply in_app_iff. right. left. reflexivity.
  - apply part_false in P. split.
    + intro H. injection H as <- <-. exists (DInt 0). split; [exact Hu|]. split; [|reflexivity]. apply TkMissing; [discriminate|exact P].
    + intros (z & _ & T & ->). inversion T as [n z' r' X1 X2 X3 X4 X5|r' X1 X2 X3 X4 X5]; subst; [|reflexivity]. exfalso. apply P. rewrite <- X3. apply in_app_iff. right. left. reflexivity.
Qed.
Lemma takes_ne : forall l Q r z r', takes l Q r z r' -> r <> [].
Proof. intros l Q r z r' [n z0 r0 H1 H2|r0 H1 H2]; [destruct n; discriminate|exact H1]. Qed.
Lemma takes_whole : forall l r z r', takes l whole r z r' -> exists i, z = DInt i.
Proof. intros l r z r' [n z0 r0 H1 (i & _ & ->)|r0 H1 H2]; eauto. Qed.
Lemma loop_field : forall f l rest d0 d, f <> FT -> ascii rest ->
  (d_loop (f :: l) rest d0 = Ok d <-> exists z r', unsigned rest /\ takes (d_code f) (field_num f) rest z r' /\
     (r' = [] /\ d = d_put f z d0 \/ r' <> [] /\ d_loop l r' (d_put f z d0) = Ok d)).
Proof.
  intros f l rest d0 d Hf A. cbn [d_loop]. split.
  - destruct (d_step f rest d0) as [[r' d']|e] eqn:E; cbn [bind]; [|discriminate]. apply d_step_iff in E; [|exact Hf|exact A]. destruct E as (z & U & T & ->). intro H. exists z, r'. split; [exact U|]. split; [exact T|].
    destruct r' as [|c r']; [left; split; [reflexivity|congruence]|right; split; [discriminate|exact H]].
  - intros (z & r' & U & T & H). assert (E : d_step f rest d0 = Ok (r', d_put f z d0)) by (apply d_step_iff; [exact Hf|exact A|eauto]). rewrite E. cbn [bind].
    destruct H as [[-> ->]|[Hn H]]; [reflexivity|]. destruct r'; [congruence|exact H].
Qed.
Lemma loop_T : forall l rest d0 d, d_loop (FT :: l) rest d0 = Ok d <-> exists t, rest = 84 :: t /\ t <> [] /\ d_loop l t d0 = Ok d.
Proof.
  intros l rest d0 d. cbn [d_loop]. destruct rest as [|c r]; cbn [d_step bind]; [split; [discriminate|intros (t & E & _); discriminate]|].
  split.
  - destruct (c =? 45); cbn [bind]; [discriminate|]. destruct (N.eqb_spec c 84) as [->|]; [|discriminate]. destruct r as [|x r]; cbn [bind]; [discriminate|]. intro H. exists (x :: r). split; [reflexivity|]. split; [discriminate|exact H].
  - intros (t & E & Hn & H). injection E as -> ->. cbn [N.eqb Pos.eqb]. destruct t; [congruence|]. cbn [bind]. exact H.
Qed.
Lemma time_iff : forall r y m d0 h0 mi0 s0 d, ascii r -> d_loop [FHour; FMin; FSec] r (mkDur y m d0 h0 mi0 s0) = Ok d -> h0 = 0%Z -> mi0 = 0%Z -> s0 = DInt 0 ->
  exists h mi s, reads_time r h mi s /\ d = mkDur y m d0 h mi s.
Proof.
  intros r y m d0 h0 mi0 s0 d A H -> -> ->. apply loop_field in H; [|discriminate|exact A]. destruct H as (z & r1 & U & T & H). destruct (takes_whole _ _ _ _ T) as [h ->]. assert (A1 := takes_ascii _ _ _ _ _ T A).
  destruct H as [[-> ->]|[N1 H]]; [exists h, 0%Z, (DInt 0); split; [apply RtHour; assumption|reflexivity]|].
  apply loop_field in H; [|discriminate|exact A1]. destruct H as (z & r2 & U1 & T1 & H). destruct (takes_whole _ _ _ _ T1) as [mi ->]. assert (A2 := takes_ascii _ _ _ _ _ T1 A1).
  destruct H as [[-> ->]|[N2 H]]; [exists h, mi, (DInt 0); split; [eapply RtMin; eassumption|reflexivity]|].
  apply loop_field in H; [|discriminate|exact A2]. destruct H as (s & r3 & U2 & T2 & H). exists h, mi, s. split; [eapply RtSec; eassumption|].
  destruct H as [[-> ->]|[N3 H]]; [reflexivity|]. cbn [d_loop] in H. injection H as <-. reflexivity.
Qed.
Lemma time_loop : forall r h mi s, ascii r -> reads_time r h mi s -> forall y m d0, d_loop [FHour; FMin; FSec] r (mkDur y m d0 0 0 (DInt 0)) = Ok (mkDur y m d0 h mi s).
Proof.
  intros r h mi s A H y m d0. destruct H as [r h U T|r r1 h mi U T U1 T1|r r1 r2 h mi s rest U T U1 T1 U2 T2].
  - apply loop_field; [discriminate|exact A|]. exists (DInt h), []. auto.
  - assert (A1 := takes_ascii _ _ _ _ _ T A). apply loop_field; [discriminate|exact A|]. exists (DInt h), r1. split; [exact U|]. split; [exact T|]. right. split; [eapply takes_ne; exact T1|].
    apply loop_field; [discriminate|exact A1|]. exists (DInt mi), []. auto.
  - assert (A1 := takes_ascii _ _ _ _ _ T A). assert (A2 := takes_ascii _ _ _ _ _ T1 A1). apply loop_field; [discriminate|exact A|]. exists (DInt h), r1. split; [exact U|]. split; [exact T|]. right. split; [eapply takes_ne; exact T1|].
    apply loop_field; [discriminate|exact A1|]. exists (DInt mi), r2. split; [exact U1|]. split; [exact T1|]. right. split; [eapply takes_ne; exact T2|].
    apply loop_field; [discriminate|exact A2|]. exists s, rest. split; [exact U2|]. split; [exact T2|]. destruct rest; [left; auto|right; split; [discriminate|reflexivity]].
Qed.
Lemma time_ne : forall r h mi s, reads_time r h mi s -> r <> [].
Proof. intros r h mi s [r0 h0 U T|r0 r1 h0 mi0 U T U1 T1|r0 r1 r2 h0 mi0 s0 rest U T U1 T1 U2 T2]; eapply takes_ne; exact T. Qed.
Lemma date_iff : forall r d, ascii r -> (d_loop d_format r d_zero = Ok d <-> reads_date r d).
Proof.
  intros r d A. unfold d_format, d_zero. split.
  - intro H. apply loop_field in H; [|discriminate|exact A]. destruct H as (z & r1 & U & T & H). destruct (takes_whole _ _ _ _ T) as [y ->]. assert (A1 := takes_ascii _ _ _ _ _ T A).
    destruct H as [[-> ->]|[N1 H]]; [apply RdYear; assumption|].
    apply loop_field in H; [|discriminate|exact A1]. destruct H as (z & r2 & U1 & T1 & H). destruct (takes_whole _ _ _ _ T1) as [m ->]. assert (A2 := takes_ascii _ _ _ _ _ T1 A1).
    destruct H as [[-> ->]|[N2 H]]; [eapply RdMon; eassumption|].
    apply loop_field in H; [|discriminate|exact A2]. destruct H as (z & r3 & U2 & T2 & H). destruct (takes_whole _ _ _ _ T2) as [dd ->]. assert (A3 := takes_ascii _ _ _ _ _ T2 A2).
    destruct H as [[-> ->]|[N3 H]]; [eapply RdDay; eassumption|]. apply loop_T in H. destruct H as (t & -> & Nt & H).
    assert (At : ascii t) by (intros c I; apply A3; right; exact I). cbn [d_put d_year d_mon d_mday d_hour d_min d_sec] in H. eapply time_iff in H; [|exact At|reflexivity..]. destruct H as (h & mi & s & Rt & ->). eapply RdTime; eassumption.
  - intro H. revert A. destruct H as [r0 y U T|r0 r1 y m U T U1 T1|r0 r1 r2 y m dd U T U1 T1 U2 T2|r0 r1 r2 t y m dd h mi s U T U1 T1 U2 T2 Rt]; intro A.
    + apply loop_field; [discriminate|exact A|]. exists (DInt y), []. auto.
    + assert (A1 := takes_ascii _ _ _ _ _ T A). apply loop_field; [discriminate|exact A|]. exists (DInt y), r1. split; [exact U|]. split; [exact T|]. right. split; [eapply takes_ne; exact T1|].
      apply loop_field; [discriminate|exact A1|]. exists (DInt m), []. auto.
    + assert (A1 := takes_ascii _ _ _ _ _ T A). assert (A2 := takes_ascii _ _ _ _ _ T1 A1). apply loop_field; [discriminate|exact A|]. exists (DInt y), r1. split; [exact U|]. split; [exact T|]. right. split; [eapply takes_ne; exact T1|].
      apply loop_field; [discriminate|exact A1|]. exists (DInt m), r2. split; [exact U1|]. split; [exact T1|]. right. split; [eapply takes_ne; exact T2|].
      apply loop_field; [discriminate|exact A2|]. exists (DInt dd), []. auto.
    + assert (A1 := takes_ascii _ _ _ _ _ T A). assert (A2 := takes_ascii _ _ _ _ _ T1 A1). assert (A3 := takes_ascii _ _ _ _ _ T2 A2). apply loop_field; [discriminate|exact A|]. exists (DInt y), r1. split; [exact U|]. split; [exact T|]. right. split; [eapply takes_ne; exact T1|].
      apply loop_field; [discriminate|exact A1|]. exists (DInt m), r2. split; [exact U1|]. split; [exact T1|]. right. split; [eapply takes_ne; exact T2|].
      apply loop_field; [discriminate|exact A2|]. exists (DInt dd), (84 :: t). split; [exact U2|]. split; [exact T2|]. right. split; [discriminate|].
      apply loop_T. exists t. split; [reflexivity|]. split; [eapply time_ne; exact Rt|]. apply time_loop; [|exact Rt]. intros c I. apply A3. right. exact I.
Qed.
Lemma duration_iff : forall text pos d, ascii text -> (parse_duration text = Ok (pos, d) <-> reads_duration text pos d).
Proof.
  assert (X : forall (pos : bool) (t : ustr) (d : duration), ascii t -> ((match t with [] => Err EIndexError | p :: t => if p =? 80 then do d <- d_loop d_format t d_zero; Ok (pos, d) else Err EValueError end) : res (bool * duration)) = Ok (pos, d) <->
     exists r, t = 80 :: r /\ reads_date r d).
  { intros pos t d A. destruct t as [|p t]; [split; [discriminate|intros (r & E & _); discriminate]|]. assert (At : ascii t) by (intros c I; apply A; right; exact I). destruct (N.eqb_spec p 80) as [->|Np].
    - split.
      + intro H. destruct (d_loop d_format t d_zero) as [d'|e] eqn:E; cbn [bind] in H; [|discriminate H]. injection H as <-. exists t. split; [reflexivity|apply date_iff; assumption].
      + intros (r & E & H). injection E as <-. apply date_iff in H; [|exact At]. rewrite H. reflexivity.
    - split; [discriminate|intros (r & E & _); injection E as E _; contradiction]. }
  intros text pos d A. unfold reads_duration. destruct text as [|c r]; [split; [discriminate|intros (r & E & _); destruct pos; discriminate E]|].
  unfold parse_duration. destruct (N.eqb_spec c 45) as [->|Nc].
  - assert (Ar : ascii r) by (intros x I; apply A; right; exact I). destruct pos.
    + split; [|intros (t & E & _); discriminate E]. intro H. exfalso. destruct r as [|p r]; [discriminate|]. destruct (p =? 80); [|discriminate]. destruct (d_loop _ _ _); discriminate.
    + rewrite (X false r d Ar). split; intros (t & E & H); exists t; (split; [|exact H]); [rewrite E; reflexivity|]. injection E as E. exact E.
  - destruct pos.
    + rewrite (X true (c :: r) d A). reflexivity.
    + split; [|intros (t & E & _); injection E as E _; contradiction]. intro H. exfalso. destruct (c =? 80); [|discriminate]. destruct (d_loop _ _ _); discriminate.
Qed.

(** ** integer parameters *)
Definition int_plain (C : clsdef) : bool := forallb (fun ks : ustr * pspec => match p_typ (snd ks), p_deser (snd ks) with TInt, Some _ => false | _, _ => true end) (cd_param C).
Lemma int_plain_all : forallb (fun c => int_plain (cdef c)) all_cls = true.
Proof. vm_compute. reflexivity. Qed.
Lemma int_no_deser : forall c k sp, dget (cd_param (cdef c)) k = Some sp -> p_typ sp = TInt -> p_deser sp = None.
Proof.
  intros c k sp H T. assert (P := int_plain_all). rewrite forallb_forall in P. specialize (P c (TypeLemmas.in_all_cls c)). unfold int_plain in P. rewrite forallb_forall in P. specialize (P _ (dget_In _ _ _ H)). cbn [snd] in P. rewrite T in P. destruct (p_deser sp); [discriminate|reflexivity].
Qed.
Lemma int_param : forall c k sp d s, dget (cd_param (cdef c)) k = Some sp -> p_typ sp = TInt -> ascii s ->
  (forall z, int_text s z -> setitem (cdef c) d k (VStr s) = (dset d k (VInt z), Ok tt)) /\
  ((forall z, ~ int_text s z) -> setitem (cdef c) d k (VStr s) = (d, Err EValueError)).
Proof.
  intros c k sp d s H T A. assert (D := int_no_deser c k sp H T). unfold setitem. rewrite H. unfold add_val. cbv zeta. rewrite T, D. cbn [andb isinstance py_int].
  split.
  - intros z Z. assert (E : py_int_str s = Ok z) by (apply int_text_iff; split; assumption). rewrite E. reflexivity.
  - intro N. rewrite (int_text_not s A N). reflexivity.
Qed.
Lemma numeral_dec : forall n, numeral (dec_N n) n.
Proof. intro n. apply numeral_iff. rewrite (TimeLemmas.digits_us_dec _ (dec_N_digits n) (dec_N_nonempty n)). rewrite num_of_dec_N. reflexivity. Qed.
Lemma int_written : forall z, int_text (dec_Z z) z.
Proof.
  assert (B : blanks []) by (intros c []). intro z. destruct z as [|p|p]; cbn [dec_Z].
  - exists [], [], [48], [], 0. split; [reflexivity|]. split; [exact B|]. split; [exact B|]. split; [left; reflexivity|]. split; [apply (NuOne 48); lia|reflexivity].
  - exists [], [], (dec_N (Npos p)), [], (Npos p). split; [rewrite app_nil_r; reflexivity|]. split; [exact B|]. split; [exact B|]. split; [left; reflexivity|]. split; [apply numeral_dec|reflexivity].
  - exists [], (u "-"), (dec_N (Npos p)), [], (Npos p). split; [rewrite app_nil_r; reflexivity|]. split; [exact B|]. split; [exact B|]. split; [right; right; reflexivity|]. split; [apply numeral_dec|reflexivity].
Qed.
