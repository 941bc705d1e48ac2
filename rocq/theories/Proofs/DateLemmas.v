(** The birthdate formats. *)
From Coq Require Import List NArith ZArith Bool String Lia ZifyBool ZifyN.
From Verif Require Import Base.Ustr Base.UstrLemmas Model.Cls Model.Value Model.Env Model.Verify
  Spec.MessageSpec Spec.VerifySpec Proofs.VerifyLemmas.
Import ListNotations.
Open Scope list_scope.
Open Scope N_scope.

Ltac Zify.zify_post_hook ::= Z.div_mod_to_equations.

Lemma is_digit_iff : forall c, is_digit c = true <-> 48 <= c <= 57.
Proof. intro c. unfold is_digit. lia. Qed.
Lemma between_iff : forall a b c, between a b c = true <-> a <= c <= b.
Proof. intros a b c. unfold between. lia. Qed.

Lemma two_digits_eq : forall n a b, 48 <= a <= 57 -> 48 <= b <= 57 -> n = (a - 48) * 10 + (b - 48) ->
  two_digits n = [a; b].
Proof.
  intros n a b Ha Hb ->. unfold two_digits.
  assert (H1 : 48 + ((a - 48) * 10 + (b - 48)) / 10 = a) by lia.
  assert (H2 : 48 + ((a - 48) * 10 + (b - 48)) mod 10 = b) by lia.
  rewrite H1, H2. reflexivity.
Qed.

(** ** years *)
Lemma p_year_in : forall s y r, In (y, r) (p_year s) -> exists t, year_text y t /\ s = t ++ r.
Proof.
  intros s y r H. destruct s as [|a [|b [|c [|d s]]]]; try destruct H.
  cbn [p_year] in H. destruct (is_digit a && is_digit b && is_digit c && is_digit d) eqn:E; [|destruct H].
  rewrite !andb_true_iff in E. destruct E as [[[E1 E2] E3] E4].
  apply is_digit_iff in E1, E2, E3, E4.
  destruct H as [H|[]]. injection H as <- <-.
  exists [a; b; c; d]. split; [|reflexivity]. split; [lia|].
  rewrite (two_digits_eq _ a b); [|assumption|assumption|lia].
  rewrite (two_digits_eq _ c d); [|assumption|assumption|lia]. reflexivity.
Qed.
Lemma p_year_app : forall y t r, year_text y t -> p_year (t ++ r) = [(y, r)].
Proof.
  intros y t r [Hy ->]. unfold two_digits. cbn [app p_year].
  set (a := 48 + y / 100 / 10). set (b := 48 + (y / 100) mod 10).
  set (c := 48 + y mod 100 / 10). set (d := 48 + (y mod 100) mod 10).
  assert (H : is_digit a && is_digit b && is_digit c && is_digit d = true).
  { rewrite !andb_true_iff, !is_digit_iff. subst a b c d. lia. }
  rewrite H. repeat f_equal. subst a b c d. lia.
Qed.

(** ** months and days *)
Lemma In_alts : forall l x, In x (alts l) <-> In (Some x) l.
Proof.
  intros l x. unfold alts. rewrite in_concat. split.
  - intros [y [Hy Hx]]. apply in_map_iff in Hy. destruct Hy as [[z|] [<- Hz]]; [|destruct Hx].
    destruct Hx as [<-|[]]. assumption.
  - intro H. exists [x]. split; [|left; reflexivity]. apply in_map_iff. exists (Some x). auto.
Qed.
Lemma two_some : forall f g s n r, two f g s = Some (n, r) ->
  exists a b, s = a :: b :: r /\ f a = true /\ g b = true /\ n = (a - 48) * 10 + (b - 48).
Proof.
  intros f g s n r H. destruct s as [|a [|b s]]; try discriminate. cbn [two] in H.
  destruct (f a && g b) eqn:E; [|discriminate]. apply andb_true_iff in E. injection H as <- <-.
  exists a, b. tauto.
Qed.
Lemma one_some : forall g s n r, one g s = Some (n, r) -> exists b, s = b :: r /\ g b = true /\ n = b - 48.
Proof.
  intros g s n r H. destruct s as [|b s]; try discriminate. cbn [one] in H.
  destruct (g b) eqn:E; [|discriminate]. injection H as <- <-. eauto.
Qed.

Lemma p_month_in : forall s m r, In (m, r) (p_month s) -> exists t, month_text m t /\ s = t ++ r.
Proof.
  intros s m r H. unfold p_month in H. apply In_alts in H. cbn [In] in H.
  destruct H as [H|[H|[H|[]]]].
  - apply two_some in H. destruct H as [a [b [-> [Ha [Hb ->]]]]]. apply N.eqb_eq in Ha. apply between_iff in Hb.
    exists [a; b]. split; [|reflexivity]. split; [lia|]. left. symmetry. apply two_digits_eq; lia.
  - apply two_some in H. destruct H as [a [b [-> [Ha [Hb ->]]]]]. apply N.eqb_eq in Ha. apply between_iff in Hb.
    exists [a; b]. split; [|reflexivity]. split; [lia|]. left. symmetry. apply two_digits_eq; lia.
  - apply one_some in H. destruct H as [b [-> [Hb ->]]]. apply between_iff in Hb.
    exists [b]. split; [|reflexivity]. split; [lia|]. right. split; [lia|]. f_equal. lia.
Qed.
Lemma p_day_in : forall s d r, In (d, r) (p_day s) -> exists t, day_text d t /\ s = t ++ r.
Proof.
  intros s d r H. unfold p_day in H. apply In_alts in H. cbn [In] in H.
  destruct H as [H|[H|[H|[H|[H|[]]]]]].
  - apply two_some in H. destruct H as [a [b [-> [Ha [Hb ->]]]]]. apply N.eqb_eq in Ha. apply between_iff in Hb.
    exists [a; b]. split; [|reflexivity]. split; [lia|]. left. symmetry. apply two_digits_eq; lia.
  - apply two_some in H. destruct H as [a [b [-> [Ha [Hb ->]]]]]. apply between_iff in Ha. apply is_digit_iff in Hb.
    exists [a; b]. split; [|reflexivity]. split; [lia|]. left. symmetry. apply two_digits_eq; lia.
  - apply two_some in H. destruct H as [a [b [-> [Ha [Hb ->]]]]]. apply N.eqb_eq in Ha. apply between_iff in Hb.
    exists [a; b]. split; [|reflexivity]. split; [lia|]. left. symmetry. apply two_digits_eq; lia.
  - apply one_some in H. destruct H as [b [-> [Hb ->]]]. apply between_iff in Hb.
    exists [b]. split; [|reflexivity]. split; [lia|]. right. split; [lia|]. left. f_equal. lia.
  - destruct s as [|a s]; [discriminate|].
    destruct (N.eq_dec a 32) as [->|Hne].
    + apply one_some in H. destruct H as [b [-> [Hb ->]]]. apply between_iff in Hb.
      exists [32; b]. split; [|reflexivity]. split; [lia|]. right. split; [lia|]. right. repeat f_equal. lia.
    + exfalso. destruct a as [|p]; [discriminate|].
      do 6 (destruct p as [p|p|]; try discriminate); congruence.
Qed.

(** the texts, enumerated *)
Definition upto (n : nat) : list N := map N.of_nat (seq 1 n).
Lemma in_upto : forall n k, 1 <= k <= N.of_nat n -> In k (upto n).
Proof.
  intros n k H. unfold upto. apply in_map_iff. exists (N.to_nat k). split; [lia|]. apply in_seq. lia.
Qed.

Lemma month_dash : forall A m t r (f : N * ustr -> list A), month_text m t ->
  List.concat (map (fun mr => let '(m, r) := mr in List.concat (map (fun r => f (m, r)) (p_lit 45 r))) (p_month (t ++ 45 :: r)))
  = f (m, r).
Proof.
  intros A m t r f [Hm Ht]. apply (in_upto 12) in Hm. cbv in Hm.
  repeat (destruct Hm as [<-|Hm]; [destruct Ht as [->|[Hle ->]]; [|try lia];
    cbv - [app]; cbn [app]; rewrite ?app_nil_r; reflexivity|]).
  destruct Hm.
Qed.
Lemma day_hd : forall d t, day_text d t -> exists l, p_day t = (d, []) :: l.
Proof.
  intros d t [Hd Ht]. apply (in_upto 31) in Hd. cbv in Hd.
  repeat (destruct Hd as [<-|Hd]; [destruct Ht as [->|[Hle [->| ->]]]; [|try lia|try lia]; eexists; reflexivity|]).
  destruct Hd.
Qed.

(** ** the calendar *)
Lemma leap_iff : forall y, leap y = true <-> leap_year y.
Proof. intro y. unfold leap, leap_year. lia. Qed.
Lemma valid_date_iff : forall y m d, valid_date y m d = true <-> calendar_date y m d.
Proof.
  intros y m d. unfold valid_date, calendar_date. rewrite !andb_true_iff, !N.leb_le.
  rewrite <- leap_iff. split.
  - intros [[[[[H1 H2] H3] H4] H5] H6]. split; [lia|]. split; [lia|].
    assert (Hm : In m (upto 12)) by (apply in_upto; lia). cbv in Hm.
    repeat (destruct Hm as [<-|Hm]; [unfold month_days in H6; cbn in H6; destruct (leap y); cbn; lia|]). destruct Hm.
  - intros [H1 [H2 H]].
    assert (Hm : 1 <= m <= 12) by (destruct H as [[H _]|[[H _]|[H _]]]; [cbn in H; lia|cbn in H; lia|lia]).
    repeat (split; [lia|]).
    assert (Hm2 : In m (upto 12)) by (apply in_upto; lia). cbv in Hm2.
    repeat (destruct Hm2 as [<-|Hm2]; [unfold month_days; cbn; cbn in H; destruct (leap y); lia|]). destruct Hm2.
Qed.

(** ** the three formats *)
Lemma hd_error_In : forall A (l : list A) x, hd_error l = Some x -> In x l.
Proof. intros A [|y l] x H; [discriminate|]. injection H as ->. left. reflexivity. Qed.
Lemma p_lit_in : forall c s r, In r (p_lit c s) -> s = c :: r.
Proof.
  intros c [|x s] r H; [destruct H|]. cbn in H. destruct (x =? c) eqn:E; [|destruct H].
  destruct H as [<-|[]]. apply N.eqb_eq in E. congruence.
Qed.
Lemma in_concat_map : forall A B (f : A -> list B) l y, In y (List.concat (map f l)) <-> exists x, In x l /\ In y (f x).
Proof.
  intros A B f l y. rewrite in_concat. split.
  - intros [z [Hz Hy]]. apply in_map_iff in Hz. destruct Hz as [x [<- Hx]]. eauto.
  - intros [x [Hx Hy]]. exists (f x). split; [apply in_map; assumption|assumption].
Qed.

Lemma strptime_ymd_iff : forall s, strptime_ymd s = true <->
  exists y m d ty tm td, year_text y ty /\ month_text m tm /\ day_text d td /\ calendar_date y m d /\
    s = ty ++ [45] ++ tm ++ [45] ++ td.
Proof.
  intro s. unfold strptime_ymd. split.
  - destruct (match_ymd s) as [[[[y m] d] r]|] eqn:E; [|discriminate]. intro H.
    apply andb_true_iff in H. destruct H as [Hr Hv]. destruct r; [|discriminate].
    unfold match_ymd in E. apply hd_error_In in E.
    apply in_concat_map in E. destruct E as [[y' r1] [H1 E]].
    apply in_concat_map in E. destruct E as [r2 [H2 E]].
    apply in_concat_map in E. destruct E as [[m' r3] [H3 E]].
    apply in_concat_map in E. destruct E as [r4 [H4 E]].
    apply in_map_iff in E. destruct E as [[d' r5] [E H5]].
    injection E as -> -> -> ->.
    apply p_year_in in H1. destruct H1 as [ty [Hty ->]]. apply p_lit_in in H2. subst r1.
    apply p_month_in in H3. destruct H3 as [tm [Htm ->]]. apply p_lit_in in H4. subst r3.
    apply p_day_in in H5. destruct H5 as [td [Htd ->]].
    exists y, m, d, ty, tm, td. rewrite app_nil_r. apply valid_date_iff in Hv. auto.
  - intros [y [m [d [ty [tm [td [Hy [Hm [Hd [Hc ->]]]]]]]]]].
    unfold match_ymd. rewrite (p_year_app _ _ _ Hy). cbn [map List.concat]. rewrite app_nil_r.
    cbn [app p_lit]. change (45 =? 45) with true. cbn [map List.concat]. rewrite app_nil_r.
    rewrite (month_dash _ m tm td (fun mr => let '(m, r) := mr in
               map (fun dr => let '(d, r) := dr in (y, m, d, r)) (p_day r)) Hm).
    destruct (day_hd _ _ Hd) as [l ->]. cbn [map hd_error is_nil andb].
    apply valid_date_iff. assumption.
Qed.

Lemma strptime_y_iff : forall s, strptime_y s = true <-> exists y, year_text y s /\ 1 <= y.
Proof.
  intro s. unfold strptime_y, match_y. split.
  - destruct (hd_error (p_year s)) as [[y r]|] eqn:E; [|discriminate]. intro H.
    apply andb_true_iff in H. destruct H as [Hr Hv]. destruct r; [|discriminate].
    apply hd_error_In in E. apply p_year_in in E. destruct E as [t [Ht ->]]. rewrite app_nil_r.
    exists y. split; [assumption|]. apply valid_date_iff in Hv. destruct Hv as [Hv _]. lia.
  - intros [y [Hy H1]]. rewrite <- (app_nil_r s). rewrite (p_year_app _ _ _ Hy). cbn [hd_error is_nil andb].
    apply valid_date_iff. split; [destruct Hy; lia|]. split; [lia|]. left. split; [left; reflexivity|lia].
Qed.

Lemma no_year_date : forall m d,
  calendar_date (if (m =? 2) && (d =? 29) then 1904 else 1900) m d <-> calendar_date 4 m d.
Proof.
  intros m d. unfold calendar_date, leap_year.
  assert (L : 4 mod 4 = 0 /\ (4 mod 100 <> 0 \/ 4 mod 400 = 0)) by (cbv; split; [reflexivity|left; discriminate]).
  assert (L2 : 1904 mod 4 = 0 /\ (1904 mod 100 <> 0 \/ 1904 mod 400 = 0)) by (cbv; split; [reflexivity|left; discriminate]).
  destruct ((m =? 2) && (d =? 29)) eqn:E.
  - split; intros [H1 [H2 H3]]; (split; [lia|]); (split; [assumption|]); tauto.
  - split; intros [H1 [H2 H3]]; (split; [lia|]); (split; [assumption|]);
      destruct H3 as [H3|[H3|[H3 [H4|[H4 _]]]]]; auto; exfalso; lia.
Qed.

Lemma strptime_0md_iff : forall s, strptime_0md s = true <->
  exists m d tm td, month_text m tm /\ day_text d td /\ calendar_date 4 m d /\ s = u "0000-" ++ tm ++ [45] ++ td.
Proof.
  intro s. unfold strptime_0md, match_0md. split.
  - destruct (startswith (u "0000-") s) eqn:Es; [|discriminate]. apply startswith_iff in Es. destruct Es as [s' ->].
    change (skipn 5 (u "0000-" ++ s')) with s'.
    destruct (hd_error _) as [[[m d] r]|] eqn:E; [|discriminate]. intro H.
    apply andb_true_iff in H. destruct H as [Hr Hv]. destruct r; [|discriminate].
    apply hd_error_In in E.
    apply in_concat_map in E. destruct E as [[m' r3] [H3 E]].
    apply in_concat_map in E. destruct E as [r4 [H4 E]].
    apply in_map_iff in E. destruct E as [[d' r5] [E H5]].
    injection E as -> -> ->.
    apply p_month_in in H3. destruct H3 as [tm [Htm ->]]. apply p_lit_in in H4. subst r3.
    apply p_day_in in H5. destruct H5 as [td [Htd ->]].
    exists m, d, tm, td. rewrite app_nil_r. apply valid_date_iff, no_year_date in Hv. auto.
  - intros [m [d [tm [td [Hm [Hd [Hc ->]]]]]]].
    assert (Hs : startswith (u "0000-") (u "0000-" ++ tm ++ [45] ++ td) = true) by (apply startswith_iff; eauto).
    rewrite Hs. change (skipn 5 (u "0000-" ++ tm ++ [45] ++ td)) with (tm ++ [45] ++ td). cbn [app].
    rewrite (month_dash _ m tm td (fun mr => let '(m, r) := mr in
               map (fun dr => let '(d, r) := dr in (m, d, r)) (p_day r)) Hm).
    destruct (day_hd _ _ Hd) as [l ->]. cbn [map hd_error is_nil andb].
    apply valid_date_iff, no_year_date. assumption.
Qed.

Lemma year_ascii : forall y t, year_text y t -> forallb is_ascii t = true.
Proof. intros y t [Hy ->]. unfold two_digits. cbn [app forallb]. unfold is_ascii. lia. Qed.
Lemma month_ascii : forall m t, month_text m t -> forallb is_ascii t = true.
Proof. intros m t [Hm [->|[H ->]]]; unfold two_digits; cbn [forallb]; unfold is_ascii; lia. Qed.
Lemma day_ascii : forall m t, day_text m t -> forallb is_ascii t = true.
Proof. intros m t [Hm [->|[H [->| ->]]]]; unfold two_digits; cbn [forallb]; unfold is_ascii; lia. Qed.

Lemma birthdate_iff : forall v, birthdate_check v = Ok tt <-> exists s, v = VStr s /\ birthdate_text s.
Proof.
  intro v. destruct v as [| | | |s| | |]; try (split; [discriminate|intros [t [H _]]; discriminate]).
  cbn [birthdate_check]. split.
  - destruct (forallb is_ascii s); [|discriminate].
    destruct (strptime_ymd s || strptime_y s || strptime_0md s) eqn:E; [|discriminate]. intros _.
    exists s. split; [reflexivity|]. apply orb_true_iff in E. destruct E as [E|E]; [apply orb_true_iff in E; destruct E as [E|E]|].
    + apply strptime_ymd_iff in E. destruct E as [y [m [d [ty [tm [td [H1 [H2 [H3 [H4 ->]]]]]]]]]]. econstructor; eassumption.
    + apply strptime_y_iff in E. destruct E as [y [H1 H2]]. econstructor; eassumption.
    + apply strptime_0md_iff in E. destruct E as [m [d [tm [td [H1 [H2 [H3 ->]]]]]]]. econstructor; eassumption.
  - intros [t [H Ht]]. injection H as <-.
    assert (Ha : forallb is_ascii s = true).
    { destruct Ht as [y m d ty tm td Hy Hm Hd _|y ty Hy _|m d tm td Hm Hd _];
        rewrite ?forallb_app, ?(year_ascii _ _ Hy), ?(month_ascii _ _ Hm), ?(day_ascii _ _ Hd); reflexivity. }
    rewrite Ha.
    assert (H : strptime_ymd s || strptime_y s || strptime_0md s = true).
    { rewrite !orb_true_iff. destruct Ht as [y m d ty tm td Hy Hm Hd Hc|y ty Hy H1|m d tm td Hm Hd Hc].
      - left. left. apply strptime_ymd_iff. exists y, m, d, ty, tm, td. auto.
      - left. right. apply strptime_y_iff. eauto.
      - right. apply strptime_0md_iff. exists m, d, tm, td. auto. }
    rewrite H. reflexivity.
Qed.

(** the fixed-width formats are among those accepted *)
Lemma birthdate_strict_text : forall s, birthdate_strict s -> birthdate_text s.
Proof.
  assert (B : forall y m d, calendar_date y m d -> 1 <= m <= 12 /\ 1 <= d <= 31).
  { intros y m d [_ [H1 H]]. destruct H as [[H H2]|[[H H2]|[H H2]]]; cbn in H; lia. }
  intros s [y m d Hy Hc|y Hy|m d Hc].
  - destruct (B _ _ _ Hc) as [Hm Hd]. rewrite app_assoc.
    apply (BdFull y m d); [split; auto|split; auto|split; auto|assumption].
  - apply (BdYear y); [split; [lia|reflexivity]|lia].
  - destruct (B _ _ _ Hc) as [Hm Hd]. apply (BdNoYear m d); [split; auto|split; auto|assumption].
Qed.

Lemma schema_verify_ok : forall C d b, schema_verify C d = Ok b <-> schema_ok C d /\ (b = true <-> ~ has_null d).
Proof.
  intros C d b. unfold schema_verify, schema_ok.
  assert (N : existsb (fun kv => match snd kv with VNone => true | _ => false end) d = true <-> has_null d).
  { rewrite existsb_exists. split.
    - intros [[k v] [Hin Hv]]. cbn in Hv. destruct v; try discriminate. exists k. assumption.
    - intros [k H]. exists (k, VNone). auto. }
  assert (R : (do _ <- response_verify C d ;
    do _ <- match dget d (u "birthdate") with Some v => birthdate_check v | None => Ok tt end ; Ok tt) = Ok tt <->
    response_ok C d /\ (forall v, dget d (u "birthdate") = Some v -> exists s, v = VStr s /\ birthdate_text s)).
  { split.
    - intro H. bo H. bo H. apply response_verify_ok in Hx. split; [tauto|]. intros v Hv. rewrite Hv in Hx0.
      apply birthdate_iff. destruct x0. assumption.
    - intros [H1 H2]. assert (Hr : response_verify C d = Ok true) by (apply response_verify_ok; auto).
      rewrite Hr. cbn [bind]. destruct (dget d (u "birthdate")) as [v|]; [|reflexivity].
      specialize (H2 v eq_refl). apply birthdate_iff in H2. rewrite H2. reflexivity. }
  rewrite <- R. clear R. destruct (response_verify C d) as [x|e]; cbn [bind].
  2: { split; [discriminate|intros [H _]; discriminate]. }
  destruct (match dget d (u "birthdate") with Some v => birthdate_check v | None => Ok tt end) as [y|e]; cbn [bind].
  2: { split; [discriminate|intros [H _]; discriminate]. }
  set (e := existsb _ d) in *. destruct e; cbn [negb].
  - split.
    + intro H. injection H as <-. split; [reflexivity|]. split; [discriminate|]. tauto.
    + intros [_ H]. destruct b; [|reflexivity]. exfalso. apply H; [reflexivity|]. tauto.
  - split.
    + intro H. injection H as <-. split; [reflexivity|]. split; [|reflexivity]. intros _ Hn. apply N in Hn. discriminate.
    + intros [_ H]. destruct b; [reflexivity|]. exfalso. assert (false = true); [|discriminate]. apply H. intro Hn. apply N in Hn. discriminate.
Qed.
